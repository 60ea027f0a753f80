#!/usr/bin/env python3
"""Writes MANIFEST.json: the theorems named Cnn_* in the property files, per property."""
import glob, json, os, re
root = os.path.dirname(os.path.dirname(os.path.abspath(__file__)))
ids = [json.loads(l)["id"] for l in open(os.path.join(root, "properties.jsonl"))]
notes = json.load(open(os.path.join(root, "tools", "notes.json")))
thms = {}
listed = [l.strip() for l in open(os.path.join(root, "rocq", "_CoqProject")) if l.strip().endswith(".v")]
for f in listed:
    if not os.path.basename(f).startswith("Props_"):
        continue
    for m in re.finditer(r"^(?:Theorem|Lemma|Corollary)\s+((C\d\d+)_\w+)", open(os.path.join(root, "rocq", f)).read(), re.M):
        thms.setdefault(m.group(2), []).append(m.group(1))
claims = []
for i in ids:
    if i in thms:
        t = thms[i]
        n = notes.get(i, {})
        status = n.get("status") or ("partial" if all(x.endswith("_partial") for x in t) else "proved")
        claims.append({"property": i, "status": status, "theorems": t, "note": n.get("note", "")})
    elif notes.get(i, {}).get("status") == "not_applicable":
        claims.append({"property": i, "status": "not_applicable", "theorems": [], "note": notes[i]["note"]})
json.dump({"claims": claims}, open(os.path.join(root, "MANIFEST.json"), "w"), indent=1)
print(len(claims), "of", len(ids), "missing:", [i for i in ids if i not in [c["property"] for c in claims]])
