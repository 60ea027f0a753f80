#!/usr/bin/env python3
"""Tries the theorems on wrong programs.

usage: mutate.py WORKDIR [ID ...]     (mutants are listed in seeded/mutants.json)

Each mutant is a textual edit of one definition of the model.  The edit is made in a
scratch copy of a built tree; every file that depends on it is compiled again.  A proof
that no longer compiles is replaced by Admitted in the scratch copy and the compilation
goes on, so that at the end Print Assumptions under each property theorem tells whether
it rests on a broken proof.  One line per mutant is appended to WORKDIR/out.jsonl.

MUT_TARGETS, a list of files such as Props_Work.v, limits the compilation to what these
files depend on; then only their theorems are tried."""
import json, os, re, shutil, subprocess, sys
root = os.path.dirname(os.path.dirname(os.path.abspath(__file__)))
work = sys.argv[1]
base = os.environ.get("MUT_SRC", os.path.join(root, "rocq"))   # a built tree
only = set(sys.argv[2:])
targets = os.environ.get("MUT_TARGETS", "").split()
mutants = [m for m in json.load(open(os.path.join(root, "seeded", "mutants.json"))) if not only or m["id"] in only]
order = [l.strip() for l in open(os.path.join(base, "_CoqProject")) if l.strip().endswith(".v")]

def deps(d):
    out = subprocess.run(["coqdep", "-Q", "theories", "Verif"] + order, cwd=d, capture_output=True, text=True).stdout
    g = {}
    for line in out.splitlines():
        if ":" not in line or ".vo" not in line.split(":")[0]: continue
        l, r = line.split(":", 1)
        f = l.split()[0][:-1]
        g[f] = [x[:-1] for x in r.split() if x.endswith(".vo")]
    return g

def sorted_by(g):
    """The files, each after those it depends on."""
    done, out = set(), []
    def visit(f):
        if f in done: return
        done.add(f)
        for x in g.get(f, []):
            if x in g: visit(x)
        out.append(f)
    for f in order: visit(f)
    return out

HEAD = re.compile(r"^\s*(?:Local |Global )?(Theorem|Lemma|Corollary|Example|Fact|Definition|Fixpoint)\s+([A-Za-z0-9_']+)", re.M)

def compile_admitting(d, f, broken):
    path = os.path.join(d, f)
    while True:
        p = subprocess.run(["timeout", "600", "coqc", "-Q", "theories", "Verif", f], cwd=d, capture_output=True, text=True)
        if p.returncode == 0: return p.stdout
        err = p.stdout + p.stderr
        m = re.findall(r'line (\d+), characters (\d+)-', err)
        if p.returncode == 124 or not m:
            # a proof that runs away: find it with -time
            q = subprocess.run(["timeout", "600", "coqc", "-time", "-Q", "theories", "Verif", f], cwd=d, capture_output=True, text=True)
            cs = re.findall(r"Chars (\d+) - (\d+)", q.stdout)
            pos = int(cs[-1][1]) + 1 if cs else 0
            src = open(path, "rb").read()
        else:
            src = open(path, "rb").read()
            lines = src.split(b"\n")
            ln = int(m[-1][0]); pos = sum(len(x) + 1 for x in lines[:ln - 1]) + int(m[-1][1])
        text = src.decode()
        # byte position to character position
        pos = len(src[:pos].decode(errors="ignore"))
        heads = [h for h in HEAD.finditer(text) if h.start() <= pos]
        if not heads: raise Exception("no head: " + err[:500])
        h = heads[-1]
        pr = re.compile(r"\bProof(?: using[^.]*)?\.").search(text, h.end())
        if pr is None: raise Exception("no proof: " + err[:800])
        nxt = HEAD.search(text, h.end())
        if nxt and nxt.start() < pr.start(): raise Exception("error outside a proof in %s: %s" % (f, err[:800]))
        q = re.compile(r"\bQed\.|\bDefined\.").search(text, pr.end())
        broken.append(h.group(2))
        text = text[:pr.start()] + "Admitted." + text[q.end():]
        open(path, "w").write(text)

for mu in mutants:
    d = os.path.join(work, mu["id"])
    shutil.rmtree(d, ignore_errors=True)
    shutil.copytree(base, d)
    dirty, wrong = set(), None
    for e in [mu] + mu.get("also", []):
        f = "theories/" + e["file"]
        text = open(os.path.join(d, f)).read()
        start = 0
        if "def" in e:
            start = re.search(r"(Definition|Fixpoint) %s\b" % re.escape(e["def"]), text).start()
        i = text.find(e["old"], start)
        if i < 0: wrong = "pattern not found: " + e["old"]; break
        open(os.path.join(d, f), "w").write(text[:i] + e["new"] + text[i + len(e["old"]):])
        dirty.add(f)
    rec = dict(id=mu["id"], definition=mu["file"] + ":" + mu.get("def", ""), edit="%s  ->  %s" % (mu["old"], mu["new"]), claim=mu["claim"])
    if "also" in mu: rec["edit"] += "  (and the Go text likewise)"
    if wrong:
        rec["error"] = wrong; print(json.dumps(rec)); continue
    g = deps(d)
    wanted = set(g)
    if targets:
        wanted, todo = set(), ["theories/" + t for t in targets]
        while todo:
            f = todo.pop()
            if f not in wanted: wanted.add(f); todo += [x for x in g.get(f, []) if x in g]
    broken, failed, errors = [], [], []
    for x in sorted_by(g):
        if x not in wanted: continue
        if x not in dirty and not (set(g.get(x, [])) & dirty): continue
        dirty.add(x)
        try:
            out = compile_admitting(d, x, broken)
        except Exception as e:
            errors.append("%s: %s" % (x, e)); break
        if os.path.basename(x).startswith("Props_"):
            names = re.findall(r"^Print Assumptions ([A-Za-z0-9_']+)\.", open(os.path.join(d, x)).read(), re.M)
            blocks = re.split(r"(?m)^(?=Closed under the global context|Axioms:)", out)
            blocks = [b for b in blocks if b.startswith("Closed") or b.startswith("Axioms:")]
            assert len(names) == len(blocks), (x, len(names), len(blocks))
            for n, b in zip(names, blocks):
                ax = set(re.findall(r"^([A-Za-z0-9_'.]+)\s*:", b, re.M))
                if {a.split(".")[-1] for a in ax} & set(broken): failed.append(n)
    if targets: rec["tried"] = targets
    rec["broken_proofs"] = broken
    rec["failed"] = failed
    if errors: rec["error"] = errors
    open(os.path.join(work, "out.jsonl"), "a").write(json.dumps(rec) + "\n")
    print(mu["id"], len(broken), len(failed), errors, flush=True)
    shutil.rmtree(d, ignore_errors=True)
