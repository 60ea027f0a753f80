#!/usr/bin/env python3
"""Transcribe the typed reader/writer methods of v2 from Go to Rocq.

Usage: gen_typed_v2.py <go file> <receiver> <rocq module to build on> > out.v
Every non-blank line of every typed function must match one of the patterns
below; anything else aborts, so nothing is skipped silently."""
import re, sys
path, recv, mod = sys.argv[1:4]
rel = path.split("/repo/")[-1]
src = open(path).read().split("\n")
WIDTH = {"16": 2, "32": 4, "64": 8}

def idx(s):
    s = s.strip()
    m = re.fullmatch(r"i\*(\d)", s)
    if m: return f"i *! {m[1]}"
    m = re.fullmatch(r"(\d)\+\(i\*(\d)\)", s)
    if m: return f"{m[1]} +! (i *! {m[2]})"
    raise SystemExit("index? " + s)

def die(l): raise SystemExit("unrecognised line: " + l)

out, names = [], []
i = 0
while i < len(src):
    m = re.match(rf"func \(b \*{recv}\) (([wWrR])(rite|ead)U(16|32|64)(LE|BE)(Next)?)\((.*?)\)(.*) \{{", src[i])
    if not m: i += 1; continue
    name, first, _, bits, endian, nxt, params, ret = m.groups()
    kind = "Write" if first in "wW" else "Read"
    private = first in "wr"
    j = i
    while src[j] != "}": j += 1
    body = [l.strip() for l in src[i+1:j] if l.strip()]
    w = WIDTH[bits]
    goty = "uint" + bits
    low = name[0].lower() + name[1:]
    lines, args = [], ""
    if not private and not nxt:
        if kind == "Write":
            assert params == f"off int64, data []{goty}" and body == [f"b.{low}(off, data)"], body
            args, lines = "(off : Z) (data : list Z) : prog unit", [f"{low} off data."]
        elif recv == "Buffer":
            assert params == "off, n int64" and ret == f" []{goty}" and body == [f"return b.{low}(off, n)"], body
            args, lines = "(off n : Z) : prog (list Z)", [f"{low} off n."]
        else:
            assert params == f"out *[]{goty}, off, n int64" and body == [f"b.{low}(out, off, n)"], body
            args, lines = "(off n : Z) : prog unit", [f"{low} off n."]
    elif nxt:
        base = low[:-4]
        if kind == "Write":
            assert params == f"data []{goty}", params
            assert body == [f"b.{base}(b.off, data)", f"b.seek(int64(len(data))*{w}, true)"], body
            args = "(data : list Z) : prog unit"
            lines = ["off <- get FOff ;;", f"{base} off data ;;", f"seek (zlen data *! {w}) true."]
        elif recv == "Buffer":
            assert params == "n int64" and ret == f" (out []{goty})", (params, ret)
            assert body == [f"out = b.{base}(b.off, n)", f"b.seek(n*{w}, true)", "return"], body
            args = "(n : Z) : prog (list Z)"
            lines = ["off <- get FOff ;;", f"out <- {base} off n ;;", f"seek (n *! {w}) true ;;", "Ret out."]
        else:
            assert params == f"out *[]{goty}, n int64", params
            assert body == [f"b.{base}(out, b.off, n)", f"b.seek(n*{w}, true)"], body
            args = "(n : Z) : prog unit"
            lines = ["off <- get FOff ;;", f"{base} off n ;;", f"seek (n *! {w}) true."]
    else:
        k = 0
        if recv == "Buffer":
            over = "BufferOverwriteError" if kind == "Write" else "BufferOverreadError"
            under = "BufferUnderwriteError" if kind == "Write" else "BufferUnderreadError"
            size = f"int64(len(data))*{w}" if kind == "Write" else f"n*{w}"
            szq = f"zlen data *! {w}" if kind == "Write" else f"n *! {w}"
            assert body[0] == f"if (off + {size}) > b.cap {{", body[0]
            assert body[1] == f"panic({over})" and body[2] == "}"
            assert body[3] == "if off < 0x00 {" and body[4] == f"panic({under})" and body[5] == "}"
            lines += ["cap <- get FCap ;;", f"panic_if (off +! {szq} >? cap) {over} ;;", f"panic_if (off <? 0) {under} ;;"]
            k = 6
        if kind == "Write":
            assert params == f"off int64, data []{goty}", params
            args = "(off : Z) (data : list Z) : prog unit"
            if recv == "Buffer":
                assert body[k] == "b.Lock()"; k += 1
                lines.append("lock ;;")
            assert body[k:k+6] == ["var (", "i = 0", "n = len(data)", ")", "{", "write_loop:"], body[k:]
            k += 6
            stm = []
            while body[k] != "i++":
                m2 = re.fullmatch(r"b\.buf\[off\+int64\((.*)\)\] = byte\((.*)\)", body[k]) or die(body[k])
                e = m2[2]
                assert e.startswith("data[i]"), e
                rest = e[7:]
                if rest == "": v = "d"
                else:
                    m3 = re.fullmatch(r" >> (\d+)", rest) or die(body[k])
                    v = f"(shr {bits} d {m3[1]})"
                stm.append(f"d <- elem data i ;; buf_set (off +! ({idx(m2[1])})) (byte {v})")
                k += 1
            assert body[k:k+5] == ["i++", "if i < n {", "goto write_loop", "}", "}"], body[k:]
            lines.append("goto_loop (zlen data) (fun i _ =>")
            tail = body[k+5:]
            if recv == "Buffer":
                assert tail == ["b.Unlock()"], tail
            else:
                assert tail == [], tail
            for q, s in enumerate(stm):
                last = ") tt ;;" if recv == "Buffer" else ") tt."
                lines.append("  " + s + (" ;;" if q < len(stm)-1 else last))
            if recv == "Buffer": lines.append("unlock.")
        else:
            if recv == "Buffer":
                assert params == "off, n int64" and ret == f" (out []{goty})", (params, ret)
                args = "(off n : Z) : prog (list Z)"
                assert body[k:k+3] == [f"out = make([]{goty}, n)", "b.Lock()", "defer b.Unlock()"]; k += 3
                lines += [f"out <- make_elems {w} n ;;", "locked ("]
            else:
                assert params == f"out *[]{goty}, off, n int64", params
                args = "(off n : Z) : prog unit"
            assert body[k:k+3] == ["i := int64(0)", "{", "read_loop:"], body[k:]; k += 3
            lhs = "out[i]" if recv == "Buffer" else "(*out)[i]"
            expr = ""
            while body[k] != "i++":
                expr += body[k] + " "; k += 1
            expr = expr.strip()
            assert expr.startswith(lhs + " = "), expr
            expr = expr[len(lhs)+3:]
            acc = None; loads = []
            for q, t in enumerate(expr.split(" | ")):
                m3 = re.fullmatch(goty + r"\(b\.buf\[off\+\((.*)\)\]\)(?:<<(\d+))?", t) or die(t)
                loads.append(f"x{q} <- buf_get (off +! ({idx(m3[1])})) ;;")
                v = f"uconv {bits} x{q}"
                if m3[2]: v = f"ushl {bits} ({v}) {m3[2]}"
                acc = f"({v})" if acc is None else f"(Z.lor {acc} ({v}))"
            assert body[k:k+5] == ["i++", "if i < n {", "goto read_loop", "}", "}"], body[k:]
            assert body[k+5:] == (["return"] if recv == "Buffer" else []), body[k+5:]
            if recv == "Buffer":
                lines.append("  goto_loop n (fun i out =>")
                lines += ["    " + x for x in loads]
                lines.append(f"    set_elem out i {acc}) out).")
            else:
                lines.append("goto_loop n (fun i _ =>")
                lines += ["  " + x for x in loads]
                lines.append(f"  GetOuts (fun out => out' <- set_elem out i {acc} ;; SetOuts out' (Ret tt))) tt.")
    out.append(f"(** {rel}:{i+1}-{j+1} *)\nDefinition {name} {args} :=\n" + "\n".join("  " + l for l in lines) + "\n")
    names.append(name)
    i = j
assert len(names) == 36, len(names)
print(f"""(** * Typed methods of [{recv}], transcribed from {rel} by tools/gen_typed_v2.py. *)
From Coq Require Import ZArith List Bool.
From Verif Require Import GoSem Errors {mod}.
Import ListNotations.
Open Scope Z_scope.
Open Scope go_scope.
""")
print("\n".join(out))
