#!/usr/bin/env python3
"""Transcribe the typed reader/writer methods of v3 from Go to Rocq.

Usage: gen_typed.py <go file> <receiver> <rocq module to build on> > out.v
Every line of every typed function must match one of the patterns below;
anything else aborts, so nothing is skipped silently."""
import re, sys
path, recv, mod = sys.argv[1:4]
rel = path.split("/repo/")[-1]
src = open(path).read().split("\n")

WIDTH = {"16": 2, "32": 4, "64": 8}

def idx(s):
    s = s.strip()
    m = re.fullmatch(r"i\*(\d)", s)
    if m: return f"i *! {m[1]}"
    m = re.fullmatch(r"(\d)\+\(i\*(\d)\)", s)
    if m: return f"{m[1]} +! (i *! {m[2]})"
    raise SystemExit("index? " + s)

def conv(ty, x):
    m = re.fullmatch(r"(u?)int(\d+)", ty)
    return ("uconv " if m[1] else "sconv ") + m[2] + " " + x

def shl(ty, x, s):
    m = re.fullmatch(r"(u?)int(\d+)", ty)
    return ("ushl " if m[1] else "sshl ") + f"{m[2]} ({x}) {s}"

def die(l): raise SystemExit("unrecognised line: " + l)

out = []
i = 0
names = []
while i < len(src):
    m = re.match(rf"func \(b \*{recv}\) ((Write|Read)([UIF])(16|32|64)(LE|BE)(Next)?)\((.*?)\)(.*) \{{", src[i])
    if not m: i += 1; continue
    name, kind, ty, bits, endian, nxt, params, ret = m.groups()
    j = i
    while src[j] != "}": j += 1
    body = [l.strip() for l in src[i+1:j]]
    w = WIDTH[bits]
    goty = {"U": "uint", "I": "int", "F": "float"}[ty] + bits
    intty = {"U": "uint", "I": "int", "F": "uint"}[ty] + bits
    lines = []
    args = ""
    if nxt:
        base = name[:-4]
        if kind == "Write":
            assert params == f"data []{goty}", params
            assert body == [f"b.{base}(b.off, data)", f"b.SeekByte(int64(len(data))*{w}, true)"], body
            args = "(data : list Z) : prog unit"
            lines = ["off <- get FOff ;;", f"{base} off data ;;", f"SeekByte (zlen data *! {w}) true."]
        elif recv == "Buffer":
            assert params == "n int64" and ret == f" (out []{goty})", (params, ret)
            assert body == [f"out = b.{base}(b.off, n)", f"b.SeekByte(n*{w}, true)", "return"], body
            args = "(n : Z) : prog (list Z)"
            lines = ["off <- get FOff ;;", f"out <- {base} off n ;;", f"SeekByte (n *! {w}) true ;;", "Ret out."]
        else:
            assert params == f"out *[]{goty}, n int64", params
            assert body == [f"b.{base}(out, b.off, n)", f"b.SeekByte(n*{w}, true)"], body
            args = "(n : Z) : prog unit"
            lines = ["off <- get FOff ;;", f"{base} off n ;;", f"SeekByte (n *! {w}) true."]
    else:
        k = 0
        if recv == "Buffer":
            over = "BufferOverwriteError" if kind == "Write" else "BufferOverreadError"
            under = "BufferUnderwriteError" if kind == "Write" else "BufferUnderreadError"
            size = f"int64(len(data))*{w}" if kind == "Write" else f"n*{w}"
            szq = f"zlen data *! {w}" if kind == "Write" else f"n *! {w}"
            assert body[0] == f"if (off + {size}) > b.cap {{", body[0]
            assert body[1] == f"panic({over})" and body[2] == "}"
            assert body[3] == "if off < 0 {" and body[4] == f"panic({under})" and body[5] == "}"
            lines += ["cap <- get FCap ;;", f"panic_if (off +! {szq} >? cap) {over} ;;", f"panic_if (off <? 0) {under} ;;"]
            k = 6
        if kind == "Write":
            assert params == f"off int64, data []{goty}", params
            args = "(off : Z) (data : list Z) : prog unit"
            assert body[k:k+4] == ["i := 0", "n := len(data)", "{", "write_loop:"], body[k:]
            k += 4
            stm = []
            while body[k] != "i++":
                m2 = re.fullmatch(r"b\.buf\[off\+int64\((.*)\)\] = byte\((.*)\)", body[k]) or die(body[k])
                ix = idx(m2[1])
                e = m2[2]
                d = "data[i]" if ty != "F" else f"*(*{intty})(unsafe.Pointer(&data[i]))"
                assert e.startswith(d), e
                rest = e[len(d):]
                if rest == "": v = "d"
                else:
                    m3 = re.fullmatch(r" >> (\d+)", rest) or die(body[k])
                    v = f"(shr {bits} d {m3[1]})"
                stm.append(f"d <- elem data i ;; buf_set (off +! ({ix})) (byte {v})")
                k += 1
            assert body[k:] == ["i++", "if i < n {", "goto write_loop", "}", "}"], body[k:]
            lines.append("goto_loop (zlen data) (fun i _ =>")
            for q, s in enumerate(stm):
                lines.append("  " + s + (" ;;" if q < len(stm)-1 else ") tt."))
        else:
            if recv == "Buffer":
                assert params == "off, n int64" and ret == f" (out []{goty})", (params, ret)
                args = "(off n : Z) : prog (list Z)"
                assert body[k] == f"out = make([]{goty}, n)"; k += 1
                lines.append(f"out <- make_elems {w} n ;;")
            else:
                assert params == f"out *[]{goty}, off, n int64", params
                args = "(off n : Z) : prog unit"
            assert body[k] == "i := int64(0)"; k += 1
            if ty == "F":
                assert body[k] == f"var u {intty}"; k += 1
            assert body[k:k+2] == ["{", "read_loop:"]; k += 2
            lhs = "out[i]" if recv == "Buffer" else "(*out)[i]"
            if ty == "F":
                m2 = re.fullmatch(r"u = \((.*)\)", body[k]) or die(body[k])
                assert body[k+1] == f"{lhs} = *(*{goty})(unsafe.Pointer(&u))", body[k+1]
                expr = m2[1]; k += 2
            else:
                assert body[k].startswith(lhs + " = "), body[k]
                expr = body[k][len(lhs)+3:]; k += 1
            acc = None; loads = []
            for q, t in enumerate(expr.split(" | ")):
                m3 = re.fullmatch(intty + r"\(b\.buf\[off\+\((.*)\)\]\)(?:<<(\d+))?", t) or die(t)
                loads.append(f"x{q} <- buf_get (off +! ({idx(m3[1])})) ;;")
                v = conv(intty, f"x{q}")
                if m3[2]: v = shl(intty, v, m3[2])
                acc = f"({v})" if acc is None else f"(Z.lor {acc} ({v}))"
            assert body[k:k+5] == ["i++", "if i < n {", "goto read_loop", "}", "}"], body[k:]
            assert body[k+5:] == (["return"] if recv == "Buffer" else []), body[k+5:]
            if recv == "Buffer":
                lines.append("goto_loop n (fun i out =>")
                lines += ["  " + x for x in loads]
                lines.append(f"  set_elem out i {acc}) out.")
            else:
                lines.append("goto_loop n (fun i _ =>")
                lines += ["  " + x for x in loads]
                lines.append(f"  GetOuts (fun out => out' <- set_elem out i {acc} ;; SetOuts out' (Ret tt))) tt.")
    out.append(f"(** {rel}:{i+1}-{j+1} *)\nDefinition {name} {args} :=\n" + "\n".join("  " + l for l in lines) + "\n")
    names.append(name)
    i = j
assert len(names) == 64, len(names)
print(f"""(** * Typed methods of [{recv}], transcribed from {rel} by tools/gen_typed.py.
    Elements of float slices are their bit patterns, so the
    [*( *uintN)(unsafe.Pointer(&x))] casts are the identity. *)
From Coq Require Import ZArith List Bool.
From Verif Require Import GoSem Errors {mod}.
Import ListNotations.
Open Scope Z_scope.
Open Scope go_scope.
""")
print("\n".join(out))
