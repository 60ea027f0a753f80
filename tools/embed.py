#!/usr/bin/env python3
"""Embed Go source files of /repo as Coq lists of lines (one theory per package)."""
import os, sys
REPO = os.environ.get("REPO", "/repo")
OUT = os.path.join(os.path.dirname(os.path.abspath(__file__)), "..", "rocq", "theories")
SETS = {
    "SrcV3": [("v3_buffer_template", "v3/_buffer.go"), ("v3_minibuf_template", "v3/_minibuf.go"),
              ("v3_buffer", "v3/buffer.generated.go"), ("v3_minibuf", "v3/minibuf.generated.go"),
              ("v3_errors", "v3/errors.go")],
    "SrcV2": [("v2_buffer", "v2/buffer.go"), ("v2_minibuf", "v2/minibuf.go"),
              ("v2_errors", "v2/errors.go"), ("v2_utils", "v2/utils.go")],
    "SrcV1": [("v1_buffer", "v1/buffer.go"), ("v1_minibuf", "v1/minibuf.go"),
              ("v1_errors", "v1/errors.go"), ("v1_utils", "v1/utils.go"), ("v1_crunch", "v1/crunch.go")],
    "SrcEx": [("ex_floating_point", "examples/floating-point/main.go"), ("ex_helloworld", "examples/helloworld/main.go"),
              ("ex_signed_integers", "examples/signed-integers/main.go")],
    "SrcTest": [(f"v{v}_{f}_test", f"v{v}/{f}_test.go") for v in (1, 2, 3) for f in ("buffer", "minibuf")],
    "SrcGen": [("gen_complex", "generation/complex.go"), ("gen_main", "generation/main.go")],
}
CHUNK = 100

def q(s):
    assert all(32 <= ord(c) < 127 or c == "\t" for c in s), s
    return '"' + s.replace('"', '""') + '"'

def emit(name, files):
    o = [f"(** * {name}: source files of /repo, line by line, written by tools/embed.py.\n"
         "    Nothing here is a model: these are the bytes of the files. *)",
         "From Coq Require Import List String.", "Import ListNotations.", "Open Scope string_scope.", ""]
    for d, path in files:
        text = open(os.path.join(REPO, path)).read()
        assert text.endswith("\n")
        lines = text[:-1].split("\n")
        parts = []
        for k in range(0, len(lines), CHUNK):
            p = f"{d}_{k // CHUNK}"
            parts.append(p)
            o.append(f"(** {path}:{k + 1}-{min(k + CHUNK, len(lines))} *)")
            o.append(f"Definition {p} : list string := [")
            o.append(";\n".join(q(l) for l in lines[k:k + CHUNK]) + "].\n")
        o.append(f"(** {path} *)")
        o.append(f"Definition {d} : list string := ({' ++ '.join(parts)})%list.\n")
    open(os.path.join(OUT, name + ".v"), "w").write("\n".join(o))

for n in (sys.argv[1:] or SETS):
    emit(n, SETS[n])
