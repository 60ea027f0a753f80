#!/usr/bin/env python3
"""Write rocq/theories/Tables.v: for each Go file, its functions in order, with the
model of each.  Collected from the *_text lemmas of the Front files."""
import os, re
R = os.path.dirname(os.path.dirname(os.path.abspath(__file__)))
D = os.path.join(R, 'rocq', 'theories')
PARTS = [('B3', 'v3_buffer', ['FrontV3', 'FrontV3Typed'], ['V3Buffer', 'V3BufferTyped'], 'v3/buffer.generated.go'),
         ('M3', 'v3_minibuf', ['FrontM3', 'FrontM3Typed'], ['V3Mini', 'V3MiniTyped'], 'v3/minibuf.generated.go'),
         ('B2', 'v2_buffer', ['FrontV2', 'FrontV2Typed'], ['V2Buffer', 'V2BufferTyped'], 'v2/buffer.go'),
         ('M2', 'v2_minibuf', ['FrontM2', 'FrontM2Typed'], ['V2Mini', 'V2MiniTyped'], 'v2/minibuf.go'),
         ('B1', 'v1_buffer', ['FrontV1', 'FrontV1Typed'], ['V1Buffer'], 'v1/buffer.go'),
         ('M1', 'v1_minibuf', ['FrontM1', 'FrontM1Typed'], ['V1Mini'], 'v1/minibuf.go')]
TY = {'off': 'Z', 'n': 'Z', 'r': 'bool', 'slices': 'list slice'}

def model_file(models, name):
    for m in models:
        if re.search(r'^Definition %s\b' % name, open(os.path.join(D, m + '.v')).read(), re.M):
            return m
    raise SystemExit('no model of ' + name)

out = ['''(** * Tables: every function of the Go files with its model.

    A row says: the call [name(args x)] of the Go code is [model x], and returns
    [res v] where the model returns [v].  Written by tools/gen_tables.py; the
    rows are in the order of the Go file. *)
From Coq Require Import ZArith List Bool String.
From Verif Require Import GoSem GoEval Front.''']
mods = []
for p in PARTS:
    mods += [m for m in p[3] if os.path.exists(os.path.join(D, m + '.v'))]
out.append('From Verif Require Spec %s.' % ' '.join(dict.fromkeys(mods)))
out.append('''Import ListNotations.
Open Scope Z_scope.
Open Scope string_scope.

Record entry : Type := Entry {
  e_dom : Type; e_ans : Type;
  e_name : string;
  e_args : e_dom -> list val;
  e_res : e_ans -> val;
  e_ok : e_dom -> Prop;
  e_model : e_dom -> prog e_ans }.
(** A row without condition on the arguments. *)
Definition row {X A : Type} (name : string) (args : X -> list val) (res : A -> val) (model : X -> prog A) : entry :=
  Entry X A name args res (fun _ => True) model.
(** [NewBuffer] and [NewMiniBuffer]: fewer than 2^63 slices. *)
Definition row_new (name : string) (args : list slice -> list val) (model : list slice -> prog unit) : entry :=
  Entry (list slice) unit name args self_ (fun l => is_i64 (zlen l)) model.

Section Tables.
Variable pol : Z -> Z -> Z.
''')
proofs = ['''(** * TableProofs: the rows of the tables are right.  Written by tools/gen_tables.py. *)
From Coq Require Import ZArith List Bool String.
From Verif Require Import GoSem GoEval Front Tables.''']
front = [f for p in PARTS for f in p[2] if os.path.exists(os.path.join(D, f + '.v'))]
proofs.append('From Verif Require %s.' % ' '.join(front))
proofs.append('''Import ListNotations.

(** The row is right. *)
Definition correct (p : part) (pol : Z -> Z -> Z) (e : entry) : Prop :=
  forall x, e_ok e x -> text_of p pol (e_name e) (e_args e x) (e_res e) (e_model e x).
Lemma row_correct p pol {X A} name args (res : A -> val) (model : X -> prog A) :
  (forall x, text_of p pol name (args x) res (model x)) -> correct p pol (row name args res model).
Proof. intros H x _. exact (H x). Qed.
Lemma row_new_correct p pol name args model :
  (forall x, is_i64 (zlen x) -> text_of p pol name (args x) self_ (model x)) -> correct p pol (row_new name args model).
Proof. intros H x Hx. exact (H x Hx). Qed.
''')
for part, tab, fronts, models, go in PARTS:
    rows = {}
    for f in fronts:
        path = os.path.join(D, f + '.v')
        if not os.path.exists(path):
            continue
        for m in re.finditer(r'^Lemma (\w+)_text([^:]*):\s*(.*?)text_of (\w+) pol "(\w+)" \[(.*?)\] (\([^()]*\)|\w+) (\(.*?\)|\w+)\.\n', open(path).read(), re.M | re.S):
            name, bs, hyp, pt, g, args, res, model = m.groups()
            assert pt == part and g == name, (pt, part, g, name)
            bs = bs.split()
            mf = 'V2Buffer' if name == 'atob' and part == 'M2' else 'V1Buffer' if name == 'atob' and part == 'M1' else model_file(models, name)
            model = re.sub(r'\b%s\b' % name, '%s.%s' % (mf, name), model, 1)
            rows[name] = (bs, hyp, args, res, model, f)
    src = open('/repo/' + go).read()
    names = re.findall(r'^func (?:\(\w+ \*\w+\) )?(\w+)\(', src, re.M)
    missing = [n for n in names if n not in rows]
    extra = [n for n in rows if n not in names]
    print(part, len(names), 'missing', missing, 'extra', extra)
    out.append('(** %s *)' % go)
    out.append('Definition %s_table : list entry := [' % tab)
    lines, pf = [], []
    for n in names:
        if n in missing:
            continue
        bs, hyp, args, res, model, f = rows[n]
        if hyp:
            lines.append('  row_new "%s" (fun slices => [%s]) (fun slices => %s)' % (n, args, model))
            pf.append('  apply Forall_cons; [apply row_new_correct; intros x Hx; exact (%s.%s_text pol x Hx)|].' % (f, n))
            continue
        def ty(b):
            if b in TY: return 'Z' if b != 'r' and not (b == 'off' and 'hd_error off' in model) else ('bool' if b == 'r' else 'list Z')
            if b == 'data': return 'slice' if 'VBytes data' in args else 'list Z' if 'VInts' in args else 'Z'
            if b == 'b': return 'bool'
            if b == 'x': return 'V1Buffer.idata'
            if b == 'e': return 'Spec.endian'
            if b == 'size': return 'Z'
            raise SystemExit((n, b))
        if not bs:
            pat = "fun _ : unit"
        elif len(bs) == 1:
            pat = 'fun %s : %s' % (bs[0], ty(bs[0]))
        else:
            pat = "fun '(%s)" % ', '.join(bs)
        dom = 'unit' if not bs else ' * '.join(ty(b) for b in bs)
        lines.append('  row (X := %s) "%s" (%s => [%s]) %s (%s => %s)' % (dom, n, pat, args, res, pat, model))
        xs = ['x%d' % i for i in range(len(bs))]
        x = '_' if not bs else xs[0] if len(bs) == 1 else '[%s]' % ' '.join(xs) if len(bs) == 2 else '[[x0 x1] x2]' if len(bs) == 3 else '[[[x0 x1] x2] x3]'
        pf.append('  apply Forall_cons; [apply row_correct; intros %s; exact (%s.%s_text pol%s)|].' % (x, f, n, ''.join(' ' + y for y in xs)))
    out.append(';\n'.join(lines) + '].')
    proofs.append('Theorem %s_correct pol : Forall (correct %s pol) (%s_table pol).' % (tab, part, tab))
    proofs.append('Proof.\n  unfold %s_table.\n%s\n  apply Forall_nil.\nQed.' % (tab, '\n'.join(pf)))
out.append('End Tables.')
open(os.path.join(D, 'Tables.v'), 'w').write('\n'.join(out) + '\n')
open(os.path.join(D, 'TableProofs.v'), 'w').write('\n'.join(proofs) + '\n')
