#!/usr/bin/env python3
"""Write Front{V3,M3,V2,M2}Typed.v: the statements that the models of the integer and
float methods are what the Go text means."""
import os
D = os.path.join(os.path.dirname(os.path.dirname(os.path.abspath(__file__))), 'rocq', 'theories')

def typed(part, base, models, buffer):
    out = []
    w = out.append
    for t in ['U16', 'U32', 'U64', 'I16', 'I32', 'I64', 'F32', 'F64']:
        for e in ['LE', 'BE']:
            m = 'Write%s%s' % (t, e)
            w('Lemma %s_text off data : text_of %s pol "%s" [VInt I64 off; VInts %s data] unit_ (%s off data).' % (m, part, m, t, m))
            w('Proof. text %s. loop_i. Qed.' % m)
            w('#[local] Hint Resolve %s_text : text.' % m)
            w('Lemma %sNext_text data : text_of %s pol "%sNext" [VInts %s data] unit_ (%sNext data).' % (m, part, m, t, m))
            w('Proof. text %sNext. Qed.' % m)
    for t in ['U16', 'U32', 'U64', 'I16', 'I32', 'I64', 'F32', 'F64']:
        for e in ['LE', 'BE']:
            m = 'Read%s%s' % (t, e)
            if buffer:
                w('Lemma %s_text off n : text_of %s pol "%s" [VInt I64 off; VInt I64 n] (VInts %s) (%s off n).' % (m, part, m, t, m))
                w('Proof. text %s. %s. Qed.' % (m, 'loop_out_u' if t[0] == 'F' else 'loop_out'))
                w('#[local] Hint Resolve %s_text : text.' % m)
                w('Lemma %sNext_text n : text_of %s pol "%sNext" [VInt I64 n] (VInts %s) (%sNext n).' % (m, part, m, t, m))
                w('Proof. text %sNext. Qed.' % m)
            else:
                w('Lemma %s_text off n : text_of %s pol "%s" [VOutSlice %s; VInt I64 off; VInt I64 n] unit_ (%s off n).' % (m, part, m, t, m))
                w('Proof. text %s. %s. Qed.' % (m, 'loop_u' if t[0] == 'F' else 'loop_i'))
                w('#[local] Hint Resolve %s_text : text.' % m)
                w('Lemma %sNext_text n : text_of %s pol "%sNext" [VOutSlice %s; VInt I64 n] unit_ (%sNext n).' % (m, part, m, t, m))
                w('Proof. text %sNext. Qed.' % m)
    return '\n'.join(out)

def typed2(part, buffer):
    """v2: unexported methods do the work."""
    out = []
    def lem(m, bs, args, res, proof):
        out.append('Lemma %s_text %s : text_of %s pol "%s" [%s] %s (%s %s).' % (m, bs, part, m, args, res, m, bs))
        out.append('Proof. %s Qed.' % proof)
        out.append('#[local] Hint Resolve %s_text : text.' % m)
    kinds = [(t, e) for t in ['U16', 'U32', 'U64'] for e in ['LE', 'BE']]
    for t, e in kinds:
        d = 'VInts %s data' % t
        for w in ['write', 'Write']:
            m = w + t + e
            lem(m, 'off data', 'VInt I64 off; ' + d, 'unit_', 'text %s.%s' % (m, ' loop_i.' if w == 'write' else ''))
        m = 'Write' + t + e + 'Next'
        lem(m, 'data', d, 'unit_', 'text %s.' % m)
    for t, e in kinds:
        o, res, loop = ('', '(VInts %s)' % t, ' loop_out.') if buffer else ('VOutSlice %s; ' % t, 'unit_', ' loop_i.')
        for r in ['read', 'Read']:
            m = r + t + e
            lem(m, 'off n', o + 'VInt I64 off; VInt I64 n', res, 'text %s.%s' % (m, loop if r == 'read' else ''))
        m = 'Read' + t + e + 'Next'
        lem(m, 'n', o + 'VInt I64 n', res, 'text %s.' % m)
    return '\n'.join(out)

HEAD = '''(** * %s: the models of the integer and float methods of the %s
    are what the Go text means.  Written by tools/gen_front.py. *)
From Coq Require Import ZArith List Bool String.
From Verif Require Import GoSem GoLex GoParse GoEval Conv Front %s.
Import ListNotations.
Open Scope Z_scope.

Section Typed.
Variable pol : Z -> Z -> Z.
#[local] Hint Resolve %s : text.
%s
End Typed.
'''
open(os.path.join(D, 'FrontV3Typed.v'), 'w').write(HEAD % (
    'FrontV3Typed', 'v3 [Buffer]', 'V3Buffer V3BufferTyped FrontV3', 'SeekByte_text',
    typed('B3', '', '', True)))
open(os.path.join(D, 'FrontM3Typed.v'), 'w').write(HEAD % (
    'FrontM3Typed', 'v3 [MiniBuffer]', 'V3Mini V3MiniTyped FrontM3', 'SeekByte_text',
    typed('M3', '', '', False)))
open(os.path.join(D, 'FrontV2Typed.v'), 'w').write(HEAD % (
    'FrontV2Typed', 'v2 [Buffer]', 'V2Buffer V2BufferTyped FrontV2', 'seek_text', typed2('B2', True)))
open(os.path.join(D, 'FrontM2Typed.v'), 'w').write(HEAD % (
    'FrontM2Typed', 'v2 [MiniBuffer]', 'V2Mini V2MiniTyped FrontM2', 'seek_text', typed2('M2', False)))
