(** * FrontMiniCalls: the calls of the v3 [MiniBuffer] as calls in its Go text. *)
From Coq Require Import ZArith List Bool String Lia.
From Verif Require Import GoSem GoLemmas Conv GoEval Front Tables TableProofs Spec Typed Calls MiniAbs FrontCalls.
From Verif Require V3Mini FrontM3 FrontM3Typed.
Import ListNotations.
Open Scope Z_scope.

(** The [out] pointer: to a variable that is only assigned, or to [outs]. *)
Definition mini_out (o : opn slice) : list val :=
  match o with
  | OReadBit | OReadBytes _ => [VCell]
  | OReadBits _ => [VOutWord U64]
  | ORead t _ => [VOutSlice (ity_of_num t)]
  | _ => []
  end.
Definition mini_go_call (c : call slice) : string * list val :=
  match c with
  | At off o => (fst (go_opn o), mini_out o ++ VInt I64 off :: snd (go_opn o))
  | Next o => (String.append (fst (go_opn o)) "Next", mini_out o ++ snd (go_opn o))
  | CAfterBit _ | CAfterByte _ | CBytes | CByteCapacity | CBitCapacity | CByteOffset | CBitOffset =>
      (fst (go_call c), VCell :: snd (go_call c))
  | _ => go_call c
  end%list.
(** What the caller finds in the variable. *)
Definition mini_answer (c : call slice) (a : rv slice) (out : list Z) : rv slice :=
  match c with
  | At _ (OReadBits _) | Next (OReadBits _) => RInt (hd 0 out)
  | At _ (ORead _ _) | Next (ORead _ _) => RNums out
  | _ => a
  end.

(** The call without a look at [outs]. *)
Definition mini_raw (c : call slice) : prog (rv slice) :=
  match c with
  | At off (OReadBits n) => ret_unit (V3Mini.ReadBits off n)
  | Next (OReadBits n) => ret_unit (V3Mini.ReadBitsNext n)
  | At off (ORead t n) => ret_unit (MiniReadT t off n)
  | Next (ORead t n) => ret_unit (MiniReadTNext t n)
  | c => mini_call c
  end.
Lemma mini_call_raw c s : run (mini_call c) s =
  match run (mini_raw c) s with Done a s' => Done (mini_answer c a (outs s')) s' | r => r end.
Proof.
  Ltac same s := solve [cbn [mini_raw]; match goal with |- run ?p s = _ => destruct (run p s); reflexivity end].
  destruct c as [off o|o| | | |? ?|? ?|?|?| | |?|?|?| | | | | | |]; [| |same s..];
    destruct o; try same s; cbn [mini_call mini_at mini_next mini_raw]; unfold ret_unit, out_int, out_nums;
    rewrite !run_bind; match goal with |- context [run ?p s] => destruct (run p s) end; reflexivity.
Qed.

Section C.
Variable pol : Z -> Z -> Z.
Import FrontM3 FrontM3Typed.

Lemma WriteT_text t off d :
  text_of M3 pol (String.append "Write" (num_name t)) [VInt I64 off; VInts (ity_of_num t) d] unit_ (MiniWriteT t off d).
Proof.
  destruct t; [apply WriteU16LE_text|apply WriteU16BE_text|apply WriteU32LE_text|apply WriteU32BE_text
  |apply WriteU64LE_text|apply WriteU64BE_text|apply WriteI16LE_text|apply WriteI16BE_text|apply WriteI32LE_text
  |apply WriteI32BE_text|apply WriteI64LE_text|apply WriteI64BE_text|apply WriteF32LE_text|apply WriteF32BE_text
  |apply WriteF64LE_text|apply WriteF64BE_text].
Qed.
Lemma WriteTNext_text t d :
  text_of M3 pol (String.append (String.append "Write" (num_name t)) "Next") [VInts (ity_of_num t) d] unit_ (MiniWriteTNext t d).
Proof.
  destruct t; [apply WriteU16LENext_text|apply WriteU16BENext_text|apply WriteU32LENext_text|apply WriteU32BENext_text
  |apply WriteU64LENext_text|apply WriteU64BENext_text|apply WriteI16LENext_text|apply WriteI16BENext_text|apply WriteI32LENext_text
  |apply WriteI32BENext_text|apply WriteI64LENext_text|apply WriteI64BENext_text|apply WriteF32LENext_text|apply WriteF32BENext_text
  |apply WriteF64LENext_text|apply WriteF64BENext_text].
Qed.
Lemma ReadT_text t off n :
  text_of M3 pol (String.append "Read" (num_name t)) [VOutSlice (ity_of_num t); VInt I64 off; VInt I64 n] unit_ (MiniReadT t off n).
Proof.
  destruct t; [apply ReadU16LE_text|apply ReadU16BE_text|apply ReadU32LE_text|apply ReadU32BE_text
  |apply ReadU64LE_text|apply ReadU64BE_text|apply ReadI16LE_text|apply ReadI16BE_text|apply ReadI32LE_text
  |apply ReadI32BE_text|apply ReadI64LE_text|apply ReadI64BE_text|apply ReadF32LE_text|apply ReadF32BE_text
  |apply ReadF64LE_text|apply ReadF64BE_text].
Qed.
Lemma ReadTNext_text t n :
  text_of M3 pol (String.append (String.append "Read" (num_name t)) "Next") [VOutSlice (ity_of_num t); VInt I64 n] unit_ (MiniReadTNext t n).
Proof.
  destruct t; [apply ReadU16LENext_text|apply ReadU16BENext_text|apply ReadU32LENext_text|apply ReadU32BENext_text
  |apply ReadU64LENext_text|apply ReadU64BENext_text|apply ReadI16LENext_text|apply ReadI16BENext_text|apply ReadI32LENext_text
  |apply ReadI32BENext_text|apply ReadI64LENext_text|apply ReadI64BENext_text|apply ReadF32LENext_text|apply ReadF32BENext_text
  |apply ReadF64LENext_text|apply ReadF64BENext_text].
Qed.

(** Every call of the API. *)
Lemma mini_call_text c : mini_method c = true -> means M3 pol (mini_go_call c) (mini_raw c).
Proof.
  destruct c as [off o|o| | | |off r|off r|off|off| | |n|n|n| | | | | | |]; cbn [mini_method mini_go_call go_call fst snd mini_raw mini_call]; intros Hm.
  - destruct o; try discriminate; cbn [go_opn mini_at mini_out fst snd app].
    + eapply means_int, ReadBit_text.
    + apply means_unit, ReadBits_text.
    + apply means_unit, SetBit_text.
    + apply means_unit, ClearBit_text.
    + apply means_unit, FlipBit_text.
    + apply means_unit, SetBits_text.
    + apply means_unit, WriteBytes_text.
    + apply means_bytes, ReadBytes_text.
    + apply means_unit, WriteT_text.
    + apply means_unit, ReadT_text.
  - destruct o; try discriminate; cbn [go_opn mini_next mini_out fst snd app].
    + eapply means_int, ReadBitNext_text.
    + apply means_unit, ReadBitsNext_text.
    + apply means_unit, SetBitNext_text.
    + apply means_unit, ClearBitNext_text.
    + apply means_unit, FlipBitNext_text.
    + apply means_unit, SetBitsNext_text.
    + apply means_unit, WriteBytesNext_text.
    + apply means_bytes, ReadBytesNext_text.
    + apply means_unit, WriteTNext_text.
    + apply means_unit, ReadTNext_text.
  - apply means_unit, ClearAllBits_text.
  - apply means_unit, SetAllBits_text.
  - apply means_unit, FlipAllBits_text.
  - apply means_unit, SeekBit_text.
  - apply means_unit, SeekByte_text.
  - eapply means_int. replace off with (hd_error (optional off)) at 2 by (destruct off; reflexivity). apply AfterBit_text.
  - eapply means_int. replace off with (hd_error (optional off)) at 2 by (destruct off; reflexivity). apply AfterByte_text.
  - apply means_unit, AlignBit_text.
  - apply means_unit, AlignByte_text.
  - apply means_unit, TruncateLeft_text.
  - apply means_unit, TruncateRight_text.
  - apply means_unit, Grow_text.
  - apply means_unit, Refresh_text.
  - apply means_unit, Reset_text.
  - apply means_bytes, Bytes_text.
  - eapply means_int, ByteCapacity_text.
  - eapply means_int, BitCapacity_text.
  - eapply means_int, ByteOffset_text.
  - eapply means_int, BitOffset_text.
Qed.
End C.
