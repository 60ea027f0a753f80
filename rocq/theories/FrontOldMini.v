(** * FrontOldMini: the calls of the v1 and v2 [MiniBuffer] as calls in the Go text. *)
From Coq Require Import ZArith List Bool String Lia.
From Verif Require Import GoSem GoLemmas Conv GoEval Front Tables TableProofs Spec Typed Calls MiniAbs FrontCalls FrontMiniCalls
  OldCalls V2Agree V1Lemmas V1Calls Abs2 MiniAbs2 FrontOldCalls.
From Verif Require V2Mini V1Mini FrontM2 FrontM2Typed FrontM1.
Import ListNotations.
Open Scope Z_scope.

(** The [out] pointer: to a variable that is only assigned, or to [outs]. *)
Definition old_mini_out (v : version) (o : op2 slice) : list val :=
  match o with
  | PReadBit | PReadBytes _ => [VCell]
  | PReadBits _ => [VOutWord U64]
  | PRead t _ => match v with V1 => [VCell] | V2 => [VOutSlice (ity_of_num (fmt t))] end
  | _ => []
  end.
Definition old_mini_go_op (v : version) : op2 slice -> string * list val :=
  match v with V1 => go_op1 | V2 => go_op2 end.
Definition old_mini_go_call (v : version) (c : call2 slice) : string * list val :=
  match c with
  | At2 off o => (fst (old_mini_go_op v o), old_mini_out v o ++ VInt I64 off :: snd (old_mini_go_op v o))
  | Next2 o => (String.append (fst (old_mini_go_op v o)) "Next", old_mini_out v o ++ snd (old_mini_go_op v o))
  | KAfterBit _ | KAfter _ | KBytes | KCapacity | KBitCapacity | KOffset | KBitOffset =>
      (fst (go_other2 c), VCell :: snd (go_other2 c))
  | _ => go_other2 c
  end%list.
(** What the caller finds in the variable. *)
Definition old_mini_answer (v : version) (c : call2 slice) (a : rv slice) (out : list Z) : rv slice :=
  match c with
  | At2 _ (PReadBits _) | Next2 (PReadBits _) => RInt (hd 0 out)
  | At2 _ (PRead _ _) | Next2 (PRead _ _) => match v with V1 => a | V2 => RNums out end
  | _ => a
  end.

(** The call without a look at [outs]. *)
Definition old_mini_raw (v : version) (pol : Z -> Z -> Z) (c : call2 slice) : prog (rv slice) :=
  match v, c with
  | V2, At2 off (PReadBits n) => ret_unit (V2Mini.ReadBits off n)
  | V2, Next2 (PReadBits n) => ret_unit (V2Mini.ReadBitsNext n)
  | V2, At2 off (PRead t n) => ret_unit (MiniReadU t off n)
  | V2, Next2 (PRead t n) => ret_unit (MiniReadUNext t n)
  | V1, At2 off (PReadBits n) => ret_unit (V1Mini.ReadBits off n)
  | V1, Next2 (PReadBits n) => ret_unit (V1Mini.ReadBitsNext n)
  | v, c => old_mini v pol c
  end.
Lemma old_mini_raw_call v pol c s : run (old_mini v pol c) s =
  match run (old_mini_raw v pol c) s with Done a s' => Done (old_mini_answer v c a (outs s')) s' | r => r end.
Proof.
  Ltac same s := solve [cbn [old_mini_raw]; match goal with |- run ?p s = _ => destruct (run p s); reflexivity end].
  destruct v, c as [off o|o| | | | | | | | | | | | | | | | | ]; try same s;
    destruct o; try same s; cbn [old_mini mini1_call mini2_call mini1_at mini2_at mini1_next mini2_next old_mini_raw];
    unfold ret_unit, out_int, out_nums;
    rewrite !run_bind; match goal with |- context [run ?p s] => destruct (run p s) end; reflexivity.
Qed.

Section M2.
Variable pol : Z -> Z -> Z.
Import FrontM2 FrontM2Typed.

Lemma MWriteU_text t off d :
  text_of M2 pol (String.append "Write" (num_name (fmt t))) [VInt I64 off; VInts (ity_of_num (fmt t)) d] unit_ (MiniWriteU t off d).
Proof.
  destruct t; [apply WriteU16LE_text|apply WriteU16BE_text|apply WriteU32LE_text|apply WriteU32BE_text
  |apply WriteU64LE_text|apply WriteU64BE_text].
Qed.
Lemma MWriteUNext_text t d :
  text_of M2 pol (String.append (String.append "Write" (num_name (fmt t))) "Next") [VInts (ity_of_num (fmt t)) d] unit_ (MiniWriteUNext t d).
Proof.
  destruct t; [apply WriteU16LENext_text|apply WriteU16BENext_text|apply WriteU32LENext_text|apply WriteU32BENext_text
  |apply WriteU64LENext_text|apply WriteU64BENext_text].
Qed.
Lemma MReadU_text t off n :
  text_of M2 pol (String.append "Read" (num_name (fmt t))) [VOutSlice (ity_of_num (fmt t)); VInt I64 off; VInt I64 n] unit_ (MiniReadU t off n).
Proof.
  destruct t; [apply ReadU16LE_text|apply ReadU16BE_text|apply ReadU32LE_text|apply ReadU32BE_text
  |apply ReadU64LE_text|apply ReadU64BE_text].
Qed.
Lemma MReadUNext_text t n :
  text_of M2 pol (String.append (String.append "Read" (num_name (fmt t))) "Next") [VOutSlice (ity_of_num (fmt t)); VInt I64 n] unit_ (MiniReadUNext t n).
Proof.
  destruct t; [apply ReadU16LENext_text|apply ReadU16BENext_text|apply ReadU32LENext_text|apply ReadU32BENext_text
  |apply ReadU64LENext_text|apply ReadU64BENext_text].
Qed.

(** Every call of the API. *)
Lemma mini2_call_text c : old_mini_method V2 c = true -> means M2 pol (old_mini_go_call V2 c) (old_mini_raw V2 pol c).
Proof.
  destruct c as [off o|o| | | |off r|off r|off|off| | |n| | | | | | |];
    cbn [old_mini_method old_mini_go_call go_other2 fst snd old_mini_raw old_mini mini2_call]; intros Hm.
  - destruct o; try discriminate; cbn [old_mini_go_op go_op2 mini2_at old_mini_out fst snd app].
    + eapply means_int, ReadBit_text.
    + apply means_unit, ReadBits_text.
    + apply means_unit, SetBit_text.
    + apply means_unit, SetBits_text.
    + apply means_unit, FlipBit_text.
    + apply means_unit, WriteBytes_text.
    + apply means_bytes, ReadBytes_text.
    + apply means_unit, MWriteU_text.
    + apply means_unit, MReadU_text.
  - destruct o; try discriminate; cbn [old_mini_go_op go_op2 mini2_next old_mini_out fst snd app].
    + eapply means_int, ReadBitNext_text.
    + apply means_unit, ReadBitsNext_text.
    + apply means_unit, SetBitNext_text.
    + apply means_unit, SetBitsNext_text.
    + apply means_unit, FlipBitNext_text.
    + apply means_unit, WriteBytesNext_text.
    + apply means_bytes, ReadBytesNext_text.
    + apply means_unit, MWriteUNext_text.
    + apply means_unit, MReadUNext_text.
  - apply means_unit, ClearAllBits_text.
  - apply means_unit, SetAllBits_text.
  - apply means_unit, FlipAllBits_text.
  - apply means_unit, SeekBit_text.
  - apply means_unit, Seek_text.
  - eapply means_int. replace off with (hd_error (optional off)) at 2 by (destruct off; reflexivity). apply AfterBit_text.
  - eapply means_int. replace off with (hd_error (optional off)) at 2 by (destruct off; reflexivity). apply After_text.
  - apply means_unit, AlignBit_text.
  - apply means_unit, AlignByte_text.
  - apply means_unit, Grow_text.
  - apply means_unit, Refresh_text.
  - apply means_unit, Reset_text.
  - apply means_bytes, Bytes_text.
  - eapply means_int, Capacity_text.
  - eapply means_int, BitCapacity_text.
  - eapply means_int, Offset_text.
  - eapply means_int, BitOffset_text.
Qed.
End M2.

Section M1.
Variable pol : Z -> Z -> Z.
Import FrontM1.

Lemma mini_readComplex_type t off n : always (fun x => exists l, x = idata_of t l) (V1Mini.readComplex off n (tsize (fmt t)) (order_of t)).
Proof.
  unfold V1Mini.readComplex. apply always_bind. intros d.
  destruct t; cbn; apply always_bind; intros l; exists l; reflexivity.
Qed.
Lemma mini_readComplexNext_type t n : always (fun x => exists l, x = idata_of t l) (V1Mini.ReadComplexNext n (tsize (fmt t)) (order_of t)).
Proof.
  unfold V1Mini.ReadComplexNext. apply always_bind. intros off.
  eapply always_bind2; [apply mini_readComplex_type|]. intros x Hx. apply always_bind. intros []. exact Hx.
Qed.

Lemma mini1_call_text c : old_mini_method V1 c = true -> means M1 pol (old_mini_go_call V1 c) (old_mini_raw V1 pol c).
Proof.
  destruct c as [off o|o| | | |off r|off r|off|off| | |n| | | | | | |];
    cbn [old_mini_method old_mini_go_call go_other2 fst snd old_mini_raw old_mini mini1_call]; intros Hm; try discriminate Hm.
  - destruct o; try discriminate; cbn [old_mini_go_op go_op1 go_op2 mini1_at old_mini_out fst snd app].
    + eapply means_int, ReadBit_text.
    + apply means_unit, ReadBits_text.
    + apply means_unit, SetBit_text.
    + apply means_unit, SetBits_text.
    + apply means_unit, FlipBit_text.
    + apply means_unit, WriteBytes_text.
    + apply means_bytes, ReadBytes_text.
    + apply means_unit.
      replace (VInts (ity_of_num (fmt t)) d) with (dyn (idata_of t d)) by (destruct t; reflexivity). apply WriteComplex_text.
    + apply means_idata; [apply mini_readComplex_type|apply ReadComplex_text].
  - destruct o; try discriminate; cbn [old_mini_go_op go_op1 go_op2 mini1_next old_mini_out fst snd app].
    + eapply means_int, ReadBitNext_text.
    + apply means_unit, ReadBitsNext_text.
    + apply means_unit, SetBitNext_text.
    + apply means_unit, SetBitsNext_text.
    + apply means_unit, FlipBitNext_text.
    + apply means_unit, WriteBytesNext_text.
    + apply means_bytes, ReadBytesNext_text.
    + apply means_unit.
      replace (VInts (ity_of_num (fmt t)) d) with (dyn (idata_of t d)) by (destruct t; reflexivity). apply WriteComplexNext_text.
    + apply means_idata; [apply mini_readComplexNext_type|apply ReadComplexNext_text].
  - apply means_unit, ClearAllBits_text.
  - apply means_unit, SetAllBits_text.
  - apply means_unit, FlipAllBits_text.
  - apply means_unit, SeekBit_text.
  - apply means_unit, Seek_text.
  - eapply means_int. replace off with (hd_error (optional off)) at 2 by (destruct off; reflexivity). apply AfterBit_text.
  - eapply means_int. replace off with (hd_error (optional off)) at 2 by (destruct off; reflexivity). apply After_text.
  - apply means_unit, AlignBit_text.
  - apply means_unit, AlignByte_text.
  - apply means_unit, Grow_text.
  - apply means_unit, Refresh_text.
  - apply means_bytes, Bytes_text.
  - eapply means_int, Capacity_text.
  - eapply means_int, BitCapacity_text.
  - eapply means_int, Offset_text.
  - eapply means_int, BitOffset_text.
Qed.
End M1.

Definition old_mini_package (v : version) : part := match v with V1 => M1 | V2 => M2 end.
Theorem old_mini_text v pol c : old_mini_method v c = true ->
  means (old_mini_package v) pol (old_mini_go_call v c) (old_mini_raw v pol c).
Proof. destruct v; [apply mini1_call_text|apply mini2_call_text]. Qed.
