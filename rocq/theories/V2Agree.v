(** * V2Agree: every v2 [Buffer] call compared with the v3 call of the same meaning. *)
From Coq Require Import ZArith List Bool Lia ZifyBool.
From Verif Require Import GoSem Errors Spec GoLemmas BitLemmas CodecLemmas Typed V3BitLemmas V3ByteLemmas
  TypedCanon TypedLemmas TypedReadLemmas Calls Abs Frame Sim LockLemmas OldCalls V2Lemmas.
From Verif Require V3Buffer V3Mini V2Buffer V2BufferTyped V2Mini.
Import ListNotations.
Open Scope Z_scope.

(** Which offset a [...Next] operation of v2 uses and by how much it moves it. *)
Definition bit_addressed2 {B} (o : op2 B) : bool :=
  match o with
  | PReadBit | PReadBits _ | PSetBit _ | PFlipBit | PSetBits _ _ => true
  | _ => false
  end.
Definition advance_of2 {B} (len : B -> Z) (o : op2 B) : Z :=
  match o with
  | PReadBit | PSetBit _ | PFlipBit | PWriteByte _ | PReadByte => 1
  | PReadBits n | PSetBits _ n | PReadBytes n => n
  | PWriteBytes d => len d
  | PWrite t d => zlen d * tsize (fmt t)
  | PRead t n => n * tsize (fmt t)
  end.

Lemma run_seek2 off s : run (V2Buffer.seek off true) s =
  if mu s then Deadlock s else Done tt (with_off s (b_off (bb s) +! off)).
Proof.
  destruct (mu s) eqn:M.
  - now apply run_locked_deadlock.
  - change (run (V2Buffer.Seek off true) s = Done tt (with_off s (b_off (bb s) +! off))).
    rewrite v2_Seek by auto. rewrite run_SeekByte. reflexivity.
Qed.
Lemma run_seekbit2 off s : run (V2Buffer.seekbit off true) s =
  if mu s then Deadlock s else Done tt (with_boff s (b_boff (bb s) +! off)).
Proof.
  destruct (mu s) eqn:M.
  - now apply run_locked_deadlock.
  - change (run (V2Buffer.SeekBit off true) s = Done tt (with_boff s (b_boff (bb s) +! off))).
    rewrite v2_SeekBit by auto. rewrite run_SeekBit. reflexivity.
Qed.

(** In v2 too, each [XNext] is [X] at the current offset, then an advance of that
    offset, which takes the mutex a second time. *)
Theorem run_do2_next o s :
  run (do2_next o) s =
  match run (do2_at (cursor s (bit_addressed2 o)) o) s with
  | Done v s' => if mu s' then Deadlock s'
                 else Done v (with_cursor s' (bit_addressed2 o)
                        (cursor s' (bit_addressed2 o) +! advance_of2 s_len o))
  | Panicked e s' => Panicked e s'
  | Deadlock s' => Deadlock s'
  | Stuck => Stuck
  end.
Proof.
  destruct o as [ | n | data | data n | | d | v | n | | t d | t n];
    cbn [do2_next do2_at bit_addressed2 advance_of2 cursor with_cursor];
    rewrite ?WriteUNext_canon, ?ReadUNext_canon;
    unfold V2Buffer.ReadBitNext, V2Buffer.ReadBitsNext, V2Buffer.SetBitNext,
      V2Buffer.FlipBitNext, V2Buffer.SetBitsNext, V2Buffer.WriteBytesNext, V2Buffer.WriteByteNext,
      V2Buffer.ReadBytesNext, V2Buffer.ReadByteNext, V2Buffer.ReadBit, V2Buffer.ReadBits, V2Buffer.SetBit,
      V2Buffer.SetBits, V2Buffer.FlipBit, V2Buffer.WriteBytes, V2Buffer.WriteByte,
      V2Buffer.ReadBytes, V2Buffer.ReadByte, ret_int, ret_unit, ret_bytes, ret_nums;
    rewrite ?run_bind; cbn [run get].
  all: change (get_fld (bb s) FBoff) with (b_boff (bb s));
       change (get_fld (bb s) FOff) with (b_off (bb s)).
  all: try (rewrite ?run_bind;
    drun s; try reflexivity;
    rewrite ?run_bind, ?run_seekbit2, ?run_seek2; cbn [run]; destruct (mu _); reflexivity).
  - (* WriteByte *)
    rewrite ?run_bind. cbn [lit_bytes bind run]. rewrite ?run_bind.
    match goal with |- context [run (V2Buffer.write ?o ?d) ?st] =>
      destruct (run (V2Buffer.write o d) st) as [a s'|e s'|s'|] end;
      try reflexivity. rewrite run_seek2. cbn [run]. destruct (mu _); reflexivity.
  - (* ReadByte *)
    rewrite !run_bind.
    drun s; try reflexivity.
    rewrite !run_bind.
    match goal with |- context [run ?p s'] => destruct (run p s') as [a' s''|e s''|s''|] end; try reflexivity.
    rewrite run_bind, run_seek2. cbn [run]. destruct (mu _); reflexivity.
  - rewrite !run_bind.
    drun s; try reflexivity.
    rewrite ?run_bind, run_seek2. cbn [run]. unfold mul64. rewrite add64_wrap. destruct (mu _); reflexivity.
  - rewrite !run_bind.
    drun s; try reflexivity.
    rewrite ?run_bind, run_seek2. cbn [run]. unfold mul64. rewrite add64_wrap. destruct (mu _); reflexivity.
Qed.

(** ** The agreement *)

(** What v2 makes of an outcome of v3: the same, except that a write that the Go
    runtime stops reports the byte index and keeps the mutex. *)
Definition as_v2 {A} (w : bool) (r : res A) : res A :=
  match r with
  | Panicked (RuntimeError k) s' => if w then Panicked (RuntimeError IndexOutOfRange) (set_mu s' true) else r
  | _ => r
  end.

Lemma as_v2_false {A} (r : res A) : as_v2 false r = r.
Proof. destruct r as [| [] ? | |]; reflexivity. Qed.

Lemma as_v2_bind {A B} w (p q : prog A) (f : A -> rv B) s :
  run p s = as_v2 w (run q s) ->
  run (x <- p ;; Ret (f x)) s = as_v2 w (run (x <- q ;; Ret (f x)) s).
Proof.
  intro H. rewrite !run_bind, H. destruct (run q s) as [| [] ? | |]; try reflexivity. destruct w; reflexivity.
Qed.

Theorem v2_at_agrees s off o o3 :
  WF s -> mu s = false -> is_i64 off -> valid_op2 s o -> plain_op s off o -> op3 o = Some o3 ->
  run (do2_at off o) s = as_v2 (writes_op o) (run (do_at off o3) s).
Proof.
  intros W M Ho V P E.
  destruct o as [ | n | data | data n | | d | v | n | | t d | t n]; cbn [op3] in E;
    cbn [do2_at writes_op valid_op2 plain_op] in *;
    try (injection E as <-); cbn [do_at]; unfold ret_int, ret_unit, ret_bytes, ret_nums;
    try (apply as_v2_bind); rewrite ?as_v2_false;
    rewrite ?v2_ReadBit, ?v2_ReadBits, ?v2_SetBits, ?v2_FlipBit, ?v2_ReadBytes, ?v2_ReadByte, ?v2_ReadT by auto;
    try reflexivity.
  - destruct (Z.eqb_spec data 0) as [->|N0].
    { injection E as <-. cbn [do_at]. unfold ret_unit. rewrite !run_bind, v2_SetBit0 by auto. reflexivity. }
    destruct (Z.eqb_spec data 1) as [->|N1]; [|discriminate].
    injection E as <-. cbn [do_at]. unfold ret_unit. rewrite !run_bind, v2_SetBit1 by auto. reflexivity.
  - destruct P as [P1 P2]. rewrite v2_WriteBytes, run_WriteBytes by auto.
    rewrite smear_clean by (rewrite wf_slice_bytes_zlen by auto; exact P2).
    replace (s_len d =? 0) with false by lia.
    destruct (_ <? _). destruct (_ <? _); reflexivity. destruct (_ <? _); reflexivity.
  - rewrite v2_WriteByte, run_WriteByte by auto.
    destruct (_ <? _). destruct (_ <? _); reflexivity. destruct (_ <? _); reflexivity.
  - rewrite v2_WriteT, run_WriteT by auto.
    destruct (_ <? _). destruct (_ <? _); reflexivity. destruct (_ <? _); [reflexivity|].
    destruct (_ =? _); reflexivity.
Qed.

Lemma op3_bit {B} (o : op2 B) o3 : op3 o = Some o3 -> bit_addressed o3 = bit_addressed2 o.
Proof.
  destruct o; cbn; intro E; try (injection E as <-; reflexivity).
  destruct (_ =? _). injection E as <-; reflexivity. destruct (_ =? _); [|discriminate]. injection E as <-; reflexivity.
Qed.
Lemma op3_adv {B} len (o : op2 B) o3 : op3 o = Some o3 -> advance_of len o3 = advance_of2 len o.
Proof.
  destruct o; cbn; intro E; try (injection E as <-; reflexivity).
  destruct (_ =? _). injection E as <-; reflexivity. destruct (_ =? _); [|discriminate]. injection E as <-; reflexivity.
Qed.

(** v3 never touches the mutex. *)
Lemma lf_do_at off o : lockfree (do_at off o).
Proof.
  destruct o; cbn [do_at]; unfold ret_int, ret_unit, ret_bytes, ret_nums.
  all: apply lockfree_bind; [|intro; exact I].
  - apply lf_ReadBit.
  - unfold V3Buffer.ReadBits. apply lockfree_goto_loop. intros. apply lockfree_bind. apply lf_ReadBit. intro; exact I.
  - apply lf_SetBit.
  - apply lf_ClearBit.
  - unfold V3Buffer.FlipBit. lockfree_tac.
  - unfold V3Buffer.SetBits. apply lockfree_goto_loop. intros. destruct (_ =? _). apply lf_ClearBit. apply lf_SetBit.
  - unfold V3Buffer.WriteBytes. lockfree_tac.
  - unfold V3Buffer.WriteByte, V3Buffer.WriteBytes. lockfree_tac.
  - unfold V3Buffer.ReadBytes. lockfree_tac.
  - unfold V3Buffer.ReadByte, V3Buffer.ReadBytes. lockfree_tac.
  - rewrite WriteT_canon. lockfree_tac. apply lf_MiniWriteT.
  - rewrite ReadT_canon. lockfree_tac. apply lf_rbody.
Qed.

Theorem v2_next_agrees s o o3 :
  WF s -> mu s = false -> valid_op2 s o -> plain_op s (cursor s (bit_addressed2 o)) o -> op3 o = Some o3 ->
  run (do2_next o) s = as_v2 (writes_op o) (run (do_next o3) s).
Proof.
  intros W M V P E. rewrite run_do2_next, run_do_next.
  rewrite (v2_at_agrees s _ o o3) by (auto; apply cursor_i64; auto).
  rewrite (op3_bit _ _ E), (op3_adv _ _ _ E).
  pose proof (run_keeps_mu (do_at (cursor s (bit_addressed2 o)) o3) (lf_do_at _ _) s) as K.
  destruct (run (do_at _ o3) s) as [a s'|e s'|s'|]; [| destruct e | |]; cbn [as_v2]; auto.
  - cbn in K. rewrite K, M. reflexivity.
  - destruct (writes_op o); reflexivity.
Qed.

Theorem v2_call_agrees pol s c c3 :
  WF s -> mu s = false -> valid_call2 s c -> plain_call s c -> call3 c = Some c3 ->
  run (do2_call pol c) s = as_v2 (undeferred c) (run (do_call c3) s).
Proof.
  intros W M V P E.
  destruct c; cbn [call3] in E; try discriminate;
    cbn [do2_call undeferred valid_call2 plain_call] in *; rewrite ?as_v2_false.
  1: { destruct (op3 o) as [o3|] eqn:E3; [|discriminate]. injection E as <-. cbn [do_call].
       destruct V. now apply v2_at_agrees. }
  1: { destruct (op3 o) as [o3|] eqn:E3; [|discriminate]. injection E as <-. cbn [do_call].
       apply v2_next_agrees; auto. destruct o; cbn [plain_op bit_addressed2 cursor] in *; auto. }
  all: injection E as <-; cbn [do_call]; unfold ret_int, ret_unit, ret_bytes, ret_nums;
    rewrite ?run_bind; rewrite ?v2_ClearAllBits, ?v2_SetAllBits, ?v2_FlipAllBits, ?v2_SeekBit, ?v2_Seek,
      ?v2_AlignBit, ?v2_AlignByte, ?v2_Refresh by auto; try reflexivity.
  all: destruct off; reflexivity.
Qed.
