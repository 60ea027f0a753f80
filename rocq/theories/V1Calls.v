(** * V1Calls: the v1 [Buffer] calls as data, compared with v2. *)
From Coq Require Import ZArith List Bool Lia ZifyBool.
From Verif Require Import GoSem Errors Spec GoLemmas BitLemmas CodecLemmas Typed V3BitLemmas V3ByteLemmas
  TypedCanon TypedLemmas TypedReadLemmas Calls Abs Frame Sim LockLemmas OldCalls V2Lemmas V2Agree V2Safe V1Lemmas.
From Verif Require V3Buffer V2Buffer V2BufferTyped V1Buffer V1Mini V2Mini.
Import ListNotations.
Open Scope Z_scope.
Open Scope go_scope.

(** ReadComplex returns an [interface{}]; the caller asserts the type of the size. *)
Definition ret_idata (t : uty) (p : prog V1Buffer.idata) : prog (rv slice) :=
  x <- p ;;
  match nums_of t x with Some l => Ret (RNums l) | None => Panic (RuntimeError TypeAssertion) end.

(** The names of OldCalls.v, run by v1 (v1/buffer.go:491-785).  v2's WriteU16LE and
    so on are WriteComplex with that size and byte order. *)
Definition do1_at (off : Z) (o : op2 slice) : prog (rv slice) :=
  match o with
  | PReadBit => ret_int (V1Buffer.ReadBit off)
  | PReadBits n => ret_int (V1Buffer.ReadBits off n)
  | PSetBit data => ret_unit (V1Buffer.SetBit off data)
  | PSetBits data n => ret_unit (V1Buffer.SetBits off data n)
  | PFlipBit => ret_unit (V1Buffer.FlipBit off)
  | PWriteBytes d => ret_unit (V1Buffer.WriteBytes off d)
  | PWriteByte v => ret_unit (V1Buffer.WriteByte off v)
  | PReadBytes n => ret_bytes (V1Buffer.ReadBytes off n)
  | PReadByte => ret_int (V1Buffer.ReadByte off)
  | PWrite t d => ret_unit (V1Buffer.WriteComplex off (idata_of t d) (tsize (fmt t)) (order_of t))
  | PRead t n => ret_idata t (V1Buffer.ReadComplex off n (tsize (fmt t)) (order_of t))
  end.

Definition do1_next (o : op2 slice) : prog (rv slice) :=
  match o with
  | PReadBit => ret_int V1Buffer.ReadBitNext
  | PReadBits n => ret_int (V1Buffer.ReadBitsNext n)
  | PSetBit data => ret_unit (V1Buffer.SetBitNext data)
  | PSetBits data n => ret_unit (V1Buffer.SetBitsNext data n)
  | PFlipBit => ret_unit V1Buffer.FlipBitNext
  | PWriteBytes d => ret_unit (V1Buffer.WriteBytesNext d)
  | PWriteByte v => ret_unit (V1Buffer.WriteByteNext v)
  | PReadBytes n => ret_bytes (V1Buffer.ReadBytesNext n)
  | PReadByte => ret_int V1Buffer.ReadByteNext
  | PWrite t d => ret_unit (V1Buffer.WriteComplexNext (idata_of t d) (tsize (fmt t)) (order_of t))
  | PRead t n => ret_idata t (V1Buffer.ReadComplexNext n (tsize (fmt t)) (order_of t))
  end.

(** v1 has no Reset: [None]. *)
Definition do1_call (pol : Z -> Z -> Z) (c : call2 slice) : option (prog (rv slice)) :=
  match c with
  | At2 off o => Some (do1_at off o)
  | Next2 o => Some (do1_next o)
  | KClearAllBits => Some (ret_unit V1Buffer.ClearAllBits)
  | KSetAllBits => Some (ret_unit V1Buffer.SetAllBits)
  | KFlipAllBits => Some (ret_unit V1Buffer.FlipAllBits)
  | KSeekBit off r => Some (ret_unit (V1Buffer.SeekBit off r))
  | KSeek off r => Some (ret_unit (V1Buffer.Seek off r))
  | KAfterBit off => Some (ret_int (V1Buffer.AfterBit off))
  | KAfter off => Some (ret_int (V1Buffer.After off))
  | KAlignBit => Some (ret_unit V1Buffer.AlignBit)
  | KAlignByte => Some (ret_unit V1Buffer.AlignByte)
  | KGrow n => Some (ret_unit (V1Buffer.Grow pol n))
  | KRefresh => Some (ret_unit V1Buffer.Refresh)
  | KReset => None
  | KBytes => Some (ret_bytes V1Buffer.Bytes)
  | KCapacity => Some (ret_int V1Buffer.Capacity)
  | KBitCapacity => Some (ret_int V1Buffer.BitCapacity)
  | KOffset => Some (ret_int V1Buffer.Offset)
  | KBitOffset => Some (ret_int V1Buffer.BitOffset)
  end.

Lemma nums_of_idata t l : nums_of t (idata_of t l) = Some l.
Proof. destruct t; reflexivity. Qed.

(** ** Next *)

Lemma writeComplexNext_canon t l :
  V1Buffer.WriteComplexNext (idata_of t l) (tsize (fmt t)) (order_of t) =
  (off <- get FOff ;;
   V1Buffer.WriteComplex off (idata_of t l) (tsize (fmt t)) (order_of t) ;;
   V2Buffer.seek (zlen l *! tsize (fmt t)) true).
Proof. destruct t; reflexivity. Qed.

Theorem run_do1_next o s :
  run (do1_next o) s =
  match run (do1_at (cursor s (bit_addressed2 o)) o) s with
  | Done v s' => if mu s' then Deadlock s'
                 else Done v (with_cursor s' (bit_addressed2 o)
                        (cursor s' (bit_addressed2 o) +! advance_of2 s_len o))
  | Panicked e s' => Panicked e s'
  | Deadlock s' => Deadlock s'
  | Stuck => Stuck
  end.
Proof.
  destruct o as [ | n | data | data n | | d | v | n | | t d | t n].
  1, 3, 5-9: match goal with |- run (do1_next ?o) _ = _ => exact (run_do2_next o s) end.
  - cbn [do1_next do1_at bit_addressed2 advance_of2 cursor with_cursor].
    unfold V1Buffer.ReadBitsNext, V1Buffer.ReadBits, ret_int.
    rewrite ?run_bind; cbn [run get]. rewrite ?run_bind.
    change (get_fld (bb s) FBoff) with (b_boff (bb s)).
    drun s; try reflexivity. rewrite run_bind.
    change (V1Buffer.seekbit n true) with (V2Buffer.seekbit n true). rewrite run_seekbit2. destruct (mu s'); reflexivity.
  - cbn [do1_next do1_at bit_addressed2 advance_of2 cursor with_cursor].
    unfold V1Buffer.SetBitsNext, V1Buffer.SetBits, ret_unit.
    rewrite ?run_bind; cbn [run get]. rewrite ?run_bind.
    change (get_fld (bb s) FBoff) with (b_boff (bb s)).
    drun s; try reflexivity.
    change (V1Buffer.seekbit n true) with (V2Buffer.seekbit n true). rewrite run_seekbit2. destruct (mu s'); reflexivity.
  - cbn [do1_next do1_at bit_addressed2 advance_of2 cursor with_cursor]. rewrite writeComplexNext_canon. unfold ret_unit.
    rewrite ?run_bind; cbn [run get]. rewrite ?run_bind.
    change (get_fld (bb s) FOff) with (b_off (bb s)).
    drun s; try reflexivity.
    rewrite run_seek2. unfold mul64. rewrite add64_wrap. destruct (mu s'); reflexivity.
  - cbn [do1_next do1_at bit_addressed2 advance_of2 cursor with_cursor].
    unfold V1Buffer.ReadComplexNext, ret_idata.
    rewrite ?run_bind; cbn [run get]. rewrite ?run_bind.
    change (get_fld (bb s) FOff) with (b_off (bb s)).
    change (V1Buffer.readComplex (b_off (bb s))) with (V1Buffer.ReadComplex (b_off (bb s))).
    assert (E : exists l s', run (V1Buffer.ReadComplex (b_off (bb s)) n (tsize (fmt t)) (order_of t)) s = Done (idata_of t l) s'
      \/ (forall x s', run (V1Buffer.ReadComplex (b_off (bb s)) n (tsize (fmt t)) (order_of t)) s <> Done x s')).
    { rewrite readComplex_canon, run_bind. drun s; try (exists [], s; right; congruence).
      rewrite run_bind. drun s'; try (exists [], s; right; congruence).
      exists a0, s'0. now left. }
    destruct E as (l & s' & [E|E]).
    + rewrite E. rewrite run_bind. change (V1Buffer.seek (n *! tsize (fmt t)) true) with (V2Buffer.seek (n *! tsize (fmt t)) true).
      rewrite run_seek2. rewrite nums_of_idata. unfold mul64. rewrite add64_wrap. cbn [run].
      destruct (mu s'); cbn [run]; rewrite ?nums_of_idata; reflexivity.
    + drun s; try reflexivity. exfalso. exact (E _ _ eq_refl).
Qed.

(** ** The comparison with v2 *)

(** Same fields, mutex and caller memory; v1 may have allocated more. *)
Definition same_visible (a b : St) : Prop :=
  bb a = bb b /\ mu a = mu b /\ outs a = outs b /\ exists extra, heap a = heap b ++ extra.
Definition same_res {A} (r1 r2 : res A) : Prop :=
  match r1, r2 with
  | Done x s1, Done y s2 => x = y /\ same_visible s1 s2
  | Panicked x s1, Panicked y s2 => x = y /\ same_visible s1 s2
  | Deadlock s1, Deadlock s2 => same_visible s1 s2
  | Stuck, Stuck => True
  | _, _ => False
  end.
Lemma same_visible_refl s : same_visible s s.
Proof. repeat split; auto. exists []. now rewrite app_nil_r. Qed.
Lemma same_res_refl {A} (r : res A) : same_res r r.
Proof. destruct r; cbn; auto using same_visible_refl. Qed.
Lemma same_res_bind {A B} (p q : prog A) (f : A -> B) s :
  same_res (run p s) (run q s) -> same_res (run (x <- p ;; Ret (f x)) s) (run (x <- q ;; Ret (f x)) s).
Proof. rewrite !run_bind. destruct (run p s), (run q s); cbn [same_res run]; auto; intros []; split; congruence. Qed.

Lemma allocs_visible s ls : same_visible (allocs s ls) s.
Proof. repeat split; auto. exists ls. reflexivity. Qed.

Lemma put_app_heap (h : list (list Z)) e i x :
  (i < length h)%nat -> put (h ++ e) (Z.of_nat i) [x] = put h (Z.of_nat i) [x] ++ e.
Proof.
  intro H. unfold put. rewrite Nat2Z.id. simpl length. rewrite firstn_app, skipn_app.
  replace (i - length h)%nat with O by lia. replace (i + 1 - length h)%nat with O by lia.
  cbn [firstn skipn]. rewrite app_nil_r, <- !app_assoc. reflexivity.
Qed.
Lemma with_content_allocs s ls c : WF s -> same_visible (with_content (allocs s ls) c) (with_content s c).
Proof.
  intro W. pose proof (wf_blk s W).
  unfold same_visible, with_content, allocs; cbn [bb mu outs heap set_heap set_bb].
  repeat split; auto. exists ls. rewrite app_nth1 by lia. apply put_app_heap. exact H.
Qed.
Lemma set_mu_visible a b m : same_visible a b -> same_visible (set_mu a m) (set_mu b m).
Proof. intros (? & ? & ? & ?). repeat split; auto. Qed.

(** Calls for which v1 and v2 are meant to agree: bit counts of at least one, whole
    buffer bit calls on a buffer that is not empty, and integer reads of at least one
    element with all elements in the buffer. *)
Definition common_op (s : St) (off : Z) (o : op2 slice) : Prop :=
  match o with
  | PReadBits n | PSetBits _ n => 1 <= n
  | PRead t n => 0 <= off /\ 1 <= n /\ off + n * tsize (fmt t) <= zlen (content s)
  | _ => True
  end.
Definition common_call (s : St) (c : call2 slice) : Prop :=
  match c with
  | At2 off o => common_op s off o
  | Next2 o => common_op s (b_off (bb s)) o
  | KClearAllBits | KSetAllBits | KFlipAllBits => 1 <= zlen (content s)
  | _ => True
  end.

Lemma sub_app_l {A} (a b : list A) i n : 0 <= i -> 0 <= n -> i + n <= zlen a -> sub (a ++ b) i n = sub a i n.
Proof.
  intros. unfold sub, zlen in *. rewrite skipn_app, firstn_app, skipn_length.
  replace (Z.to_nat n - (length a - Z.to_nat i))%nat with O by lia.
  cbn [firstn]. apply app_nil_r.
Qed.
Lemma decode_all_prefix t (a b : list Z) : forall n off,
  0 <= off -> off + Z.of_nat n * tsize t <= zlen a -> decode_all t (a ++ b) off n = decode_all t a off n.
Proof.
  induction n as [|n IH]; intros off H0 H1; cbn [decode_all]; auto.
  pose proof (tsize_pos t). rewrite Nat2Z.inj_succ in H1. f_equal.
  - f_equal. apply sub_app_l; nia.
  - apply IH; nia.
Qed.

Theorem v1_at_agrees s off o :
  WF s -> mu s = false -> is_i64 off -> valid_op2 s o -> common_op s off o ->
  same_res (run (do1_at off o) s) (run (do2_at off o) s).
Proof.
  intros W M Ho V C.
  destruct o as [ | n | data | data n | | d | v | n | | t d | t n]; cbn [valid_op2 common_op] in *;
    try apply same_res_refl.
  - cbn [do1_at do2_at]. unfold ret_int. apply same_res_bind. rewrite v1_ReadBits by auto.
    replace (n <=? 0) with false by lia. apply same_res_refl.
  - cbn [do1_at do2_at]. unfold ret_unit. apply same_res_bind. rewrite v1_SetBits by tauto.
    replace (n <=? 0) with false by lia. apply same_res_refl.
  - cbn [do1_at do2_at]. unfold ret_unit. apply same_res_bind.
    rewrite v1_WriteComplex, v2_WriteT by auto. cbv zeta.
    assert (same_visible (scratch t d s) s) by apply allocs_visible.
    destruct (_ <? _). destruct (_ <? _); (split; [reflexivity|]); auto using set_mu_visible.
    destruct (_ <? _). now split. destruct (_ =? _). split; auto using set_mu_visible.
    split; auto. now apply with_content_allocs.
  - cbn [do1_at do2_at]. unfold ret_idata, ret_nums. rewrite !run_bind, v2_ReadT by auto.
    pose proof (tsize_pos (fmt t)). pose proof (content_max s W) as CM. pose proof (zlen_nonneg (spare s)).
    rewrite run_ReadT_ok by (auto; lia). rewrite v1_ReadComplex by auto.
    rewrite run_ReadBytes_ok by (auto; nia). rewrite zlen_app.
    replace (maxAlloc <? n * tsize (fmt t)) with false by lia.
    replace (off + n * tsize (fmt t) <=? zlen (content s) + zlen (spare s)) with true by lia.
    rewrite nums_of_idata. cbn [run]. split; [|apply same_visible_refl]. f_equal.
    apply decode_all_prefix; lia.
Qed.

Lemma with_cursor_visible a b x y : same_visible a b -> same_visible (with_cursor a x y) (with_cursor b x y).
Proof.
  intros (B & ? & ? & ?). destruct x; unfold same_visible, with_cursor, with_off, with_boff; cbn [bb mu outs heap set_bb];
  rewrite B; repeat split; auto.
Qed.

Theorem v1_next_agrees s o :
  WF s -> mu s = false -> valid_op2 s o -> common_op s (b_off (bb s)) o ->
  same_res (run (do1_next o) s) (run (do2_next o) s).
Proof.
  intros W M V C. rewrite run_do1_next, run_do2_next.
  pose proof (v1_at_agrees s (cursor s (bit_addressed2 o)) o W M (cursor_i64 s _ W) V) as A.
  assert (C' : common_op s (cursor s (bit_addressed2 o)) o) by (destruct o; exact C). specialize (A C').
  destruct (run (do1_at _ o) s), (run (do2_at _ o) s); cbn [same_res] in A; try contradiction; auto.
  destruct A as [-> A]. pose proof A as (B & -> & _). destruct (mu s1). exact A.
  split; auto. replace (cursor s0 (bit_addressed2 o)) with (cursor s1 (bit_addressed2 o)).
  now apply with_cursor_visible. unfold cursor. now rewrite B.
Qed.

Theorem v1_call_agrees pol s c p :
  WF s -> mu s = false -> valid_call2 s c -> common_call s c -> do1_call pol c = Some p ->
  same_res (run p s) (run (do2_call pol c) s).
Proof.
  intros W M V C E. destruct c; cbn [do1_call] in E; injection E as <- || discriminate;
    cbn [valid_call2 common_call do2_call] in *; try apply same_res_refl.
  - destruct V. now apply v1_at_agrees.
  - now apply v1_next_agrees.
  - unfold ret_unit. apply same_res_bind. rewrite v1_ClearAllBits by auto.
    replace (zlen (content s) =? 0) with false by lia. apply same_res_refl.
  - unfold ret_unit. apply same_res_bind. rewrite v1_SetAllBits by auto.
    replace (zlen (content s) =? 0) with false by lia. apply same_res_refl.
  - unfold ret_unit. apply same_res_bind. rewrite v1_FlipAllBits by auto.
    replace (zlen (content s) =? 0) with false by lia. apply same_res_refl.
Qed.

(** ** Every v1 call leaves a well-formed buffer; the mutex *)

Theorem v1_at_safe s off o : WF s -> mu s = false -> is_i64 off -> valid_op2 s o ->
  lock_ok (writes_op o) (run (do1_at off o) s).
Proof.
  intros W M Ho V. pose proof (v2_at_safe s off o W M Ho V) as S.
  destruct o as [ | n | data | data n | | d | v | n | | t d | t n]; cbn [valid_op2 writes_op] in *; try exact S.
  - cbn [do1_at do2_at] in *. unfold ret_int in *. rewrite run_bind in *. rewrite v1_ReadBits by auto.
    destruct (_ <=? _); auto. now split.
  - cbn [do1_at do2_at] in *. unfold ret_unit in *. rewrite run_bind in *. rewrite v1_SetBits by tauto.
    destruct (_ <=? _); auto. now split.
  - cbn [do1_at]. unfold ret_unit. apply lock_ok_bind. rewrite v1_WriteComplex by auto. cbv zeta.
    pose proof (encode_all_zlen (fmt t) d) as EZ. pose proof (tsize_pos (fmt t)). pose proof (zlen_nonneg d).
    assert (W1 : WF (scratch t d s)) by now apply scratch_WF.
    destruct (Z.ltb_spec (zlen (content s)) (off + zlen d * tsize (fmt t))). destruct (_ <? _); split; auto. now apply set_mu_WF.
    destruct (Z.ltb_spec off 0). now split. destruct (_ =? _). split; auto. now apply set_mu_WF.
    split; auto. apply with_content_WF; auto.
    + unfold scratch. rewrite content_allocs by auto. apply put_length; lia.
    + apply Forall_put. now apply content_bytes. apply encode_all_bytes.
  - cbn [do1_at]. unfold ret_idata. rewrite run_bind, v1_ReadComplex by auto.
    rewrite run_ReadBytes_raw by auto.
    destruct (_ >? _). now split. destruct (_ <? 0). now split. destruct (off <=? _). 2: now split.
    destruct (_ <? _). now split. destruct (_ <=? _). 2: now split.
    rewrite nums_of_idata. now split.
Qed.

Theorem v1_next_safe s o : WF s -> mu s = false -> valid_op2 s o -> lock_ok (writes_op o) (run (do1_next o) s).
Proof.
  intros W M V. rewrite run_do1_next.
  pose proof (v1_at_safe s (cursor s (bit_addressed2 o)) o W M (cursor_i64 _ _ W) V) as H.
  destruct (run _ s) as [v s'|e s'|s'|]; auto. cbn [lock_ok] in H. destruct H as [W' M']. rewrite M'.
  split. apply with_cursor_WF; auto. apply wrap64_range. destruct (bit_addressed2 o); exact M'.
Qed.

Theorem v1_call_safe pol s c p : WF s -> mu s = false -> valid_call2 s c -> do1_call pol c = Some p ->
  lock_ok (undeferred c) (run p s).
Proof.
  intros W M V E. pose proof (v2_call_safe pol s c W M V) as S.
  destruct c; cbn [do1_call] in E; injection E as <- || discriminate; cbn [valid_call2 undeferred do2_call] in *; try exact S.
  - destruct V. now apply v1_at_safe.
  - now apply v1_next_safe.
  - unfold ret_unit in *. rewrite run_bind in *. rewrite v1_ClearAllBits by auto. destruct (_ =? _); auto. now split.
  - unfold ret_unit in *. rewrite run_bind in *. rewrite v1_SetAllBits by auto. destruct (_ =? _); auto. now split.
  - unfold ret_unit in *. rewrite run_bind in *. rewrite v1_FlipAllBits by auto. destruct (_ =? _); auto. now split.
Qed.
