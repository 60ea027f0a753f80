(** * Props_Old: properties C41 - C43, C48 - C50, C58 - C61 of the v1 and v2 [Buffer]
    used by one goroutine. *)
From Coq Require Import ZArith List Bool Lia ZifyBool.
From Verif Require Import GoSem Errors Spec GoLemmas BitLemmas CodecLemmas Typed V3BitLemmas V3ByteLemmas
  TypedCanon TypedLemmas TypedReadLemmas Calls Abs Frame Sim History NewBuf Witness Props_Bits
  LockLemmas OldCalls V2Lemmas V2Agree V2Safe V1Lemmas V1Calls.
From Verif Require V3Buffer V2Buffer V2BufferTyped V1Buffer.
Import ListNotations.
Open Scope Z_scope.
Open Scope go_scope.

(** A growth policy. *)
Definition pol_twice : Z -> Z -> Z := fun c _ => 2 * c.

(** Discharges "this slice exists" on a concrete state. *)
Ltac arg := unfold valid_call2, valid_op2, wf_arg, wf_slice; cbn; repeat split; try lia; vm_compute; discriminate.

(** ** C41 *)

(** [call3 c] is the v3 call with the meaning of [c]; [plain_call] excludes empty
    byte writes and sources that start less than their length before the destination. *)
Theorem C41_v2_calls_agree_with_v3 : forall pol s c c3,
  WF s -> mu s = false -> valid_call2 s c -> call3 c = Some c3 -> plain_call s c ->
  match run (do_call c3) s with
  | Done v s' => run (do2_call pol c) s = Done v s'
  | Panicked (CrunchError a b) s' => run (do2_call pol c) s = Panicked (CrunchError a b) s'
  | Panicked (RuntimeError k) s' =>
      exists k' m, run (do2_call pol c) s = Panicked (RuntimeError k') (set_mu s' m)
  | Deadlock _ | Stuck => False
  end.
Proof.
  intros pol s c c3 W M V E P. pose proof (v2_call_agrees pol s c c3 W M V P E) as A.
  assert (V3 : valid_call s c3).
  { destruct c; cbn [call3] in E; try (injection E as <-; exact V); try discriminate.
    - destruct (op3 o) eqn:E3; [|discriminate]. injection E as <-. destruct V. split; auto. eapply valid_op3; eauto.
    - destruct (op3 o) eqn:E3; [|discriminate]. injection E as <-. eapply valid_op3; eauto. }
  pose proof (do_call_sim s c3 W V3) as S. destruct (run (do_call c3) s) as [v s'|[a b|k] s'|s'|]; cbn [sim] in S; auto.
  rewrite A. cbn [as_v2]. destruct (undeferred c).
  - exists IndexOutOfRange, true. reflexivity.
  - exists k, false. do 2 f_equal. symmetry. apply set_mu_id. destruct S as [_ G]. rewrite (g_mu _ _ G). exact M.
Qed.
Print Assumptions C41_v2_calls_agree_with_v3.

(** Every v2 method but SetBit with a byte other than 0 and 1, Grow and Reset has such
    a v3 call. *)
Theorem C41_every_other_method_has_a_v3_call : forall (c : call2 slice),
  match c with
  | At2 _ (PSetBit data) | Next2 (PSetBit data) => data = 0 \/ data = 1
  | KGrow _ | KReset => False
  | _ => True
  end -> exists c3, call3 c = Some c3.
Proof.
  intros c H. destruct c as [off o|o| | | | | | | | | | | | | | | | | ]; try (now destruct H); try (cbn [call3]; eauto; fail);
    destruct o; cbn [call3 op3 option_map]; try (eauto; fail);
    destruct H as [-> | ->]; cbn; eauto.
Qed.
Print Assumptions C41_every_other_method_has_a_v3_call.

(** Grow: same length and offsets; the contents are the same exactly when the spare
    bytes that v3 exposes are zero. *)
Theorem C41_Grow : forall pol s n s3, WF s -> mu s = false -> is_i64 n -> 
  run (V3Buffer.Grow n) s = Done tt s3 ->
  exists s2, run (V2Buffer.Grow pol n) s = Done tt s2 /\
    zlen (content s2) = zlen (content s3) /\
    b_off (bb s2) = b_off (bb s3) /\ b_boff (bb s2) = b_boff (bb s3) /\ mu s2 = mu s3 /\
    (content s2 = content s3 <-> (zlen (spare s) < n \/ sub (spare s) 0 n = zeros n)).
Proof.
  intros pol s n s3 W M Hn E3. rewrite run_Grow in E3 by auto.
  pose proof (zlen_nonneg (content s)) as C0. pose proof (wf_cap_max s W) as CM. pose proof (content_zlen s W) as CL.
  pose proof (wf_lencap s W) as LC.
  pose proof (spare_zlen s W) as SL. rewrite content_zlen in SL by auto.
  destruct (Z.ltb_spec n 0); [discriminate|]. rewrite v2_Grow by auto.
  assert (ZL : zlen (zeros n) = n) by (apply zlen_zeros; lia).
  destruct (Z.leb_spec n (s_cap (b_buf (bb s)) - zlen (content s))) as [F|F].
  - injection E3 as <-. replace ((n <? 0) || (maxAlloc <? n)) with false by lia.
    replace (zlen (content s) + n <=? maxAlloc) with true by lia.
    destruct (v2_grown_wf pol s n W ltac:(lia) ltac:(lia)) as [W2 C2].
    exists (v2_grown pol s n). split; [reflexivity|]. rewrite C2.
    assert (C3 : content (with_slice s (resize (b_buf (bb s)) (zlen (content s) + n))) = content s ++ sub (spare s) 0 n).
    { apply content_resize_grow; auto; lia. }
    rewrite C3, !zlen_app, ZL, (sub_length (spare s)) by lia.
    split; [reflexivity|]. unfold v2_grown. replace (n <=? _) with true by lia.
    split; [reflexivity|]. split; [reflexivity|]. split; [reflexivity|]. split.
    + intro H0. right. symmetry. now apply app_inv_head in H0.
    + intros [Hs|Hs]; [lia|now rewrite Hs].
  - destruct (Z.leb_spec (2 * (s_cap (b_buf (bb s)) + n)) maxAlloc); [|discriminate]. injection E3 as <-.
    replace ((n <? 0) || (maxAlloc <? n)) with false by lia.
    replace (zlen (content s) + n <=? maxAlloc) with true by lia.
    destruct (v2_grown_wf pol s n W ltac:(lia) ltac:(lia)) as [W2 C2].
    exists (v2_grown pol s n). split; [reflexivity|]. rewrite C2, content_grown by (auto; lia).
    split; [reflexivity|]. unfold v2_grown. replace (n <=? _) with false by lia.
    split; [reflexivity|]. split; [reflexivity|]. split; [reflexivity|]. split; auto. intros _. left. lia.
Qed.
Print Assumptions C41_Grow.

Example C41_case :
  run (do2_call pol_twice (Next2 (PWriteBytes (mkSlice 1 0 3 3)))) ex =
    run (do_call (Next (OWriteBytes (mkSlice 1 0 3 3)))) ex /\
  call3 (Next2 (PWriteBytes (mkSlice 1 0 3 3))) = Some (Next (OWriteBytes (mkSlice 1 0 3 3))) /\
  plain_call ex (Next2 (PWriteBytes (mkSlice 1 0 3 3))) /\ valid_call2 ex (Next2 (PWriteBytes (mkSlice 1 0 3 3))) /\
  (exists s', run (do2_call pol_twice (Next2 (PWriteBytes (mkSlice 1 0 3 3)))) ex = Done RUnit s' /\
     content s' = [165; 9; 9; 9] /\ b_off (bb s') = 4) /\
  run (do2_call pol_twice (At2 3 (PRead NU16BE 1))) ex = Panicked BufferOverreadError ex.
Proof.
  split; [vm_compute; reflexivity|]. split; [reflexivity|].
  split; [split; [cbn; lia|left; reflexivity]|].
  split; [arg|].
  split; [|vm_compute; reflexivity]. eexists. split; [vm_compute; reflexivity|split; reflexivity].
Qed.
Example C41_case_Grow : exists s2 s3,
  run (V2Buffer.Grow pol_twice 1) ex = Done tt s2 /\ content s2 = [165; 15; 255; 8; 0] /\
  run (V3Buffer.Grow 1) ex = Done tt s3 /\ content s3 = [165; 15; 255; 8; 77].
Proof. vm_all. Qed.

(** ** C42 *)

(** v1 and v2 WriteBytes, on a source that starts [k] bytes before the destination in
    the same memory, [0 < k < len]: byte [j] of the destination becomes byte
    [j mod k] of the source. *)
Theorem C42_overlap_repeats_the_source : forall write s off d,
  write = V1Buffer.WriteBytes \/ write = V2Buffer.WriteBytes ->
  WF s -> mu s = false -> wf_arg s d -> 0 <= off -> off + s_len d <= zlen (content s) ->
  s_blk d = s_blk (b_buf (bb s)) ->
  forall k, k = s_off (b_buf (bb s)) + off - s_off d -> 0 < k < s_len d ->
  exists s', run (write off d) s = Done tt s' /\ becomes s (content s') s' /\
    zlen (content s') = zlen (content s) /\
    forall j, 0 <= j < zlen (content s) ->
      byte_at (content s') j =
        if (off <=? j) && (j <? off + s_len d)
        then byte_at (slice_bytes (heap s) d) ((j - off) mod k) else byte_at (content s) j.
Proof.
  intros wr s off d Hw W M Hd Ho Hl Hb k -> Hk.
  pose proof (content_max s W) as CM. rewrite max_alloc_val in CM.
  assert (E : run (wr off d) s = run (V2Buffer.WriteBytes off d) s) by (destruct Hw as [-> | ->]; reflexivity).
  rewrite E, v2_WriteBytes by (auto; unfold is_i64; lia).
  replace (zlen (content s) <? off + s_len d) with false by lia. replace (off <? 0) with false by lia.
  replace (s_len d =? 0) with false by lia.
  set (k := s_off (b_buf (bb s)) + off - s_off d) in *.
  assert (L : lag s off d = k). { unfold lag. rewrite Hb, Nat.eqb_refl. fold k. lia. }
  rewrite L. set (src := slice_bytes (heap s) d). assert (Ls : zlen src = s_len d) by (now apply wf_slice_bytes_zlen).
  assert (Lp : zlen (put (content s) off (smear k src)) = zlen (content s)) by (apply put_length; rewrite ?zlen_smear; lia).
  pose proof (with_content_becomes s (put (content s) off (smear k src)) W Lp) as B.
  eexists. split; [reflexivity|]. pose proof B as (C' & _). rewrite C'. split; [exact B|]. split; [exact Lp|].
  intros j Hj. rewrite byte_at_put by (rewrite ?zlen_smear; lia). rewrite zlen_smear, Ls.
  destruct ((off <=? j) && (j <? off + s_len d)) eqn:R; auto.
  rewrite byte_at_smear by lia. replace (0 <? k) with true by lia. reflexivity.
Qed.
Print Assumptions C42_overlap_repeats_the_source.

(** Sources anywhere else: the destination becomes the source. *)
Theorem C42_no_overlap_stores_the_source : forall write s off d,
  write = V1Buffer.WriteBytes \/ write = V2Buffer.WriteBytes ->
  WF s -> mu s = false -> wf_arg s d -> 0 <= off -> off + s_len d <= zlen (content s) -> 1 <= s_len d ->
  (s_blk d <> s_blk (b_buf (bb s)) \/ s_off (b_buf (bb s)) + off <= s_off d \/
   s_off d + s_len d <= s_off (b_buf (bb s)) + off) ->
  exists s', run (write off d) s = Done tt s' /\
    becomes s (put (content s) off (slice_bytes (heap s) d)) s'.
Proof.
  intros wr s off d Hw W M Hd Ho Hl H1 Hc.
  pose proof (content_max s W) as CM. rewrite max_alloc_val in CM.
  assert (E : run (wr off d) s = run (V2Buffer.WriteBytes off d) s) by (destruct Hw as [-> | ->]; reflexivity).
  rewrite E, v2_WriteBytes by (auto; unfold is_i64; lia).
  replace (zlen (content s) <? off + s_len d) with false by lia. replace (off <? 0) with false by lia.
  replace (s_len d =? 0) with false by lia.
  pose proof (wf_slice_bytes_zlen _ _ Hd) as Ls.
  rewrite smear_clean.
  - eexists. split; [reflexivity|]. apply with_content_becomes; auto. apply put_length; lia.
  - unfold lag. destruct (Nat.eqb_spec (s_blk d) (s_blk (b_buf (bb s)))); [|now left]. lia.
Qed.
Print Assumptions C42_no_overlap_stores_the_source.

(** So it is false that WriteBytes stores what the source held before the call. *)
Theorem C42_refuted_stores_the_source :
  ~ (forall s off d, WF s -> mu s = false -> wf_arg s d -> 0 <= off -> off + s_len d <= zlen (content s) -> 1 <= s_len d ->
     exists s', run (V2Buffer.WriteBytes off d) s = Done tt s' /\
       sub (content s') off (s_len d) = slice_bytes (heap s) d).
Proof.
  intro H. destruct (H ex 1 (mkSlice 0 1 3 3) ex_WF eq_refl) as (s' & E & C); try (cbn; lia).
  { arg. } { vm_compute; discriminate. }
  vm_compute in E. injection E as <-. vm_compute in C. discriminate C.
Qed.
Print Assumptions C42_refuted_stores_the_source.

Example C42_case : exists s', run (V2Buffer.WriteBytes 1 (mkSlice 0 1 3 3)) ex = Done tt s' /\
  content ex = [165; 15; 255; 8] /\ content s' = [165; 165; 165; 165] /\
  wf_arg ex (mkSlice 0 1 3 3) /\ s_off (b_buf (bb ex)) + 1 - 1 = 1.
Proof.
  eexists. split; [vm_compute; reflexivity|]. split; [reflexivity|]. split; [reflexivity|].
  split; [|reflexivity]. arg.
Qed.

(** ** C43 *)

(** A v2 call on an unlocked buffer never blocks.  If it returns the mutex is free.
    If it panics the mutex stays locked exactly when the call is a byte or integer
    write or Grow and the Go runtime raised the panic. *)
Theorem C43_which_panics_keep_the_mutex : forall pol s c, WF s -> mu s = false -> valid_call2 s c ->
  match run (do2_call pol c) s with
  | Done _ s' => mu s' = false
  | Panicked e s' =>
      mu s' = true <->
      (exists k, e = RuntimeError k) /\
      match c with
      | At2 _ (PWriteBytes _) | At2 _ (PWriteByte _) | At2 _ (PWrite _ _)
      | Next2 (PWriteBytes _) | Next2 (PWriteByte _) | Next2 (PWrite _ _) | KGrow _ => True
      | _ => False
      end
  | Deadlock _ | Stuck => False
  end.
Proof.
  intros pol s c W M V. pose proof (v2_call_safe pol s c W M V) as S.
  destruct (run (do2_call pol c) s) as [v s'|[a b|k] s'|s'|]; cbn [lock_ok] in S; try contradiction; destruct S as [W' M'].
  - exact M'.
  - rewrite M'. split; [discriminate|]. intros [[k E] _]. discriminate E.
  - rewrite M'. destruct c as [off o|o| | | | | | | | | | | | | | | | | ]; try destruct o; cbn [undeferred writes_op];
      (split; [intro Q; try discriminate Q; eauto | intros [_ Q]; try contradiction Q; auto]).
Qed.
Print Assumptions C43_which_panics_keep_the_mutex.

(** The same for v1. *)
Theorem C43_v1_which_panics_keep_the_mutex : forall pol s c p, WF s -> mu s = false -> valid_call2 s c ->
  do1_call pol c = Some p ->
  match run p s with
  | Done _ s' => mu s' = false
  | Panicked e s' =>
      mu s' = true <->
      (exists k, e = RuntimeError k) /\
      match c with
      | At2 _ (PWriteBytes _) | At2 _ (PWriteByte _) | At2 _ (PWrite _ _)
      | Next2 (PWriteBytes _) | Next2 (PWriteByte _) | Next2 (PWrite _ _) | KGrow _ => True
      | _ => False
      end
  | Deadlock _ | Stuck => False
  end.
Proof.
  intros pol s c p W M V E. pose proof (v1_call_safe pol s c p W M V E) as S.
  destruct (run p s) as [v s'|[a b|k] s'|s'|]; cbn [lock_ok] in S; try contradiction; destruct S as [W' M'].
  - exact M'.
  - rewrite M'. split; [discriminate|]. intros [[k Q] _]. discriminate Q.
  - rewrite M'. destruct c as [off o|o| | | | | | | | | | | | | | | | | ]; try destruct o; cbn [undeferred writes_op];
      (split; [intro Q; try discriminate Q; eauto | intros [_ Q]; try contradiction Q; auto]).
Qed.
Print Assumptions C43_v1_which_panics_keep_the_mutex.

(** The calls that do: an empty write in range, and Grow of a negative count. *)
Theorem C43_empty_write_locks : forall s off t, WF s -> mu s = false -> 0 <= off <= zlen (content s) ->
  forall d, wf_arg s d -> s_len d = 0 ->
  run (V2Buffer.WriteBytes off d) s = Panicked (RuntimeError IndexOutOfRange) (set_mu s true) /\
  run (V1Buffer.WriteBytes off d) s = Panicked (RuntimeError IndexOutOfRange) (set_mu s true) /\
  run (WriteU t off []) s = Panicked (RuntimeError IndexOutOfRange) (set_mu s true).
Proof.
  intros s off t W M Ho d Hd H0. pose proof (content_max s W) as CM. rewrite max_alloc_val in CM.
  assert (E : run (V2Buffer.WriteBytes off d) s = Panicked (RuntimeError IndexOutOfRange) (set_mu s true)).
  { rewrite v2_WriteBytes by (auto; unfold is_i64; lia). rewrite H0.
    replace (zlen (content s) <? off + 0) with false by lia. replace (off <? 0) with false by lia. reflexivity. }
  split; [exact E|]. split; [exact E|].
  rewrite v2_WriteT; auto. 2: unfold is_i64; lia. 2: { unfold wf_data. change (zlen (@nil Z)) with 0. rewrite max_alloc_val. lia. }
  change (zlen (@nil Z)) with 0. replace (zlen (content s) <? off + 0 * tsize (fmt t)) with false by lia.
  replace (off <? 0) with false by lia. reflexivity.
Qed.
Print Assumptions C43_empty_write_locks.

Theorem C43_negative_Grow_locks : forall pol s n, WF s -> mu s = false -> is_i64 n -> n < 0 ->
  run (V2Buffer.Grow pol n) s = Panicked (RuntimeError MakeLenOutOfRange) (set_mu s true) /\
  run (V1Buffer.Grow pol n) s = Panicked (RuntimeError MakeLenOutOfRange) (set_mu s true).
Proof.
  intros pol s n W M Hn H. change V1Buffer.Grow with V2Buffer.Grow. rewrite v2_Grow by auto.
  replace ((n <? 0) || (maxAlloc <? n)) with true by lia. auto.
Qed.
Print Assumptions C43_negative_Grow_locks.

(** After that, no v2 method that takes the mutex ever returns: a call that would have
    returned blocks, a call that would have panicked blocks or panics that way. *)
Theorem C43_later_calls_never_return : forall pol s c, WF s -> mu s = true -> locks c = true -> valid_call2 s c ->
  match run (do2_call pol c) (set_mu s false) with
  | Done _ _ => exists t, run (do2_call pol c) s = Deadlock t
  | Panicked e t => (exists t', run (do2_call pol c) s = Deadlock t') \/
                    run (do2_call pol c) s = Panicked e (set_mu t true)
  | Deadlock _ | Stuck => False
  end.
Proof.
  intros pol s c W M L V.
  assert (V' : valid_call2 (set_mu s false) c) by (destruct c; exact V).
  pose proof (v2_call_safe pol (set_mu s false) c (set_mu_WF s false W) eq_refl V') as S.
  assert (NS : run (do2_call pol c) (set_mu s false) <> Stuck) by (intro E; rewrite E in S; exact S).
  pose proof (run_when_locked (do2_call pol c) s M NS) as R. pose proof (noret_call pol c s M L) as N.
  destruct (run (do2_call pol c) (set_mu s false)) as [v t|e t|t|] eqn:E; cbn [lock_ok] in S; try contradiction.
  - destruct R as [R|R]; auto. rewrite R in N. contradiction.
  - destruct R as [[t' R]|R]; eauto.
Qed.
Print Assumptions C43_later_calls_never_return.

Example C43_case : exists s1,
  run (do2_call pol_twice (At2 2 (PWriteBytes (mkSlice 1 0 0 3)))) ex = Panicked (RuntimeError IndexOutOfRange) s1 /\
  mu s1 = true /\ content s1 = content ex /\
  (exists t, run (do2_call pol_twice (At2 0 PReadByte)) s1 = Deadlock t) /\
  (exists t, run (do2_call pol_twice KRefresh) s1 = Deadlock t) /\
  run (do2_call pol_twice (At2 9 PReadByte)) s1 = Panicked BufferOverreadError s1.
Proof. vm_all. Qed.

(** ** C48 *)

(** Integer formats other than single bytes: sizes 2, 4, 8 in either order.
    [idata_of t l] is the slice of that element type holding [l]. *)
Theorem C48_in_range_decodes : forall t s off n, WF s -> mu s = false ->
  0 <= off -> 0 <= n -> off + n * tsize (fmt t) <= zlen (content s) ->
  run (V1Buffer.ReadComplex off n (tsize (fmt t)) (order_of t)) s =
  Done (idata_of t (decode_all (fmt t) (content s) off (Z.to_nat n))) s.
Proof.
  intros t s off n W M Ho Hn Hl. pose proof (tsize_pos (fmt t)).
  pose proof (content_max s W) as CM. pose proof max_alloc_val as MV. pose proof (zlen_nonneg (spare s)).
  assert (n <= n * tsize (fmt t)) by nia.
  rewrite v1_ReadComplex by (auto; unfold is_i64; lia). rewrite run_ReadBytes_ok by (auto; lia).
  replace (maxAlloc <? n * tsize (fmt t)) with false by lia. rewrite zlen_app.
  replace (_ <=? _) with true by lia. do 2 f_equal. apply decode_all_prefix; lia.
Qed.
Print Assumptions C48_in_range_decodes.

(** The range check: [n] bytes, whatever the size. *)
Theorem C48_check_is_for_n_bytes : forall t s off n, WF s -> mu s = false -> is_i64 off -> is_i64 n ->
  off + n < 2 ^ 63 ->
  (zlen (content s) < off + n ->
     run (V1Buffer.ReadComplex off n (tsize (fmt t)) (order_of t)) s = Panicked BufferOverreadError s) /\
  (off < 0 -> - 2 ^ 63 <= off + n <= zlen (content s) ->
     run (V1Buffer.ReadComplex off n (tsize (fmt t)) (order_of t)) s = Panicked BufferUnderreadError s).
Proof.
  intros t s off n W M Ho Hn Hs. pose proof (zlen_nonneg (content s)). rewrite v1_ReadComplex, run_ReadBytes_raw by auto. split.
  - intro H0. rewrite add64_id by (unfold is_i64; lia). replace (_ >? _) with true by lia. reflexivity.
  - intros H0 H1. rewrite add64_id by (unfold is_i64; lia). replace (_ >? _) with false by lia.
    replace (off <? 0) with true by lia. reflexivity.
Qed.
Print Assumptions C48_check_is_for_n_bytes.

(** Past the end of the buffer, with the [n] bytes inside: the result is decoded from
    whatever the spare capacity holds, or a Go slice panic stops the loop. *)
Theorem C48_past_the_end : forall t s off n, WF s -> mu s = false ->
  0 <= off -> 0 <= n -> off + n <= zlen (content s) -> zlen (content s) < off + n * tsize (fmt t) ->
  run (V1Buffer.ReadComplex off n (tsize (fmt t)) (order_of t)) s =
  if maxAlloc <? n * tsize (fmt t) then Panicked (RuntimeError MakeLenOutOfRange) s
  else if off + n * tsize (fmt t) <=? zlen (content s) + zlen (spare s)
  then Done (idata_of t (decode_all (fmt t) (content s ++ spare s) off (Z.to_nat n))) s
  else Panicked (RuntimeError SliceOutOfRange) s.
Proof.
  intros t s off n W M Ho Hn Hl Hp. pose proof (content_max s W) as CM. pose proof max_alloc_val as MV.
  rewrite v1_ReadComplex by (auto; unfold is_i64; lia). rewrite run_ReadBytes_ok by (auto; lia).
  rewrite zlen_app. reflexivity.
Qed.
Print Assumptions C48_past_the_end.

(** So it is false that a read that does not fit panics with BufferOverreadError. *)
Theorem C48_refuted_overread_is_reported :
  ~ (forall t s off n, WF s -> mu s = false -> 0 <= off -> 0 <= n ->
     zlen (content s) < off + n * tsize (fmt t) -> off + n * tsize (fmt t) < 2 ^ 63 ->
     run (V1Buffer.ReadComplex off n (tsize (fmt t)) (order_of t)) s = Panicked BufferOverreadError s).
Proof.
  intro H. specialize (H NU16BE ex 2 2 ex_WF eq_refl ltac:(lia) ltac:(lia) ltac:(reflexivity) ltac:(reflexivity)).
  vm_compute in H. discriminate H.
Qed.
Print Assumptions C48_refuted_overread_is_reported.

Example C48_case :
  run (V1Buffer.ReadComplex 0 2 2 BE) ex = Done (V1Buffer.IU16 [42255; 65288]) ex /\
  run (V1Buffer.ReadComplex 2 2 2 BE) ex = Done (V1Buffer.IU16 [65288; 77 * 256 + 66]) ex /\
  run (V1Buffer.ReadComplex 1 3 2 BE) ex = Panicked (RuntimeError SliceOutOfRange) ex /\
  run (V1Buffer.ReadComplex 2 3 2 BE) ex = Panicked BufferOverreadError ex.
Proof. vm_all. Qed.

(** ** C49 *)

(** [idata_of t l]: a []uint16, []uint32 or []uint64. *)
Theorem C49_round_trip : forall t s off l, WF s -> mu s = false ->
  Forall (in_format (fmt t)) l -> l <> [] -> 0 <= off -> off + zlen l * tsize (fmt t) <= zlen (content s) ->
  exists s', run (V1Buffer.WriteComplex off (idata_of t l) (tsize (fmt t)) (order_of t)) s = Done tt s' /\
    WF s' /\ becomes s (put (content s) off (encode_all (fmt t) l)) s' /\
    run (V1Buffer.ReadComplex off (zlen l) (tsize (fmt t)) (order_of t)) s' = Done (idata_of t l) s'.
Proof.
  intros t s off l W M F N Ho Hl. pose proof (tsize_pos (fmt t)) as TP. pose proof (zlen_nonneg l).
  pose proof (content_max s W) as CM. pose proof max_alloc_val as MV.
  assert (zlen l <> 0). { destruct l; [congruence|]. unfold zlen. simpl. lia. }
  pose proof (encode_all_zlen (fmt t) l) as EZ.
  assert (Hd : wf_data (tsize (fmt t)) l) by (unfold wf_data; nia).
  rewrite v1_WriteComplex by (auto; unfold is_i64; lia). cbv zeta.
  replace (zlen (content s) <? off + zlen l * tsize (fmt t)) with false by lia.
  replace (off <? 0) with false by lia. replace (zlen l =? 0) with false by lia.
  set (c := put (content s) off (encode_all (fmt t) l)).
  assert (Lc : zlen c = zlen (content s)) by (apply put_length; lia).
  assert (W1 : WF (scratch t l s)) by now apply scratch_WF.
  assert (C1 : content (scratch t l s) = content s) by now apply content_allocs.
  assert (W2 : WF (with_content (scratch t l s) c)).
  { apply with_content_WF; auto. congruence. apply Forall_put. now apply content_bytes. apply encode_all_bytes. }
  assert (B : becomes s c (with_content (scratch t l s) c)).
  { apply allocs_with_content_becomes; auto. now apply scratch_small. }
  eexists. split; [reflexivity|]. split; [exact W2|]. split; [exact B|].
  destruct B as (C2 & _). rewrite C48_in_range_decodes; rewrite ?C2; auto; try lia.
  do 2 f_equal. unfold c, zlen. rewrite Nat2Z.id. apply decode_all_put; auto; lia.
Qed.
Print Assumptions C49_round_trip.

(** Size 1: the data is the byte slice itself, and ReadComplex returns a view. *)
Theorem C49_round_trip_bytes : forall s off d e e', WF s -> mu s = false -> wf_arg s d ->
  1 <= s_len d -> 0 <= off -> off + s_len d <= zlen (content s) -> s_blk d <> s_blk (b_buf (bb s)) ->
  exists s' v, run (V1Buffer.WriteComplex off (V1Buffer.IBytes d) 1 e) s = Done tt s' /\
    becomes s (put (content s) off (slice_bytes (heap s) d)) s' /\
    run (V1Buffer.ReadComplex off (s_len d) 1 e') s' = Done (V1Buffer.IBytes v) s' /\
    slice_bytes (heap s') v = slice_bytes (heap s) d.
Proof.
  intros s off d e e' W M Hd H1 Ho Hl Hb.
  assert (E : run (V1Buffer.WriteComplex off (V1Buffer.IBytes d) 1 e) s =
    Done tt (with_content s (put (content s) off (slice_bytes (heap s) d)))).
  { rewrite v1_WriteComplex_bytes. change V1Buffer.WriteBytes with V2Buffer.WriteBytes.
    pose proof (content_max s W) as CM. rewrite max_alloc_val in CM.
    rewrite v2_WriteBytes by (auto; unfold is_i64; lia).
    replace (zlen (content s) <? off + s_len d) with false by lia. replace (off <? 0) with false by lia.
    replace (s_len d =? 0) with false by lia. rewrite smear_clean; auto. left. unfold lag.
    destruct (Nat.eqb_spec (s_blk d) (s_blk (b_buf (bb s)))); [contradiction|reflexivity]. }
  pose proof (wf_slice_bytes_zlen _ _ Hd) as Ls.
  assert (Lp : zlen (put (content s) off (slice_bytes (heap s) d)) = zlen (content s)) by (apply put_length; lia).
  assert (W' : WF (with_content s (put (content s) off (slice_bytes (heap s) d)))).
  { apply with_content_WF; auto. apply Forall_put. now apply content_bytes. apply wf_slice_bytes; auto. apply (wf_h s W). }
  pose proof (with_content_becomes s _ W Lp) as B. pose proof B as (C' & B' & M' & _).
  eexists. eexists. split; [exact E|]. split; [exact B|].
  rewrite v1_ReadComplex_bytes by congruence. rewrite run_ReadBytes_ok by (rewrite ?C', ?Lp; auto; lia). split; [reflexivity|].
  destruct (window_bytes (with_content s (put (content s) off (slice_bytes (heap s) d))) off (s_len d) W') as [_ ->]; try lia.
  - rewrite B'. rewrite <- content_zlen by auto. lia.
  - rewrite C'. rewrite <- Ls. apply sub_put_same; lia.
Qed.
Print Assumptions C49_round_trip_bytes.

(** Any size but 1, 2, 4, 8 panics; nothing changes. *)
Theorem C49_invalid_size : forall s off x n z e, mu s = false -> z <> 1 -> z <> 2 -> z <> 4 -> z <> 8 ->
  run (V1Buffer.WriteComplex off x z e) s = Panicked BufferInvalidIntegerSizeError s /\
  (WF s -> 0 <= off -> 0 <= n -> off + n <= zlen (content s) ->
     run (V1Buffer.ReadComplex off n z e) s = Panicked BufferInvalidIntegerSizeError s).
Proof.
  intros s off x n z e M H1 H2 H4 H8. assert (V : valid_size z = false) by (unfold valid_size; lia). split.
  - now apply v1_WriteComplex_size.
  - intros W Ho Hn Hl. rewrite v1_ReadComplex_size, run_ReadBytes_ok by (auto; lia). reflexivity.
Qed.
Print Assumptions C49_invalid_size.

(** Data whose dynamic type is not the one of the size panics; nothing changes. *)
Theorem C49_wrong_type : forall s off x z e, z = 1 \/ z = 2 \/ z = 4 \/ z = 8 ->
  match x with
  | V1Buffer.IBytes _ => z <> 1 | V1Buffer.IU16 _ => z <> 2 | V1Buffer.IU32 _ => z <> 4
  | V1Buffer.IU64 _ => z <> 8 | V1Buffer.IOther => True
  end ->
  run (V1Buffer.WriteComplex off x z e) s = Panicked (RuntimeError TypeAssertion) s.
Proof.
  intros s off x z e Hz Hx. apply v1_WriteComplex_type. unfold valid_size; lia. destruct x; cbn; auto; lia.
Qed.
Print Assumptions C49_wrong_type.

Example C49_case : exists s',
  run (V1Buffer.WriteComplex 0 (V1Buffer.IU16 [0x1234; 0xfffe]) 2 LE) ex = Done tt s' /\
  content s' = [0x34; 0x12; 0xfe; 0xff] /\
  run (V1Buffer.ReadComplex 0 2 2 LE) s' = Done (V1Buffer.IU16 [0x1234; 0xfffe]) s' /\
  run (V1Buffer.WriteComplex 0 (V1Buffer.IU16 [1]) 3 LE) ex = Panicked BufferInvalidIntegerSizeError ex /\
  run (V1Buffer.WriteComplex 0 (V1Buffer.IU16 [1]) 4 LE) ex = Panicked (RuntimeError TypeAssertion) ex.
Proof. vm_all. Qed.

(** ** C50 *)

Theorem C50_SetBit : forall set s off data, set = V1Buffer.SetBit \/ set = V2Buffer.SetBit ->
  WF s -> mu s = false -> 0 <= off < 8 * zlen (content s) ->
  (data = 0 \/ data = 1 ->
     exists s', run (set off data) s = Done tt s' /\ mu s' = false /\ one_bit_set s off (data =? 1) s') /\
  (data <> 0 -> data <> 1 -> run (set off data) s = Panicked BufferInvalidBitError s).
Proof.
  intros set s off data Hs W M Ho.
  assert (E : run (set off data) s = run (V2Buffer.SetBit off data) s) by (destruct Hs as [-> | ->]; reflexivity).
  rewrite E. split.
  - intros [-> | ->].
    + rewrite v2_SetBit0 by auto. rewrite run_ClearBit by auto. replace (_ <=? off) with false by lia.
      replace (off <? 0) with false by lia. eexists. split; [reflexivity|]. split; [exact M|]. now apply put_bit_one_bit_set.
    + rewrite v2_SetBit1 by auto. rewrite run_SetBit by auto. replace (_ <=? off) with false by lia.
      replace (off <? 0) with false by lia. eexists. split; [reflexivity|]. split; [exact M|]. now apply put_bit_one_bit_set.
  - intros H0 H1. rewrite v2_SetBit_bad by auto. replace (_ <=? off) with false by lia.
    replace (off <? 0) with false by lia. reflexivity.
Qed.
Print Assumptions C50_SetBit.

Theorem C50_SetBits : forall set s off data n, set = V1Buffer.SetBits \/ set = V2Buffer.SetBits ->
  WF s -> mu s = false -> is_u64 data -> 1 <= n -> 0 <= off -> off + n <= 8 * zlen (content s) ->
  exists s', run (set off data n) s = Done tt s' /\ WF s' /\ mu s' = false /\ field_set s off data n s'.
Proof.
  intros set s off data n Hs W M Hd H1 H2 H3. pose proof (content_max s W) as CM. rewrite max_alloc_val in CM.
  assert (E : run (set off data n) s = run (V3Buffer.SetBits off data n) s).
  { destruct Hs as [-> | ->]. rewrite v1_SetBits by (unfold is_i64; lia). replace (n <=? 0) with false by lia. all: now apply v2_SetBits. }
  rewrite E. destruct (C05_SetBits s off data n W Hd H1 H2 H3) as (s' & E' & W' & F).
  exists s'. split; [exact E'|]. split; [exact W'|]. split; [|exact F]. destruct F as [(_ & _ & Mu & _) _]. congruence.
Qed.
Print Assumptions C50_SetBits.

Example C50_case : (exists s', run (V2Buffer.SetBit 1 1) ex = Done tt s' /\ content s' = [229; 15; 255; 8]) /\
  run (V1Buffer.SetBit 1 2) ex = Panicked BufferInvalidBitError ex /\
  (exists s', run (V1Buffer.SetBits 6 683 10) ex = Done tt s' /\ content s' = [166; 171; 255; 8]).
Proof. vm_all. Qed.

(** ** C58 *)

(** v1 and v2 Grow append zeros, whatever the spare capacity holds; offsets stay. *)
Theorem C58_Grow_appends_zeros : forall grow pol s n, grow = V1Buffer.Grow \/ grow = V2Buffer.Grow ->
  WF s -> mu s = false -> 0 <= n -> zlen (content s) + n <= maxAlloc ->
  exists s', run (grow pol n) s = Done tt s' /\ WF s' /\ mu s' = false /\ content s' = content s ++ zeros n /\
    b_off (bb s') = b_off (bb s) /\ b_boff (bb s') = b_boff (bb s) /\
    (* with room in the array: the bytes of the array behind the buffer are cleared *)
    (n <= zlen (spare s) ->
       s_blk (b_buf (bb s')) = s_blk (b_buf (bb s)) /\
       forall b i, (b < length (heap s))%nat -> 0 <= i ->
         mem (heap s') b i =
         if Nat.eqb b (s_blk (b_buf (bb s))) && (s_off (b_buf (bb s)) + zlen (content s) <=? i)
              && (i <? s_off (b_buf (bb s)) + zlen (content s) + n)
         then 0 else mem (heap s) b i) /\
    (* without: a new array, all existing memory as before *)
    (zlen (spare s) < n ->
       (length (heap s) <= s_blk (b_buf (bb s')))%nat /\
       forall b, (b < length (heap s))%nat -> nth b (heap s') [] = nth b (heap s) []).
Proof.
  intros grow pol s n Hg W M Hn Hm. pose proof (zlen_nonneg (content s)). pose proof max_alloc_val as MV.
  assert (E : run (grow pol n) s = Done tt (v2_grown pol s n)).
  { transitivity (run (V2Buffer.Grow pol n) s). destruct Hg as [-> | ->]; reflexivity.
    rewrite v2_Grow by (auto; unfold is_i64; lia). replace ((n <? 0) || (maxAlloc <? n)) with false by lia.
    replace (zlen (content s) + n <=? maxAlloc) with true by lia. reflexivity. }
  destruct (v2_grown_wf pol s n W Hn Hm) as [W' C']. pose proof (content_zlen s W) as CL.
  pose proof (spare_zlen s W) as SL. 
  exists (v2_grown pol s n). split; [exact E|]. split; [exact W'|].
  assert (F : mu (v2_grown pol s n) = false /\ b_off (bb (v2_grown pol s n)) = b_off (bb s) /\
              b_boff (bb (v2_grown pol s n)) = b_boff (bb s)).
  { unfold v2_grown. destruct (_ <=? _); repeat split; auto. }
  destruct F as (F1 & F2 & F3). split; [exact F1|]. split; [exact C'|]. split; [exact F2|]. split; [exact F3|].
  unfold v2_grown in *. split.
  - intro Hs. replace (n <=? s_cap (b_buf (bb s)) - zlen (content s)) with true in * by lia.
    split; [reflexivity|]. intros b i Hb Hi.
    pose proof (wf_blk s W) as Bk. pose proof (wf_off0 s W). pose proof (wf_in s W).
    unfold grown_in_place, with_content, with_slice, alloc, mem; cbn [heap bb set_heap set_bb b_buf resize s_blk s_off].
    set (blk := s_blk (b_buf (bb s))) in *. set (o := s_off (b_buf (bb s))) in *.
    change (s_blk (resize (b_buf (bb s)) (zlen (content s) + n))) with blk.
    change (s_off (resize (b_buf (bb s)) (zlen (content s) + n))) with o.
    rewrite nth_put_heap by (rewrite app_length; lia). rewrite !app_nth1 by (auto; lia).
    destruct (Nat.eqb_spec b blk) as [->|]; cbn [andb]; auto.
    rewrite byte_at_put by (rewrite ?zlen_app, ?zlen_zeros by lia; lia).
    rewrite zlen_app, zlen_zeros by lia.
    destruct (Z.leb_spec o i); cbn [andb].
    2: { replace (o + zlen (content s) <=? i) with false by lia. reflexivity. }
    destruct (Z.ltb_spec i (o + (zlen (content s) + n))).
    2: { replace (i <? o + zlen (content s) + n) with false by lia. rewrite andb_false_r. reflexivity. }
    destruct (Z.leb_spec (o + zlen (content s)) i); cbn [andb].
    + replace (i <? o + zlen (content s) + n) with true by lia.
      unfold byte_at. rewrite app_nth2 by (unfold zlen in *; lia). unfold zeros. apply nth_repeat.
    + unfold byte_at. rewrite app_nth1 by (unfold zlen in *; lia).
      fold (byte_at (content s) (i - o)). unfold content, slice_bytes. fold blk o. rewrite byte_at_sub by lia.
      unfold byte_at. do 2 f_equal. lia.
  - intro Hs. replace (n <=? s_cap (b_buf (bb s)) - zlen (content s)) with false in * by lia.
    unfold grown, with_slice, alloc; cbn [heap bb set_heap set_bb b_buf upd_buf s_blk].
    split. { cbn. rewrite app_length. lia. }
    intros b Hb. rewrite <- app_assoc. apply app_nth1. exact Hb.
Qed.
Print Assumptions C58_Grow_appends_zeros.

Example C58_case : exists s', run (V2Buffer.Grow pol_twice 1) ex = Done tt s' /\
  content s' = [165; 15; 255; 8; 0] /\ nth 0 (heap ex) [] = [1; 165; 15; 255; 8; 77; 66; 2] /\
  nth 0 (heap s') [] = [1; 165; 15; 255; 8; 0; 66; 2].
Proof. vm_all. Qed.

(** ** C59 *)

(** v2 Reset: an empty buffer on a new, empty array; offsets zero; existing memory as
    before. *)
Theorem C59_Reset_detaches : forall s, WF s -> mu s = false ->
  exists s', run V2Buffer.Reset s = Done tt s' /\ WF s' /\ mu s' = false /\ content s' = [] /\ spare s' = [] /\
    b_off (bb s') = 0 /\ b_boff (bb s') = 0 /\
    (length (heap s) <= s_blk (b_buf (bb s')))%nat /\
    forall b, (b < length (heap s))%nat -> nth b (heap s') [] = nth b (heap s) [].
Proof.
  intros s W M. exists (reset2 s). split; [now apply v2_Reset|]. split; [now apply reset2_WF|].
  split; [exact M|]. split; [reflexivity|].
  split. { unfold reset2, spare, with_off, with_boff, with_slice; cbn. rewrite nth_alloc_new. reflexivity. }
  split; [reflexivity|]. split; [reflexivity|]. split; [cbn; lia|].
  intros b Hb. unfold reset2. cbn. now apply app_nth1.
Qed.
Print Assumptions C59_Reset_detaches.

Example C59_case : exists s1 s2, run V2Buffer.Reset ex = Done tt s1 /\ content s1 = [] /\
  run (V2Buffer.Grow pol_twice 2 ;; V2Buffer.WriteByte 0 7) s1 = Done tt s2 /\ content s2 = [7; 0] /\
  nth 0 (heap s2) [] = nth 0 (heap ex) [].
Proof. vm_all. Qed.

(** ** C60 *)

(** Histories of one goroutine: calls whose panics are recovered, stores of the caller
    through any slice, allocations.  A call that blocks ends the history. *)
Inductive step2 : Type :=
| SCall (c : call2 slice)
| SStore (blk : nat) (i v : Z)
| SAlloc (l : list Z).
Inductive seen : Type := SReturned (v : rv slice) | SRaised (e : err) | SBlocked | SNone.

Definition history_step (do : call2 slice -> prog (rv slice)) (e : step2) (s : St) : option (seen * St) :=
  match e with
  | SCall c =>
      match run (do c) s with
      | Done v s' => Some (SReturned v, s')
      | Panicked er s' => Some (SRaised er, s')
      | Deadlock s' => Some (SBlocked, s')
      | Stuck => None
      end
  | SStore b i v => match heap_write (heap s) b i [v] with Some h => Some (SNone, set_heap s h) | None => None end
  | SAlloc l => Some (SNone, alloc s l)
  end.

(** The observations and the last state; [None] if the model gets stuck. *)
Fixpoint history (do : call2 slice -> prog (rv slice)) (es : list step2) (s : St) : option (list seen * St) :=
  match es with
  | [] => Some ([], s)
  | e :: r =>
      match history_step do e s with
      | Some (SBlocked, s') => Some ([SBlocked], s')
      | Some (a, s') => match history do r s' with Some (l, s'') => Some (a :: l, s'') | None => None end
      | None => None
      end
  end.

Definition valid_step (s : St) (e : step2) : Prop :=
  match e with
  | SCall c => valid_call2 s c
  | SStore b i v => (b < length (heap s))%nat /\ 0 <= i < zlen (nth b (heap s) []) /\ is_byte v
  | SAlloc l => Forall is_byte l /\ zlen l <= maxAlloc
  end.
Fixpoint valid_history (do : call2 slice -> prog (rv slice)) (es : list step2) (s : St) : Prop :=
  match es with
  | [] => True
  | e :: r => valid_step s e /\ match history_step do e s with Some (_, s') => valid_history do r s' | None => True end
  end.

(** A write or Grow that the Go runtime stopped. *)
Definition poisons (e : step2) (a : seen) : Prop :=
  match e, a with
  | SCall (At2 _ (PWriteBytes _ | PWriteByte _ | PWrite _ _)), SRaised (RuntimeError _) => True
  | SCall (Next2 (PWriteBytes _ | PWriteByte _ | PWrite _ _)), SRaised (RuntimeError _) => True
  | SCall (KGrow _), SRaised (RuntimeError _) => True
  | _, _ => False
  end.

(** "Each observation in [l] is not [SBlocked], unless an earlier one poisons." *)
Fixpoint blocks_only_after (es : list step2) (l : list seen) : Prop :=
  match es, l with
  | e :: es', a :: l' => a <> SBlocked /\ (poisons e a \/ blocks_only_after es' l')
  | _, _ => True
  end.

Section Histories.
Variable do : call2 slice -> prog (rv slice).
Variable ok : call2 slice -> Prop.
Hypothesis do_safe : forall s c, WF s -> mu s = false -> valid_call2 s c -> ok c -> lock_ok (undeferred c) (run (do c) s).

Definition ok_step (e : step2) : Prop := match e with SCall c => ok c | _ => True end.

Lemma store_WF s b i v : WF s -> valid_step s (SStore b i v) ->
  exists h, heap_write (heap s) b i [v] = Some h /\ WF (set_heap s h).
Proof.
  intros W V. destruct (History.store_exec s b i v W V) as (s' & E & W' & _). cbn [History.exec1] in E.
  destruct (heap_write (heap s) b i [v]) as [h|]; [|discriminate]. injection E as <-. eauto.
Qed.

Lemma locked_step s e : WF s -> mu s = true -> valid_step s e -> ok_step e ->
  exists a s', history_step do e s = Some (a, s') /\ (a = SBlocked \/ (WF s' /\ mu s' = true)).
Proof.
  intros W M V O. destruct e as [c|b i v|l]; cbn [history_step].
  - assert (V' : valid_call2 (set_mu s false) c) by (destruct c; exact V).
    pose proof (do_safe (set_mu s false) c (set_mu_WF s false W) eq_refl V' O) as S.
    assert (NS : run (do c) (set_mu s false) <> Stuck) by (intro E; rewrite E in S; exact S).
    destruct (run_when_locked (do c) s M NS) as [[t R]|R]; rewrite R. { eauto. }
    destruct (run (do c) (set_mu s false)) as [x t|[] t|t|]; cbn [lock_ok res_mu] in *; try contradiction;
      destruct S as [S _]; eexists; eexists; (split; [reflexivity|]); right; split; auto; now apply set_mu_WF.
  - destruct (store_WF s b i v W V) as (h & -> & W'). eexists. eexists. split; [reflexivity|]. right. auto.
  - eexists. eexists. split; [reflexivity|]. right. split; auto. destruct V. now apply alloc_WF.
Qed.

Lemma locked_history es : forall s, WF s -> mu s = true -> valid_history do es s -> Forall ok_step es ->
  exists l s', history do es s = Some (l, s').
Proof.
  induction es as [|e r IH]; intros s W M V O; cbn [history]. { eauto. }
  destruct V as [V1 V2]. inversion O as [|? ? O1 O2]; subst.
  destruct (locked_step s e W M V1 O1) as (a & s' & E & H). rewrite E in *.
  destruct H as [-> | [W' M']]. { eauto. }
  destruct (IH s' W' M' V2 O2) as (l & s'' & ->). destruct a; eauto.
Qed.

Lemma free_history es : forall s, WF s -> mu s = false -> valid_history do es s -> Forall ok_step es ->
  exists l s', history do es s = Some (l, s') /\ blocks_only_after es l /\
    ((exists e a, In (e, a) (combine es l) /\ poisons e a) \/ (WF s' /\ mu s' = false /\ length l = length es)).
Proof.
  induction es as [|e r IH]; intros s W M V O; cbn [history].
  - exists [], s. split; [reflexivity|]. split; [exact I|]. auto.
  - destruct V as [V1 V2]. inversion O as [|? ? O1 O2]; subst.
    assert (ST : exists a s', history_step do e s = Some (a, s') /\ a <> SBlocked /\ WF s' /\
               (mu s' = false \/ (mu s' = true /\ poisons e a))).
    { destruct e as [c|b i v|l]; cbn [history_step].
      - pose proof (do_safe s c W M V1 O1) as S.
        destruct (run (do c) s) as [x t|[p q|k] t|t|]; cbn [lock_ok] in S; try contradiction; destruct S as [S1 S2];
          eexists; eexists; (split; [reflexivity|]); (split; [discriminate|]); (split; [exact S1|]); auto.
        destruct c as [off o|o| | | | | | | | | | | | | | | | | ]; try destruct o; cbn [undeferred writes_op poisons] in *; auto.
      - destruct (store_WF s b i v W V1) as (h & -> & W'). eexists. eexists. split; [reflexivity|]. split; [discriminate|]. auto.
      - eexists. eexists. split; [reflexivity|]. split; [discriminate|]. split; [|left; exact M]. destruct V1. now apply alloc_WF. }
    destruct ST as (a & s' & E & Na & W' & H). rewrite E in *. destruct H as [M'|[M' P]].
    + destruct (IH s' W' M' V2 O2) as (l & s'' & -> & B & Q).
      exists (a :: l), s''. split; [destruct a; try reflexivity; congruence|]. split; [cbn; auto|].
      destruct Q as [(e' & a' & I & P)|(Q1 & Q2 & Q3)].
      * left. exists e', a'. split; auto. cbn. auto.
      * right. cbn. auto.
    + destruct (locked_history r s' W' M' V2 O2) as (l & s'' & ->).
      exists (a :: l), s''. split; [destruct a; try reflexivity; congruence|]. split; [cbn; auto|].
      left. exists e, a. split; auto. cbn. auto.
Qed.
End Histories.

(** v2, from its constructor: every history runs; a call blocks only after a write or
    Grow that the Go runtime stopped; with no such call the buffer stays well-formed
    and unlocked to the end. *)
Theorem C60_v2_histories : forall pol s0 slices s,
  wf_heap (heap s0) -> mu s0 = false -> zlen slices < 2 ^ 63 -> Forall (wf_slice (heap s0)) slices ->
  run (V2Buffer.NewBuffer pol slices) s0 = Done tt s ->
  forall es, valid_history (do2_call pol) es s ->
  exists l s', history (do2_call pol) es s = Some (l, s') /\ blocks_only_after es l /\
    ((exists e a, In (e, a) (combine es l) /\ poisons e a) \/ (WF s' /\ mu s' = false /\ length l = length es)).
Proof.
  intros pol s0 slices s H1 M H2 H3 E es V. rewrite v2_NewBuffer in E by auto.
  pose proof (NewBuffer_any pol s0 slices H1 H2 H3) as N.
  destruct (_ <=? _); destruct N as (s' & E' & N). 2: congruence.
  assert (s' = s) by congruence. subst s'.
  apply (free_history (do2_call pol) (fun _ => True)); auto.
  - intros. now apply v2_call_safe.
  - apply (fb_wf _ _ _ N).
  - rewrite (fb_mu _ _ _ N). exact M.
  - apply Forall_forall. intros [] _; exact I.
Qed.
Print Assumptions C60_v2_histories.

(** v1 likewise; it has no Reset. *)
Definition do1 (pol : Z -> Z -> Z) (c : call2 slice) : prog (rv slice) :=
  match do1_call pol c with Some p => p | None => Ret RUnit end.
Theorem C60_v1_histories : forall pol s0 slices s,
  wf_heap (heap s0) -> mu s0 = false -> zlen slices < 2 ^ 63 -> Forall (wf_slice (heap s0)) slices ->
  run (V1Buffer.NewBuffer pol slices) s0 = Done tt s ->
  forall es, valid_history (do1 pol) es s -> ~ In (SCall KReset) es ->
  exists l s', history (do1 pol) es s = Some (l, s') /\ blocks_only_after es l /\
    ((exists e a, In (e, a) (combine es l) /\ poisons e a) \/ (WF s' /\ mu s' = false /\ length l = length es)).
Proof.
  intros pol s0 slices s H1 M H2 H3 E es V NR. change V1Buffer.NewBuffer with V2Buffer.NewBuffer in E.
  rewrite v2_NewBuffer in E by auto.
  pose proof (NewBuffer_any pol s0 slices H1 H2 H3) as N.
  destruct (_ <=? _); destruct N as (s' & E' & N). 2: congruence.
  assert (s' = s) by congruence. subst s'.
  apply (free_history (do1 pol) (fun c => c <> KReset)); auto.
  - intros s1 c W1 M1 V1 Hc. unfold do1. destruct (do1_call pol c) as [p|] eqn:Ep.
    + eapply v1_call_safe; eauto.
    + destruct c; discriminate || congruence.
  - apply (fb_wf _ _ _ N).
  - rewrite (fb_mu _ _ _ N). exact M.
  - apply Forall_forall. intros [c| |] He; try exact I. cbn. intros ->. contradiction.
Qed.
Print Assumptions C60_v1_histories.

Definition ex_steps : list step2 :=
  [SCall (KGrow 2); SCall (Next2 (PWrite NU16BE [0x1234])); SStore 0 0 99; SCall (At2 100 PReadBit);
   SCall (At2 0 (PSetBit 3)); SCall (At2 0 PReadByte); SCall (At2 0 (PWrite NU32LE [])); SCall (At2 9 PReadByte);
   SCall KCapacity; SCall KAlignBit; SCall KReset].
Definition ex_state2 : St :=
  match run (V2Buffer.NewBuffer pol_twice [mkSlice 0 0 3 3]) (mkSt [[1; 2; 3]] (mkBuf (mkSlice 0 0 0 0) 0 0 0 0) false [])
  with Done _ s => s | _ => ex end.
Example C60_case : exists s', history (do2_call pol_twice) ex_steps ex_state2 =
  Some ([SReturned RUnit; SReturned RUnit; SNone; SRaised BufferOverreadError; SRaised BufferInvalidBitError;
         SReturned (RInt 18); SRaised (RuntimeError IndexOutOfRange); SRaised BufferOverreadError;
         SReturned (RInt 5); SBlocked], s').
Proof. eexists. vm_compute. reflexivity. Qed.
Example C60_case_valid : valid_history (do2_call pol_twice) ex_steps ex_state2.
Proof. vm_compute. repeat split; try discriminate; repeat constructor; discriminate. Qed.

(** ** C61 *)

(** v1 agrees with v2 on every shared call with a bit count of at least one, a
    buffer that is not empty for the whole-buffer bit calls, and an integer read
    that fits; v1 may have allocated scratch memory. *)
Theorem C61_v1_calls_agree_with_v2 : forall pol s c p,
  WF s -> mu s = false -> valid_call2 s c -> common_call s c -> do1_call pol c = Some p ->
  match run p s, run (do2_call pol c) s with
  | Done v s1, Done v' s2 => v = v' /\ same_visible s1 s2
  | Panicked e s1, Panicked e' s2 => e = e' /\ same_visible s1 s2
  | _, _ => False
  end.
Proof.
  intros pol s c p W M V C E. pose proof (v1_call_agrees pol s c p W M V C E) as A.
  pose proof (v2_call_safe pol s c W M V) as S.
  destruct (run p s), (run (do2_call pol c) s); cbn [same_res lock_ok] in *; auto.
Qed.
Print Assumptions C61_v1_calls_agree_with_v2.

(** The bit calls with a count below one, and the whole-buffer bit calls on an empty
    buffer, do nothing in v1. *)
Theorem C61_v1_empty_bit_calls : forall s off data n, is_i64 n -> n < 1 ->
  run (V1Buffer.ReadBits off n) s = Done 0 s /\ run (V1Buffer.SetBits off data n) s = Done tt s.
Proof.
  intros s off data n Hn H. rewrite v1_ReadBits, v1_SetBits by auto. replace (n <=? 0) with true by lia. auto.
Qed.
Print Assumptions C61_v1_empty_bit_calls.
Theorem C61_v1_empty_buffer : forall s, WF s -> mu s = false -> content s = [] ->
  run V1Buffer.ClearAllBits s = Done tt s /\ run V1Buffer.SetAllBits s = Done tt s /\ run V1Buffer.FlipAllBits s = Done tt s.
Proof.
  intros s W M C. rewrite v1_ClearAllBits, v1_SetAllBits, v1_FlipAllBits by auto. rewrite C. auto.
Qed.
Print Assumptions C61_v1_empty_buffer.

Example C61_case : (exists s1 s2,
  run (V1Buffer.WriteComplexNext (V1Buffer.IU16 [0x1234]) 2 LE) ex = Done tt s1 /\
  run (V2BufferTyped.WriteU16LENext [0x1234]) ex = Done tt s2 /\ same_visible s1 s2 /\
  content s1 = [165; 52; 18; 8] /\ b_off (bb s1) = 3) /\
  run (V1Buffer.SetBits 0 1 0) ex = Done tt ex /\
  run V1Buffer.FlipAllBits ex_empty = Done tt ex_empty /\
  run V2Buffer.FlipAllBits ex_empty = Panicked (RuntimeError IndexOutOfRange) ex_empty.
Proof.
  split; [|repeat split; vm_compute; reflexivity].
  do 2 eexists. split; [vm_compute; reflexivity|]. split; [vm_compute; reflexivity|].
  split; [|split; reflexivity]. repeat split. eexists [_; _]. reflexivity.
Qed.
