(** * MiniSim2: the v1 and v2 [MiniBuffer] methods against the abstract machine of
    MiniAbs2, on every argument. *)
From Coq Require Import ZArith List Bool Lia ZifyBool.
From Verif Require Import GoSem Errors Spec GoLemmas BitLemmas CodecLemmas Typed V3BitLemmas V3ByteLemmas
  TypedCanon TypedLemmas TypedReadLemmas Calls Abs Frame Sim LockLemmas MiniAbs MiniLemmas MiniSim OldCalls
  V2Lemmas V2Agree V2Safe V1Lemmas V1Calls ConcSpec Abs2 Sim2 MiniAbs2.
From Verif Require V3Mini V3Buffer V2Mini V2MiniTyped V1Buffer V1Mini.
Import ListNotations.
Open Scope Z_scope.

(** ** The v2 methods evaluated *)

Lemma mini2_ReadBit s off : WF s -> run (V2Mini.ReadBit off) s = run (V3Mini.ReadBit off) s.
Proof.
  intro W. rewrite mini_ReadBit_all by exact W. unfold mbit, V2Mini.ReadBit, V2Mini.readbit.
  destruct (in_bits (content s) off) eqn:E; [|destruct (phantom (content s) off) eqn:P].
  - unfold in_bits in E. rewrite run_bind, run_buf_get by (auto; rewrite quo_nonneg by lia; lia).
    cbn [run]. rewrite bit_value by lia.
    assert (R : run (V3Mini.ReadBit off) s = Done (Z.b2z (bit_at (content s) off)) s).
    { rewrite mini_ReadBit_all by exact W. unfold mbit, in_bits. now rewrite E. }
    unfold V3Mini.ReadBit in R. rewrite run_bind, run_buf_get in R by (auto; rewrite quo_nonneg by lia; lia).
    exact R.
  - unfold phantom in P. rewrite run_bind, quo_neg8, run_buf_get by (auto; lia).
    unfold V2Mini.bit_mask, V2Buffer.bit_mask. rewrite phantom_write_shift by lia. now rewrite Z.land_0_r.
  - rewrite run_bind, run_buf_get_oob; auto. now apply out_of_bits.
Qed.
Lemma mini2_SetBit1 s off : run (V2Mini.SetBit off 1) s = run (V3Mini.SetBit off) s.
Proof. reflexivity. Qed.
Lemma mini2_SetBit0 s off : run (V2Mini.SetBit off 0) s = run (V3Mini.ClearBit off) s.
Proof. reflexivity. Qed.
Lemma mini2_FlipBit s off : run (V2Mini.FlipBit off) s = run (V3Mini.FlipBit off) s.
Proof. reflexivity. Qed.
Lemma mini2_ReadBits s off n : WF s -> run (V2Mini.ReadBits off n) s = run (V3Mini.ReadBits off n) s.
Proof.
  intro W. unfold V2Mini.ReadBits, V2Mini.readbits, V3Mini.ReadBits. apply (goto_loop_ext WF); auto.
  - intros i a t Wt. rewrite !run_bind. change (V2Mini.readbit (off +! i)) with (V2Mini.ReadBit (off +! i)).
    now rewrite mini2_ReadBit.
  - intros i a t a' t' Wt. rewrite run_bind, mini_ReadBit_all by auto. destruct (mbit _ _); [|discriminate].
    cbn [run]. intros [= _ <-]. now apply set_outs_WF.
Qed.
Lemma mini2_SetBits s off data n : run (V2Mini.SetBits off data n) s = run (V3Mini.SetBits off data n) s.
Proof.
  unfold V2Mini.SetBits, V2Mini.setbits, V3Mini.SetBits. apply (goto_loop_ext (fun _ => True)); auto.
  intros i a t _. destruct (bit_byte data (uconv 64 (n -! i -! 1))) as [-> | ->].
  - change (0 =? 0) with true. cbv iota. apply mini2_SetBit0.
  - change (1 =? 0) with false. cbv iota. apply mini2_SetBit1.
Qed.

Lemma mini2_WriteBytes s off d : WF s -> is_i64 off -> wf_slice (heap s) d ->
  run (V2Mini.WriteBytes off d) s =
  let x := smear (lag s off d) (slice_bytes (heap s) d) in
  if (s_len d =? 0) || (off <? 0) || (zlen (content s) <? off) then Panicked index_err s
  else if off + s_len d <=? zlen (content s) then Done tt (with_content s (put (content s) off x))
  else Panicked index_err (with_content s (put (content s) off (sub x 0 (zlen (content s) - off)))).
Proof.
  intros W Ho Hd. cbv zeta. change (V2Mini.WriteBytes off d) with (copy_loop off d).
  unfold is_i64 in Ho. pose proof Hd as (_ & _ & Hl & _).
  destruct (Z.eqb_spec (s_len d) 0) as [E|E]; cbn [orb].
  { unfold copy_loop. apply goto_loop_first. rewrite run_bind. unfold slice_get. now rewrite E. }
  destruct (Z.ltb_spec off 0); cbn [orb].
  { unfold copy_loop. apply goto_loop_first. rewrite run_bind, run_slice_get by (auto; lia).
    rewrite add64_id by (unfold is_i64; lia). apply run_buf_set_oob; auto. lia. }
  rewrite run_copy_loop by (auto; lia). replace (s_len d =? 0) with false by lia.
  destruct (Z.ltb_spec (zlen (content s)) off).
  { replace (off + s_len d <=? zlen (content s)) with false by lia. now replace (off <? zlen (content s)) with false by lia. }
  destruct (Z.leb_spec (off + s_len d) (zlen (content s))); auto.
  destruct (Z.ltb_spec off (zlen (content s))); auto.
  replace (zlen (content s) - off) with 0 by lia. change (sub (smear (lag s off d) (slice_bytes (heap s) d)) 0 0) with (@nil Z).
  now rewrite put_nil, with_content_same.
Qed.

Lemma MiniWriteU_v3 t : MiniWriteU t = MiniWriteT (fmt t).
Proof. destruct t; reflexivity. Qed.
Lemma MiniReadU_v3 t : MiniReadU t = MiniReadT (fmt t).
Proof. destruct t; reflexivity. Qed.
Lemma MiniWriteUNext_v3 t : MiniWriteUNext t = MiniWriteTNext (fmt t).
Proof. destruct t; reflexivity. Qed.
Lemma MiniReadUNext_v3 t : MiniReadUNext t = MiniReadTNext (fmt t).
Proof. destruct t; reflexivity. Qed.

(** ** The simulation *)

Definition mseen (s : St) (r : res (rv slice)) (o : outcome * list Z) : Prop :=
  match r with
  | Done v s' => o = (Ok (view_rv s' v) (abs s'), outs s') /\ mu s' = mu s /\ kept s (set_outs s' (outs s))
  | Panicked e s' => o = (Fail e (abs s'), outs s') /\ mu s' = mu s /\ kept s (set_outs s' (outs s))
  | Deadlock _ | Stuck => False
  end.

Lemma mseen_msim s r o : WF s -> msim s r o -> mseen s r o.
Proof.
  intros W. destruct r as [v s'|e s'|s'|]; cbn; auto; intros [E G]; (split; [exact E|]);
    (split; [exact (g_mu _ _ G)|now apply kept_good]).
Qed.
Lemma mseen_refl_ok s v w : WF s -> view_rv s v = w -> mseen s (Done v s) (Ok w (abs s), outs s).
Proof. intros. apply mseen_msim; auto. now apply msim_refl_ok. Qed.
Lemma mseen_refl_fail s e : WF s -> mseen s (Panicked e s) (Fail e (abs s), outs s).
Proof. intros. apply mseen_msim; auto. now apply msim_refl_fail. Qed.
Lemma mseen_store s off d (p : prog unit) s1 :
  WF s -> WF s1 -> becomes s (content s) s1 -> abs s1 = abs s -> mu s1 = mu s ->
  (forall l, zlen l = zlen (content s) -> becomes s l (with_content s1 l)) ->
  Forall is_byte d ->
  run p s =
    (if (zlen d =? 0) || (off <? 0) || (zlen (content s) <? off) then Panicked index_err s1
     else if off + zlen d <=? zlen (content s) then Done tt (with_content s1 (put (content s) off d))
     else Panicked index_err (with_content s1 (put (content s) off (sub d 0 (zlen (content s) - off))))) ->
  mseen s (run (ret_unit p) s) (old_mini_store off d (abs s), outs s).
Proof.
  intros W W1 B1 A M1 BC Bd R. unfold ret_unit. rewrite run_bind, R. unfold old_mini_store. cbn [a_bytes abs]. fold (abs s).
  assert (C : content s1 = content s) by (now injection A).
  assert (O1 : outs s1 = outs s) by apply B1.
  assert (K : kept s s1) by (eapply kept_becomes; eauto).
  destruct ((zlen d =? 0) || (off <? 0) || (zlen (content s) <? off)) eqn:E.
  { cbn [mseen]. rewrite A, O1, <- O1, set_outs_self. auto. }
  assert (G : forall x, zlen x = zlen (content s) -> Forall is_byte x ->
     abs (with_content s1 x) = set_bytes (abs s) x /\ kept s (with_content s1 x)).
  { intros x Zx Bx. assert (Z1 : zlen x = zlen (content s1)) by (rewrite C; exact Zx).
    rewrite abs_with_content by auto. rewrite A. split; auto.
    apply (kept_becomes s x); auto. now apply with_content_WF. }
  destruct (Z.leb_spec (off + zlen d) (zlen (content s))).
  - destruct (G (put (content s) off d)) as [G1 G2].
    { apply put_length; lia. } { apply Forall_put; auto. now apply content_bytes. }
    cbn [run mseen view_rv]. rewrite G1. change (outs (with_content s1 _)) with (outs s1).
    change (mu (with_content s1 (put (content s) off d))) with (mu s1). rewrite O1. split; [reflexivity|].
    split; [exact M1|]. rewrite <- O1. exact G2.
  - assert (Z2 : zlen (sub d 0 (zlen (content s) - off)) = zlen (content s) - off) by (apply sub_length; lia).
    destruct (G (put (content s) off (sub d 0 (zlen (content s) - off)))) as [G1 G2].
    { apply put_length; lia. } { apply Forall_put. now apply content_bytes. now apply Forall_sub. }
    cbn [mseen]. rewrite G1. change (outs (with_content s1 _)) with (outs s1).
    change (mu (with_content s1 (put (content s) off (sub d 0 (zlen (content s) - off))))) with (mu s1). rewrite O1. split; [reflexivity|].
    split; [exact M1|]. rewrite <- O1. exact G2.
Qed.

Theorem mini2_at_seen s off o :
  WF s -> is_i64 off -> old_mini_op o = true -> valid_op2 s o -> valid_old_out o (outs s) ->
  mseen s (run (mini2_at off o) s) (old_mini_abs_at V2 off (view_old_op s o) (abs s) (outs s)).
Proof.
  intros W Ho Hm V Hv.
  assert (A : forall o3, mini_opn o3 = true -> valid_opn s o3 -> valid_out o3 (outs s) ->
     mseen s (run (mini_at off o3) s) (mini_abs_at off (abs_opn s o3) (abs s) (outs s))).
  { intros. apply mseen_msim; auto. now apply mini_at_sim. }
  destruct o as [ | n | data | data n | | d | v | n | | t d | t n]; try discriminate Hm;
    cbn [view_old_op old_mini_abs_at valid_op2 valid_old_out] in *.
  - pose proof (A OReadBit eq_refl I I) as R. cbn [mini_at mini2_at abs_opn] in *. unfold ret_int in *.
    rewrite run_bind in *. now rewrite mini2_ReadBit.
  - pose proof (A (OReadBits n) eq_refl V Hv) as R. cbn [mini_at mini2_at abs_opn] in *.
    rewrite run_bind in *. now rewrite mini2_ReadBits.
  - cbn [mini2_at]. destruct (Z.eqb_spec data 0) as [->|N0]; [|destruct (Z.eqb_spec data 1) as [->|N1]].
    + exact (A OClearBit eq_refl I I).
    + exact (A OSetBit eq_refl I I).
    + unfold ret_unit. rewrite run_bind. unfold V2Mini.SetBit, V2Mini.setbit.
      replace (data =? 0) with false by lia. replace (data =? 1) with false by lia. cbn [run]. now apply mseen_refl_fail.
  - pose proof (A (OSetBits data n) eq_refl V I) as R. cbn [mini_at mini2_at abs_opn] in *. unfold ret_unit in *.
    rewrite run_bind in *. now rewrite mini2_SetBits.
  - exact (A OFlipBit eq_refl I I).
  - cbn [mini2_at]. rewrite copied_view. apply (mseen_store s off _ _ s); auto.
    + now apply becomes_self.
    + intros. now apply with_content_becomes.
    + apply smear_bytes, wf_slice_bytes; auto. apply (wf_h s W).
    + rewrite mini2_WriteBytes by auto. rewrite zlen_smear, wf_slice_bytes_zlen by auto. reflexivity.
  - exact (A (OReadBytes n) eq_refl V I).
  - cbn [mini2_at]. rewrite MiniWriteU_v3. apply (mseen_store s off _ _ s); auto.
    + now apply becomes_self.
    + intros. now apply with_content_becomes.
    + apply encode_all_bytes.
    + rewrite mini_WriteT by auto. rewrite encode_all_zlen. pose proof (tsize_pos (fmt t)).
      replace (zlen d * tsize (fmt t) =? 0) with (zlen d =? 0) by nia. reflexivity.
  - cbn [mini2_at]. rewrite MiniReadU_v3. exact (A (ORead (fmt t) n) eq_refl V I).
Qed.

(** *** v1 *)

Lemma mini1_ReadBits s off n : is_i64 n ->
  run (V1Mini.ReadBits off n) s = if n <=? 0 then Done tt s else run (V2Mini.ReadBits off n) s.
Proof.
  intro Hn. unfold V1Mini.ReadBits, V1Mini.readbits. destruct (Z.leb_spec n 0).
  - now apply for_loop_none.
  - unfold is_i64 in Hn. rewrite for_loop_goto by lia. reflexivity.
Qed.
Lemma mini1_SetBits s off data n : is_i64 n ->
  run (V1Mini.SetBits off data n) s = if n <=? 0 then Done tt s else run (V2Mini.SetBits off data n) s.
Proof.
  intro Hn. unfold V1Mini.SetBits, V1Mini.setbits. destruct (Z.leb_spec n 0).
  - now apply for_loop_none.
  - unfold is_i64 in Hn. rewrite for_loop_goto by lia. reflexivity.
Qed.
Lemma mini1_all (b : Z -> unit -> prog unit) s : WF s ->
  run (bind get_buf (fun sl => for_loop (s_len sl) b tt)) s =
  if zlen (content s) =? 0 then Done tt s else run (bind get_buf (fun sl => goto_loop (s_len sl) b tt)) s.
Proof.
  intros W. cbn [get_buf bind run]. rewrite content_zlen by auto.
  pose proof (wf_len0 s W). pose proof (content_zlen s W) as CL. pose proof (content_max s W) as CM.
  rewrite max_alloc_val in CM.
  destruct (Z.eqb_spec (s_len (b_buf (bb s))) 0) as [E|E].
  - rewrite E. now apply for_loop_none.
  - apply for_loop_goto. lia.
Qed.

Lemma mini1_WriteComplex t s off l : WF s -> is_i64 off -> wf_data (tsize (fmt t)) l ->
  run (V1Mini.WriteComplex off (idata_of t l) (tsize (fmt t)) (order_of t)) s =
  let s1 := scratch t l s in
  let x := encode_all (fmt t) l in
  if (zlen x =? 0) || (off <? 0) || (zlen (content s) <? off) then Panicked index_err s1
  else if off + zlen x <=? zlen (content s) then Done tt (with_content s1 (put (content s) off x))
  else Panicked index_err (with_content s1 (put (content s) off (sub x 0 (zlen (content s) - off)))).
Proof.
  intros W Ho Hd. unfold V1Mini.WriteComplex, V1Mini.writeComplex.
  rewrite run_bind, run_complex_bytes by auto. cbv zeta.
  assert (EZ : zlen (encode_all (fmt t) l) = zlen l * tsize (fmt t)) by apply encode_all_zlen.
  pose proof (tsize_pos (fmt t)) as TP. pose proof (zlen_nonneg l).
  assert (W1 : WF (scratch t l s)) by now apply scratch_WF.
  assert (F : wf_slice (heap (scratch t l s)) (fresh s (zlen l * tsize (fmt t))) /\
              slice_bytes (heap (scratch t l s)) (fresh s (zlen l * tsize (fmt t))) = encode_all (fmt t) l).
  { unfold scratch, allocs, fresh, block, wf_slice, slice_bytes; cbn [heap set_heap s_blk s_off s_len s_cap].
    rewrite app_length, app_nth2, Nat.sub_diag by lia. cbn [nth length]. rewrite EZ.
    split. nia. rewrite <- EZ. apply sub_all. lia. }
  destruct F as [F1 F2].
  change (V1Mini.write off) with (V2Mini.WriteBytes off). rewrite mini2_WriteBytes by auto.
  rewrite F2. assert (C1 : content (scratch t l s) = content s) by now apply content_allocs. rewrite C1.
  cbn [fresh block s_len]. cbv zeta. rewrite smear_clean, EZ. reflexivity.
  left. unfold lag. cbn [fresh block s_blk]. pose proof (wf_blk s W). change (bb (scratch t l s)) with (bb s).
  destruct (Nat.eqb_spec (length (heap s)) (s_blk (b_buf (bb s)))); auto. lia.
Qed.

Lemma mini1_readComplex_canon t off n :
  V1Mini.ReadComplex off n (tsize (fmt t)) (order_of t) =
  bind (V1Mini.read off n) (fun data =>
   bind (V1Buffer.decode_loop (tsize (fmt t)) (uints t) data n) (fun l => Ret (idata_of t l))).
Proof. destruct t; reflexivity. Qed.
Lemma mini1_writeComplexNext_canon t l :
  V1Mini.WriteComplexNext (idata_of t l) (tsize (fmt t)) (order_of t) =
  bind (get FOff) (fun off =>
   bind (V1Mini.WriteComplex off (idata_of t l) (tsize (fmt t)) (order_of t)) (fun _ =>
   V2Mini.seek (zlen l *! tsize (fmt t)) true)).
Proof. destruct t; reflexivity. Qed.

Lemma mini1_ReadComplex t s off n : WF s -> is_i64 off -> is_i64 n ->
  run (V1Mini.ReadComplex off n (tsize (fmt t)) (order_of t)) s =
  if negb ((0 <=? off) && (off <=? off +! n) && (off +! n <=? zlen (content s ++ spare s))) then Panicked slice_err s
  else if maxAlloc <? n * tsize (fmt t) then Panicked make_err s
  else if off + n * tsize (fmt t) <=? zlen (content s ++ spare s)
  then Done (idata_of t (decode_all (fmt t) (content s ++ spare s) off (Z.to_nat n))) s
  else Panicked slice_err s.
Proof.
  intros W Ho Hn. rewrite mini1_readComplex_canon, run_bind.
  change (V1Mini.read off n) with (V3Mini.ReadBytes off n). rewrite mini_ReadBytes by auto.
  assert (RZ : zlen (content s ++ spare s) = s_cap (b_buf (bb s))).
  { rewrite zlen_app, spare_zlen, content_zlen by auto. lia. }
  pose proof (wf_cap_max s W) as CM. rewrite max_alloc_val in CM. rewrite <- RZ.
  destruct ((0 <=? off) && (off <=? off +! n) && (off +! n <=? zlen (content s ++ spare s))) eqn:E; cbn [negb]; auto.
  assert (Hw : off +! n = off + n /\ 0 <= n).
  { unfold add64, wrap64, is_i64 in *. destruct (Z_lt_dec n 0); lia. }
  destruct Hw as [Ew Hn0]. rewrite Ew in *. replace (off + n - off) with n by lia.
  rewrite run_bind, run_decode_loop by (auto; lia).
  destruct (maxAlloc <? _); auto. destruct (off + n * tsize (fmt t) <=? _); auto.
Qed.

Theorem mini1_at_seen s off o :
  WF s -> is_i64 off -> old_mini_op o = true -> valid_op2 s o -> valid_old_out o (outs s) ->
  mseen s (run (mini1_at off o) s) (old_mini_abs_at V1 off (view_old_op s o) (abs s) (outs s)).
Proof.
  intros W Ho Hm V Hv. pose proof (mini2_at_seen s off o W Ho Hm V Hv) as S.
  destruct o as [ | n | data | data n | | d | v | n | | t d | t n]; try discriminate Hm; try exact S;
    cbn [view_old_op old_mini_abs_at valid_op2 valid_old_out] in *.
  - cbn [mini1_at mini2_at] in *. rewrite run_bind in *. rewrite mini1_ReadBits by auto.
    destruct (_ <=? _); auto. cbn [run out_int]. now apply mseen_refl_ok.
  - cbn [mini1_at mini2_at] in *. unfold ret_unit in *. rewrite run_bind in *. rewrite mini1_SetBits by tauto.
    destruct (_ <=? _); auto. now apply mseen_refl_ok.
  - cbn [mini1_at]. pose proof (scratch_small t d V) as Sm.
    assert (A : abs (scratch t d s) = abs s).
    { unfold abs, scratch. rewrite content_allocs by auto. f_equal. pose proof (wf_blk s W).
      unfold spare, allocs; cbn [heap set_heap bb]. now rewrite app_nth1. }
    apply (mseen_store s off _ _ (scratch t d s)); auto.
    + now apply scratch_WF.
    + unfold scratch. split. now apply content_allocs. do 3 (split; [reflexivity|]). apply mem_frame_app.
    + intros. now apply allocs_with_content_becomes.
    + apply encode_all_bytes.
    + now apply mini1_WriteComplex.
  - cbn [mini1_at a_bytes a_spare abs]. fold (abs s). unfold ret_idata. rewrite run_bind, mini1_ReadComplex by auto.
    destruct (negb _). { now apply mseen_refl_fail. }
    destruct (_ <? _). { now apply mseen_refl_fail. }
    destruct (_ <=? _). 2: { now apply mseen_refl_fail. }
    rewrite nums_of_idata. now apply mseen_refl_ok.
Qed.

(** ** Next *)

Lemma run_mini_seek off s : run (V2Mini.seek off true) s = Done tt (with_off s (b_off (bb s) +! off)).
Proof. exact (run_SeekByte s off true). Qed.
Lemma run_mini_seekbit off s : run (V2Mini.seekbit off true) s = Done tt (with_boff s (b_boff (bb s) +! off)).
Proof. exact (run_SeekBit s off true). Qed.

Definition then_advance (o : op2 slice) (r : res (rv slice)) : res (rv slice) :=
  match r with
  | Done v s' => Done v (with_cursor s' (bit_addressed2 o) (cursor s' (bit_addressed2 o) +! advance_of2 s_len o))
  | Panicked e s' => Panicked e s'
  | Deadlock s' => Deadlock s'
  | Stuck => Stuck
  end.

Theorem run_mini2_next o s : old_mini_op o = true ->
  run (mini2_next o) s = then_advance o (run (mini2_at (cursor s (bit_addressed2 o)) o) s).
Proof.
  intro Hm. destruct o as [ | n | data | data n | | d | v | n | | t d | t n]; try discriminate Hm;
    cbn [mini2_next mini2_at bit_addressed2 advance_of2 cursor with_cursor];
    rewrite ?MiniWriteU_v3, ?MiniWriteUNext_v3, ?MiniReadU_v3, ?MiniReadUNext_v3, ?MiniWriteTNext_canon, ?MiniReadTNext_canon;
    unfold V2Mini.ReadBitNext, V2Mini.ReadBitsNext, V2Mini.SetBitNext, V2Mini.FlipBitNext, V2Mini.SetBitsNext,
      V2Mini.WriteBytesNext, V2Mini.ReadBytesNext, V2Mini.ReadBit, V2Mini.ReadBits, V2Mini.SetBit, V2Mini.SetBits,
      V2Mini.FlipBit, V2Mini.WriteBytes, V2Mini.ReadBytes, ret_int, ret_unit, ret_bytes, ret_nums;
    rewrite ?run_bind; cbn [run get];
    change (get_fld (bb s) FBoff) with (b_boff (bb s));
    change (get_fld (bb s) FOff) with (b_off (bb s));
    change V3Mini.SeekByte with V2Mini.seek;
    rewrite ?run_bind; drun s; try reflexivity;
    rewrite ?run_bind, ?run_mini_seek, ?run_mini_seekbit; unfold mul64; rewrite ?add64_wrap; reflexivity.
Qed.

Theorem run_mini1_next o s : old_mini_op o = true ->
  run (mini1_next o) s = then_advance o (run (mini1_at (cursor s (bit_addressed2 o)) o) s).
Proof.
  intro Hm. destruct o as [ | n | data | data n | | d | v | n | | t d | t n]; try discriminate Hm.
  all: try match goal with |- run (mini1_next ?o) _ = _ => exact (run_mini2_next o s eq_refl) end.
  - cbn [mini1_next mini1_at bit_addressed2 advance_of2 cursor with_cursor].
    unfold V1Mini.ReadBitsNext, V1Mini.ReadBits.
    rewrite ?run_bind; cbn [run get]. rewrite ?run_bind.
    change (get_fld (bb s) FBoff) with (b_boff (bb s)).
    drun s; reflexivity.
  - cbn [mini1_next mini1_at bit_addressed2 advance_of2 cursor with_cursor].
    unfold V1Mini.SetBitsNext, V1Mini.SetBits, ret_unit.
    rewrite ?run_bind; cbn [run get]. rewrite ?run_bind.
    change (get_fld (bb s) FBoff) with (b_boff (bb s)).
    drun s; reflexivity.
  - cbn [mini1_next mini1_at bit_addressed2 advance_of2 cursor with_cursor]. rewrite mini1_writeComplexNext_canon. unfold ret_unit.
    rewrite ?run_bind; cbn [run get]. rewrite ?run_bind.
    change (get_fld (bb s) FOff) with (b_off (bb s)).
    drun s; try reflexivity. rewrite run_mini_seek. unfold mul64. now rewrite add64_wrap.
  - cbn [mini1_next mini1_at bit_addressed2 advance_of2 cursor with_cursor].
    unfold V1Mini.ReadComplexNext, ret_idata.
    rewrite ?run_bind; cbn [run get]. rewrite ?run_bind.
    change (get_fld (bb s) FOff) with (b_off (bb s)).
    change (V1Mini.readComplex (b_off (bb s))) with (V1Mini.ReadComplex (b_off (bb s))).
    rewrite mini1_readComplex_canon, !run_bind. drun s; try reflexivity. rewrite !run_bind.
    drun s'; try reflexivity. cbn [run]. rewrite run_bind.
    change (V1Mini.seek (n *! tsize (fmt t)) true) with (V2Mini.seek (n *! tsize (fmt t)) true).
    rewrite run_mini_seek. cbn [run]. rewrite nums_of_idata. unfold mul64. rewrite add64_wrap. reflexivity.
Qed.

Lemma mnext_seen v s o r :
  WF s -> valid_op2 s o ->
  mseen s r (old_mini_abs_at v (cursor s (bit_addressed2 o)) (view_old_op s o) (abs s) (outs s)) ->
  mseen s (then_advance o r) (old_mini_abs_next v (view_old_op s o) (abs s) (outs s)).
Proof.
  intros W V S. unfold old_mini_abs_next. rewrite view_bit, view_advance by auto.
  replace (if bit_addressed2 o
    then match old_mini_abs_at v (a_boff (abs s)) (view_old_op s o) (abs s) (outs s) with
         | (Ok r a', out') => (Ok r (set_boff a' (a_boff a' +! advance_of2 s_len o)), out') | r => r end
    else match old_mini_abs_at v (a_off (abs s)) (view_old_op s o) (abs s) (outs s) with
         | (Ok r a', out') => (Ok r (set_off a' (a_off a' +! advance_of2 s_len o)), out') | r => r end)
  with (match old_mini_abs_at v (cursor s (bit_addressed2 o)) (view_old_op s o) (abs s) (outs s) with
        | (Ok r a', out') => (Ok r (if bit_addressed2 o then set_boff a' (a_boff a' +! advance_of2 s_len o)
                                    else set_off a' (a_off a' +! advance_of2 s_len o)), out')
        | r => r end).
  2:{ destruct (bit_addressed2 o); reflexivity. }
  destruct r as [w s'|e s'|s'|]; cbn [mseen then_advance] in *; try contradiction.
  - destruct S as (-> & M & K). split; [destruct (bit_addressed2 o); reflexivity|].
    split; [destruct (bit_addressed2 o); exact M|].
    change (set_outs (with_cursor s' (bit_addressed2 o) (cursor s' (bit_addressed2 o) +! advance_of2 s_len o)) (outs s))
      with (set_outs (with_cursor s' (bit_addressed2 o) (cursor s' (bit_addressed2 o) +! advance_of2 s_len o)) (outs s)).
    replace (set_outs (with_cursor s' (bit_addressed2 o) (cursor s' (bit_addressed2 o) +! advance_of2 s_len o)) (outs s))
      with (with_cursor (set_outs s' (outs s)) (bit_addressed2 o) (cursor s' (bit_addressed2 o) +! advance_of2 s_len o))
      by (destruct (bit_addressed2 o); reflexivity).
    apply kept_cursor; auto. apply add64_range.
  - destruct S as (-> & M & K). auto.
Qed.

(** ** Every call *)

Lemma mini2_grow_seen pol n s : WF s -> is_i64 n ->
  mseen s (run (ret_unit (V2Mini.Grow pol n)) s) (old_grow pol n (abs s), outs s).
Proof.
  intros W Hn.
  pose proof (grow_seen pol n (set_mu s false) (set_mu_WF s false W) eq_refl Hn) as G.
  rewrite run_ret_unit in *. rewrite v2_Grow in G by (auto using set_mu_WF).
  change (V2Mini.Grow pol n) with (V2Mini.grow pol n). rewrite mini2_Grow by auto.
  change (content (set_mu s false)) with (content s) in G. change (abs (set_mu s false)) with (abs s) in G.
  assert (K : forall s', kept (set_mu s false) s' -> kept s s').
  { intros s' [A B C D]. constructor; auto. }
  destruct (_ || _).
  - cbn in G. destruct G as [-> _]. exact (mseen_refl_fail s _ W).
  - destruct (_ <=? _).
    + cbn [seen_as] in G. destruct G as [E G]. cbn [mseen].
      assert (EG : v2_grown pol (set_mu s false) n = set_mu (v2_grown pol s n) false).
      { unfold v2_grown. cbn [set_mu bb]. change (content (set_mu s false)) with (content s). destruct (_ <=? _); reflexivity. }
      rewrite EG in *. rewrite abs_set_mu in E. split.
      * rewrite E. f_equal. unfold v2_grown. destruct (_ <=? _); reflexivity.
      * split. unfold v2_grown. destruct (_ <=? _); reflexivity.
        replace (set_outs (v2_grown pol s n) (outs s)) with (v2_grown pol s n)
          by (unfold v2_grown; destruct (_ <=? _); reflexivity).
        apply K. apply (kept_set_mu _ _ (mu s)) in G.
        replace (set_mu (set_mu (v2_grown pol s n) false) (mu s)) with (v2_grown pol s n) in G; auto.
        unfold v2_grown; destruct (_ <=? _); reflexivity.
    + cbn [seen_as] in G. destruct G as [E G]. cbn [mseen]. split; [|split].
      * exact (f_equal (fun x => (x, outs s)) E).
      * reflexivity.
      * apply K. apply (kept_set_mu _ _ (mu s)) in G. exact G.
Qed.

Theorem mini2_call_seen pol s c :
  WF s -> valid_old_mini V2 s c (outs s) ->
  exists o, old_mini_abs V2 pol (view_old s c) (abs s) (outs s) = Some o /\ mseen s (run (mini2_call pol c) s) o.
Proof.
  intros W (Hm & V & Hv).
  assert (A : forall c3, mini_method c3 = true -> valid_call s c3 -> match c3 with At _ _ | Next _ => False | _ => True end ->
     mseen s (run (mini_call c3) s) (mini_abs_call (view_call s c3) (abs s) (outs s))).
  { intros c3 H1 H2 H3. apply mseen_msim; auto. apply mini_call_sim; auto. split; auto. split; auto. now destruct c3. }
  destruct c; cbn [view_old old_mini_abs old_call option_map]; (eexists; split; [reflexivity|]); cbn [valid_call2 old_mini_method] in *.
  all: try (match goal with |- mseen _ (run (mini2_call _ ?c) _) _ =>
         let c3 := eval cbn in (call3 c) in match c3 with Some ?c3 => exact (A c3 eq_refl V I) end end).
  - destruct V. now apply mini2_at_seen.
  - cbn [mini2_call]. rewrite run_mini2_next by auto. apply mnext_seen; auto.
    apply mini2_at_seen; auto. now apply cursor_i64.
  - now apply mini2_grow_seen.
  - cbn [mini2_call]. rewrite run_ret_unit, mini2_Reset. cbn [mseen view_rv]. split; [|split].
    + unfold abs, content, spare, slice_bytes, reset2. cbn. reflexivity.
    + reflexivity.
    + constructor.
      * apply set_outs_WF. now apply reset2_WF.
      * reflexivity.
      * apply mem_frame_alloc.
      * right. cbn. lia.
Qed.

Theorem mini1_call_seen pol s c :
  WF s -> valid_old_mini V1 s c (outs s) ->
  exists o, old_mini_abs V1 pol (view_old s c) (abs s) (outs s) = Some o /\ mseen s (run (mini1_call pol c) s) o.
Proof.
  intros W (Hm & V & Hv).
  assert (V2' : valid_old_mini V2 s c (outs s)).
  { split; auto. destruct c; auto. }
  destruct (mini2_call_seen pol s c W V2') as (o2 & E2 & S2).
  destruct c; cbn [view_old old_mini_abs old_call option_map old_mini_method] in *; try discriminate Hm;
    (eexists; split; [reflexivity|]); injection E2 as <-; cbn [valid_call2] in V; try exact S2.
  - destruct V. now apply mini1_at_seen.
  - cbn [mini1_call]. rewrite run_mini1_next by auto. apply mnext_seen; auto.
    apply mini1_at_seen; auto. now apply cursor_i64.
  - cbn [mini2_call mini1_call] in *. unfold ret_unit in *. rewrite run_bind in *. unfold V1Mini.ClearAllBits, V1Mini.clearallbits.
    rewrite mini1_all by auto. cbn [a_bytes abs] in *. fold (abs s) in *. destruct (Z.eqb_spec (zlen (content s)) 0); auto.
    rewrite abs_empty_all by auto. now apply mseen_refl_ok.
  - cbn [mini2_call mini1_call] in *. unfold ret_unit in *. rewrite run_bind in *. unfold V1Mini.SetAllBits, V1Mini.setallbits.
    rewrite mini1_all by auto. cbn [a_bytes abs] in *. fold (abs s) in *. destruct (Z.eqb_spec (zlen (content s)) 0); auto.
    rewrite abs_empty_all by auto. now apply mseen_refl_ok.
  - cbn [mini2_call mini1_call] in *. unfold ret_unit in *. rewrite run_bind in *. unfold V1Mini.FlipAllBits, V1Mini.flipallbits.
    rewrite mini1_all by auto. cbn [a_bytes abs] in *. fold (abs s) in *. destruct (Z.eqb_spec (zlen (content s)) 0); auto.
    rewrite abs_empty_all by auto. now apply mseen_refl_ok.
Qed.

Theorem old_mini_seen v pol s c :
  WF s -> valid_old_mini v s c (outs s) ->
  exists o, old_mini_abs v pol (view_old s c) (abs s) (outs s) = Some o /\ mseen s (run (old_mini v pol c) s) o.
Proof. destruct v. apply mini1_call_seen. apply mini2_call_seen. Qed.
