(** * MiniLemmas: the v3 [MiniBuffer] methods on any arguments, also those that
    [Buffer] rejects. *)
From Coq Require Import ZArith List Bool Lia ZifyBool.
From Verif Require Import GoSem Errors Spec GoLemmas BitLemmas CodecLemmas Typed V3BitLemmas V3ByteLemmas
  TypedCanon TypedLemmas TypedReadLemmas Calls Abs Frame Sim MiniAbs.
From Verif Require V3Mini V3Buffer.
Import ListNotations.
Open Scope Z_scope.

(** ** Single bits at any offset *)

Lemma quo_neg8 off : -8 < off < 0 -> quo off 8 = 0.
Proof. intro H. unfold quo. rewrite <- (Z.opp_involutive off), Z.quot_opp_l by lia. rewrite Z.quot_small; lia. Qed.

Lemma rem_neg8 off : -8 < off < 0 -> rem off 8 = off.
Proof. intro H. unfold rem. rewrite <- (Z.opp_involutive off), Z.rem_opp_l by lia. rewrite Z.rem_small; lia. Qed.

Lemma phantom_read_shift off : -8 < off < 0 -> uconv 64 (7 - uconv 64 (rem off 8)) = 7 - off.
Proof.
  intro H. rewrite rem_neg8 by exact H. unfold uconv.
  rewrite <- (Z_mod_plus_full off 1). rewrite (Z.mod_small (off + 1 * 2 ^ 64)) by lia.
  rewrite <- (Z_mod_plus_full _ 1). rewrite Z.mod_small; lia.
Qed.

Lemma phantom_write_shift off : -8 < off < 0 -> ushl 8 1 (uconv 64 (7 -! rem off 8)) = 0.
Proof.
  intro H. rewrite rem_neg8 by exact H. rewrite sub64_id by (unfold is_i64; lia).
  rewrite uconv_id by lia. unfold ushl. replace (7 - off <? 8) with false by lia. reflexivity.
Qed.

Section bits.
Variable s : St.
Hypothesis W : WF s.
Variable off : Z.
Let l := content s.

Lemma out_of_bits : in_bits l off = false -> phantom l off = false -> ~ (0 <= quo off 8 < zlen l).
Proof.
  unfold in_bits, phantom. intros H1 H2 H3. pose proof (zlen_nonneg l).
  destruct (Z_lt_dec off 0) as [Hn|Hn].
  - assert (off <= -8) by lia.
    assert (quo off 8 <= -1); [|lia].
    unfold quo. rewrite <- (Z.opp_involutive off), Z.quot_opp_l by lia.
    assert (1 <= Z.quot (- off) 8); [|lia]. rewrite Z.quot_div_nonneg by lia. lia.
  - rewrite quo_nonneg in H3 by lia. lia.
Qed.

Lemma mini_ReadBit_all :
  run (V3Mini.ReadBit off) s =
  match mbit l off with Some b => Done (Z.b2z b) s | None => Panicked index_err s end.
Proof.
  unfold mbit. destruct (in_bits l off) eqn:E; [|destruct (phantom l off) eqn:P].
  - apply mini_ReadBit; auto. unfold in_bits in E. fold l. lia.
  - unfold phantom in P. unfold V3Mini.ReadBit.
    rewrite quo_neg8 by lia. rewrite run_bind, run_buf_get by (auto; fold l; lia).
    rewrite phantom_read_shift by lia. cbn [run]. unfold shr. replace (7 - off <? 8) with false by lia.
    pose proof (byte_at_is_byte l 0 (content_bytes s W)) as B. unfold is_byte in B.
    fold l. replace (byte_at l 0 <? 0) with false by lia. reflexivity.
  - unfold V3Mini.ReadBit. rewrite run_bind, run_buf_get_oob; auto. now apply out_of_bits.
Qed.

Lemma with_content_put_same i : 0 <= i < zlen l -> with_content s (put l i [byte_at l i]) = s.
Proof.
  intro H. unfold l in *. rewrite <- (sub_one (content s) i) by lia. rewrite put_sub_same by lia.
  apply with_content_same; auto.
Qed.

Lemma mini_upd_all (p : prog unit) (f : list Z -> Z -> list Z) (g : Z -> Z) :
  p = bind (buf_get (quo off 8)) (fun v => buf_set (quo off 8) (g v)) ->
  (0 <= off < 8 * zlen l -> run p s = Done tt (with_content s (f l off))) ->
  (-8 < off < 0 -> forall v, is_byte v -> g v = v) ->
  run p s =
  match mupd f l off with Some l' => Done tt (with_content s l') | None => Panicked index_err s end.
Proof.
  intros E H1 H2. unfold mupd. destruct (in_bits l off) eqn:I; [|destruct (phantom l off) eqn:P].
  - apply H1. unfold in_bits in I. lia.
  - unfold phantom in P. rewrite E, run_bind, quo_neg8 by lia.
    rewrite run_buf_get by (auto; fold l; lia). rewrite run_buf_set by (auto; fold l; lia). fold l.
    rewrite H2 by (try lia; apply byte_at_is_byte; apply content_bytes; auto).
    rewrite with_content_put_same by lia. unfold l. now rewrite with_content_same by exact W.
  - rewrite E, run_bind, run_buf_get_oob; auto. now apply out_of_bits.
Qed.

Lemma not8_0_land v : is_byte v -> Z.land v (not8 0) = v.
Proof.
  intro H. change (not8 0) with (Z.ones 8). rewrite Z.land_ones by lia. apply Z.mod_small. exact H.
Qed.

Lemma mini_SetBit_all :
  run (V3Mini.SetBit off) s =
  match mupd (fun l j => put_bit l j true) l off with
  | Some l' => Done tt (with_content s l') | None => Panicked index_err s end.
Proof.
  eapply mini_upd_all. reflexivity. intro. now apply mini_SetBit.
  cbv beta. intros H v Hv. rewrite phantom_write_shift by exact H. apply Z.lor_0_r.
Qed.
Lemma mini_ClearBit_all :
  run (V3Mini.ClearBit off) s =
  match mupd (fun l j => put_bit l j false) l off with
  | Some l' => Done tt (with_content s l') | None => Panicked index_err s end.
Proof.
  eapply mini_upd_all. reflexivity. intro. now apply mini_ClearBit.
  cbv beta. intros H v Hv. rewrite phantom_write_shift by exact H. now apply not8_0_land.
Qed.
Lemma mini_FlipBit_all :
  run (V3Mini.FlipBit off) s =
  match mupd flip_bit l off with
  | Some l' => Done tt (with_content s l') | None => Panicked index_err s end.
Proof.
  eapply mini_upd_all. reflexivity. intro. now apply mini_FlipBit.
  cbv beta. intros H v Hv. rewrite phantom_write_shift by exact H. apply Z.lxor_0_r.
Qed.
End bits.

(** The updates keep the length and byte-ness. *)
Lemma mupd_put_fits l off v l' :
  Forall is_byte l -> mupd (fun l j => put_bit l j v) l off = Some l' ->
  zlen l' = zlen l /\ Forall is_byte l'.
Proof.
  intros B. unfold mupd. destruct (in_bits l off) eqn:E; [|destruct (phantom l off)]; intro H; inversion H; subst; auto.
  unfold in_bits in E. split. apply put_bit_zlen; lia. now apply put_bit_bytes.
Qed.
Lemma mupd_flip_fits l off l' :
  Forall is_byte l -> mupd flip_bit l off = Some l' -> zlen l' = zlen l /\ Forall is_byte l'.
Proof.
  intros B. unfold mupd. destruct (in_bits l off) eqn:E; [|destruct (phantom l off)]; intro H; inversion H; subst; auto.
  unfold in_bits in E. split. unfold flip_bit; apply put_bit_zlen; lia. now apply put_bit_bytes.
Qed.
Lemma mwrite_fits f k : forall l off i,
  Forall is_byte l -> zlen (fst (mwrite l off f i k)) = zlen l /\ Forall is_byte (fst (mwrite l off f i k)).
Proof.
  induction k as [|k IH]; intros l off i B; cbn [mwrite fst]; auto.
  destruct (mupd _ l off) as [l'|] eqn:E; cbn [fst]; auto.
  destruct (mupd_put_fits l off (f i) l' B E) as [Z1 B1].
  destruct (IH l' (off + 1) (i + 1) B1) as [Z2 B2]. split; auto. congruence.
Qed.

(** A read of one bit has been done at a position below the end. *)
Lemma mbit_below l j b : mbit l j = Some b -> -8 < j < 8 * zlen l.
Proof.
  unfold mbit, in_bits, phantom. pose proof (zlen_nonneg l).
  destruct (_ && _) eqn:E; [lia|]. destruct (_ && _ && _) eqn:P; [lia|discriminate].
Qed.
Lemma mupd_below f l j l' : mupd f l j = Some l' -> -8 < j < 8 * zlen l.
Proof.
  unfold mupd, in_bits, phantom. pose proof (zlen_nonneg l).
  destruct (_ && _) eqn:E; [lia|]. destruct (_ && _ && _) eqn:P; [lia|discriminate].
Qed.

(** ** ReadBits into any variable *)
Lemma mini_ReadBits_all s off n x :
  WF s -> is_i64 off -> is_i64 n -> outs s = [x] -> is_u64 x ->
  run (V3Mini.ReadBits off n) s =
  let (y, all) := mread (content s) off (Z.to_nat (Z.max 1 n)) x in
  if all then Done tt (set_outs s [y]) else Panicked index_err (set_outs s [y]).
Proof.
  intros W Ho Hn Hx Hx2. pose proof (content_max s W) as M. rewrite max_alloc_val in M.
  unfold V3Mini.ReadBits. set (K := Z.max 1 n). set (l := content s) in *.
  assert (S0 : s = set_outs s [x]) by (destruct s; simpl in *; subst; reflexivity).
  destruct (goto_loop_any
    (fun i (_ : unit) s' => exists y, s' = set_outs s [y] /\ is_u64 y /\
       (i = 0 \/ off + i <= 8 * zlen l) /\
       mread l off (Z.to_nat K) x = mread l (off + i) (Z.to_nat (K - i)) y)
    (fun e s' => exists y, s' = set_outs s [y] /\ e = index_err /\ mread l off (Z.to_nat K) x = (y, false))
    (fun i (_ : unit) => bind (V3Mini.ReadBit (off +! i)) (fun bout =>
       GetOuts (fun out => SetOuts [Z.lor (ushl 64 (hd 0 out) 1) bout] (Ret tt)))) n tt s)
    as [([] & s' & R & y & -> & _ & _ & E)|(e & s' & R & y & -> & -> & E)].
  - unfold is_i64 in Hn. lia.
  - intros i [] s1 Hi (y & -> & Hy & Hp & E). fold K in Hi.
    assert (A : off +! i = off + i).
    { apply add64_id. unfold is_i64 in *. destruct Hp as [->|Hp]; [|lia]. rewrite Z.add_0_r. lia. }
    rewrite A. rewrite run_bind. rewrite (mini_ReadBit_all (set_outs s [y]) (set_outs_WF s [y] W)).
    change (content (set_outs s [y])) with l.
    replace (Z.to_nat (K - i)) with (S (Z.to_nat (K - (i + 1)))) in E by lia. cbn [mread] in E.
    destruct (mbit l (off + i)) as [b|] eqn:B.
    + left. cbn [run outs set_outs hd]. eexists. eexists. split; [reflexivity|].
      exists (Z.lor (ushl 64 y 1) (Z.b2z b)). split; [reflexivity|].
      assert (HH : Z.lor (ushl 64 y 1) (Z.b2z b) = (2 * y + Z.b2z b) mod 2 ^ 64).
      { unfold is_u64 in Hy. rewrite <- (Z.mod_small y (2 ^ 64)) at 1 by lia. apply horner64. }
      split. { rewrite HH. unfold is_u64. apply Z.mod_pos_bound. lia. }
      split. { right. apply mbit_below in B. lia. }
      rewrite E, HH. f_equal. lia.
    + right. eexists. eexists. split; [reflexivity|]. exists y. auto.
  - exists x. split; [exact S0|]. split; [exact Hx2|]. split; [auto|]. rewrite Z.add_0_r, Z.sub_0_r. reflexivity.
  - rewrite R, E. fold K. rewrite Z.sub_diag. reflexivity.
  - rewrite R, E. reflexivity.
Qed.

(** ** SetBits anywhere *)
Lemma setbits_sel_any data n i :
  is_u64 data -> is_i64 n -> 0 <= i < Z.max 1 n ->
  (byte (Z.land (shr 64 data (uconv 64 (n -! i -! 1))) 1) =? 0) = negb (field_bit data n i).
Proof.
  intros Hd Hn Hi. destruct (Z_le_dec 1 n).
  - apply setbits_sel; auto. lia. unfold is_i64 in Hn; lia.
  - assert (i = 0) by lia. subst i.
    rewrite (sub64_id n 0) by (unfold is_i64 in *; lia).
    assert (E : 64 <= uconv 64 (n - 0 -! 1)).
    { unfold uconv, sub64, wrap64, is_i64 in *. lia. }
    unfold shr. replace (uconv 64 (n - 0 -! 1) <? 64) with false by lia.
    unfold is_u64 in Hd. replace (data <? 0) with false by lia.
    unfold field_bit. rewrite Z.testbit_neg_r by lia. reflexivity.
Qed.

Lemma mini_SetBits_all s off data n :
  WF s -> is_i64 off -> is_u64 data -> is_i64 n ->
  run (V3Mini.SetBits off data n) s =
  let (l', all) := mwrite (content s) off (field_bit data n) 0 (Z.to_nat (Z.max 1 n)) in
  if all then Done tt (with_content s l') else Panicked index_err (with_content s l').
Proof.
  intros W Ho Hd Hn. pose proof (content_max s W) as M. rewrite max_alloc_val in M.
  unfold V3Mini.SetBits. set (K := Z.max 1 n).
  destruct (goto_loop_any
    (fun i (_ : unit) s' => exists l', s' = with_content s l' /\ zlen l' = zlen (content s) /\ Forall is_byte l' /\
       (i = 0 \/ off + i <= 8 * zlen (content s)) /\
       mwrite (content s) off (field_bit data n) 0 (Z.to_nat K) =
       mwrite l' (off + i) (field_bit data n) i (Z.to_nat (K - i)))
    (fun e s' => exists l', s' = with_content s l' /\ e = index_err /\
       mwrite (content s) off (field_bit data n) 0 (Z.to_nat K) = (l', false))
    (fun i (_ : unit) =>
       if byte (Z.land (shr 64 data (uconv 64 (n -! i -! 1))) 1) =? 0
       then V3Mini.ClearBit (off +! i) else V3Mini.SetBit (off +! i)) n tt s)
    as [([] & s' & R & y & -> & _ & _ & _ & E)|(e & s' & R & y & -> & -> & E)].
  - unfold is_i64 in Hn. lia.
  - intros i [] s1 Hi (l' & -> & Hz & Hb & Hp & E). fold K in Hi.
    assert (A : off +! i = off + i).
    { apply add64_id. unfold is_i64 in *. destruct Hp as [->|Hp]; [|lia]. rewrite Z.add_0_r. lia. }
    rewrite A. rewrite setbits_sel_any by auto.
    assert (W' : WF (with_content s l')) by (apply with_content_WF; auto).
    assert (RR : run (if negb (field_bit data n i) then V3Mini.ClearBit (off + i) else V3Mini.SetBit (off + i))
        (with_content s l') =
      match mupd (fun l j => put_bit l j (field_bit data n i)) l' (off + i) with
      | Some l'' => Done tt (with_content s l'') | None => Panicked index_err (with_content s l') end).
    { destruct (field_bit data n i); cbn [negb]; rewrite ?mini_ClearBit_all, ?mini_SetBit_all by auto;
        rewrite content_with_content by auto.
      all: match goal with |- context [mupd ?f ?a ?o] => destruct (mupd f a o) as [l2|] eqn:U end; auto;
        destruct (mupd_put_fits _ _ _ _ Hb U); rewrite with_content_twice; auto; congruence. }
    rewrite RR. replace (Z.to_nat (K - i)) with (S (Z.to_nat (K - (i + 1)))) in E by lia. cbn [mwrite] in E.
    match goal with |- context [mupd ?f l' ?o] => destruct (mupd f l' o) as [l2|] eqn:U end.
    + left. eexists. eexists. split; [reflexivity|]. exists l2. split; [reflexivity|].
      destruct (mupd_put_fits _ _ _ _ Hb U). split; [congruence|]. split; [auto|].
      split. { right. apply mupd_below in U. lia. }
      rewrite E. f_equal. lia.
    + right. eexists. eexists. split; [reflexivity|]. exists l'. auto.
  - exists (content s). split; [symmetry; now apply with_content_same|]. split; [reflexivity|].
    split; [now apply content_bytes|]. split; [auto|]. rewrite Z.add_0_r, Z.sub_0_r. reflexivity.
  - rewrite R, E. fold K. rewrite Z.sub_diag. reflexivity.
  - rewrite R, E. reflexivity.
Qed.

(** ** Typed reads into any slice *)
Lemma mini_ReadT_all t s off n :
  WF s -> is_i64 off -> is_i64 n ->
  run (MiniReadT t off n) s =
  let N := zlen (content s) in
  let m := if (off <? 0) || (N <? off) then 0 else Z.min ((N - off) / tsize t) (zlen (outs s)) in
  let out' k := put (outs s) 0 (decode_all t (content s) off (Z.to_nat k)) in
  if Z.max 1 n <=? m then Done tt (set_outs s (out' (Z.max 1 n)))
  else Panicked index_err (set_outs s (out' m)).
Proof.
  intros W Ho Hn. cbv zeta. rewrite MiniReadT_canon. pose proof (tsize_pos t) as TP.
  pose proof (content_max s W) as M. rewrite max_alloc_val in M. pose proof (zlen_nonneg (content s)).
  set (L := zlen (content s)) in *. set (w := tsize t) in *.
  assert (ID : s = set_outs s (put (outs s) 0 (decode_all t (content s) off (Z.to_nat 0)))).
  { change (Z.to_nat 0) with O. simpl. rewrite put_nil. destruct s; reflexivity. }
  destruct (Z.ltb_spec off 0); [|destruct (Z.ltb_spec L off)]; cbn [orb].
  - replace (Z.max 1 n <=? 0) with false by lia. rewrite <- ID. apply goto_loop_first.
    apply read_fail; auto; fold w L; lia.
  - replace (Z.max 1 n <=? 0) with false by lia. rewrite <- ID. apply goto_loop_first.
    apply read_fail; auto; fold w L; lia.
  - assert (D0 : 0 <= (L - off) / w) by (apply Z.div_pos; lia).
    assert (D1 : (L - off) / w * w <= L - off) by (rewrite Z.mul_comm; apply Z.mul_div_le; lia).
    assert (D2 : L - off < ((L - off) / w + 1) * w) by (pose proof (Z.mul_succ_div_gt (L - off) w); lia).
    pose proof (zlen_nonneg (outs s)).
    set (m := Z.min ((L - off) / w) (zlen (outs s))).
    set (o := fun k => put (outs s) 0 (decode_all t (content s) off (Z.to_nat k))).
    assert (LD : forall i, 0 <= i -> zlen (decode_all t (content s) off (Z.to_nat i)) = i)
      by (intros; unfold zlen; rewrite decode_all_length; lia).
    assert (OL : forall i, 0 <= i <= m -> zlen (o i) = zlen (outs s))
      by (intros; unfold o; apply put_length; rewrite ?LD; lia).
    assert (ST : forall i, 0 <= i < m -> run (mrbody t off i) (set_outs s (o i)) = Done tt (set_outs s (o (i + 1)))).
    { intros i Hi. assert ((i + 1) * w <= (L - off) / w * w) by (apply Z.mul_le_mono_nonneg_r; lia).
      rewrite mini_step by (fold w L; auto; lia). rewrite OL by lia. replace (i <? zlen (outs s)) with true by lia.
      do 2 f_equal. unfold o. rewrite decode_all_S by lia. apply put_put_snoc; rewrite ?LD; lia. }
    destruct (Z.leb_spec (Z.max 1 n) m) as [Hok|Hfail].
    + destruct (goto_loop_inv (fun i (_ : unit) s' => s' = set_outs s (o i))
        (fun i _ => mrbody t off i) n tt s) as ([] & s' & R & ->).
      * unfold is_i64 in *; lia.
      * intros i acc s1 Hi ->. rewrite ST by lia. eauto.
      * exact ID.
      * exact R.
    + destruct (goto_loop_panic (fun i (_ : unit) s' => s' = set_outs s (o i))
        (fun i _ => mrbody t off i) n m index_err (fun s' => s' = set_outs s (o m)) tt s)
        as (s' & R & ->).
      * unfold is_i64 in *; lia.
      * lia.
      * intros i acc s1 Hi ->. rewrite ST by lia. eauto.
      * intros acc s1 ->. exists (set_outs s (o m)). split; [|reflexivity].
        assert (m * w <= (L - off) / w * w) by (apply Z.mul_le_mono_nonneg_r; lia).
        assert (0 <= m * w) by (apply Z.mul_nonneg_nonneg; lia).
        destruct (Z_le_dec (off + (m + 1) * w) L) as [F|F].
        -- rewrite mini_step by (fold w L; auto; lia).
           assert (m = zlen (outs s)).
           { destruct (Z.min_spec ((L - off) / w) (zlen (outs s))) as [[? E]|[? E]]; fold m in E; auto.
             rewrite E in F. lia. }
           rewrite OL by lia. replace (m <? zlen (outs s)) with false by lia. reflexivity.
        -- apply read_fail; auto; try lia. apply set_outs_WF; auto.
           change (content (set_outs s (o m))) with (content s). fold w L. lia.
      * exact ID.
      * exact R.
Qed.

(** ** Truncation *)
Lemma mini_TruncateLeft s n :
  WF s ->
  run (V3Mini.TruncateLeft n) s =
  if (0 <=? n) && (n <=? zlen (content s)) then Done tt (with_slice s (trunc_left (b_buf (bb s)) n))
  else Panicked slice_err s.
Proof.
  intro W. unfold V3Mini.TruncateLeft.
  cbn [get_buf get bind run get_fld]. rewrite cap_is, content_zlen by auto.
  pose proof (wf_lencap s W). pose proof (wf_len0 s W).
  unfold reslice. destruct ((0 <=? n) && (n <=? s_len (b_buf (bb s)))) eqn:E.
  - replace (true && _) with true by lia.
    cbn [bind run set_buf]. change V3Mini.Refresh with V3Buffer.Refresh. rewrite run_Refresh. reflexivity. apply W.
    pose proof (wf_blk s W). pose proof (wf_off0 s W). pose proof (wf_in s W).
    unfold wf_slice; simpl. repeat split; auto; lia.
  - reflexivity.
Qed.

Lemma mini_TruncateRight s n :
  WF s -> is_i64 n ->
  run (V3Mini.TruncateRight n) s =
  if (0 <=? zlen (content s) - n) && (zlen (content s) - n <=? s_cap (b_buf (bb s)))
  then Done tt (with_slice s (resize (b_buf (bb s)) (zlen (content s) - n)))
  else Panicked slice_err s.
Proof.
  intros W Hi. unfold V3Mini.TruncateRight.
  cbn [get_buf get bind run get_fld]. rewrite cap_is by auto.
  pose proof (wf_lencap s W). pose proof (wf_len0 s W). pose proof (content_zlen s W) as CL.
  pose proof (content_max s W) as M. pose proof (wf_cap_max s W) as M2. rewrite max_alloc_val in M, M2.
  unfold reslice. destruct ((0 <=? zlen (content s) - n) && (zlen (content s) - n <=? s_cap (b_buf (bb s)))) eqn:E.
  - rewrite sub64_id by (unfold is_i64 in *; lia). replace ((0 <=? 0) && _ && _) with true by lia.
    cbn [bind run set_buf]. change V3Mini.Refresh with V3Buffer.Refresh. rewrite run_Refresh.
    + unfold resize. do 3 f_equal; lia.
    + apply W.
    + pose proof (wf_blk s W). pose proof (wf_off0 s W). pose proof (wf_in s W).
      unfold wf_slice; simpl. repeat split; auto; lia.
  - replace ((0 <=? 0) && _ && _) with false; [reflexivity|].
    unfold is_i64, sub64, wrap64 in *. lia.
Qed.
