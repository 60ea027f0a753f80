(** * TypedReadLemmas: the typed readers of v3 evaluated on well-formed states. *)
From Coq Require Import ZArith List Bool Lia ZifyBool.
From Verif Require Import GoSem Errors Spec GoLemmas CodecLemmas Typed V3BitLemmas V3ByteLemmas TypedCanon TypedLemmas.
From Verif Require V3Buffer V3Mini.
Import ListNotations.
Open Scope Z_scope.

Lemma loads_ok {A} w off i ks : forall acc (K : list Z -> prog A) s p,
  WF s -> 0 <= i * w <= 2 ^ 60 -> 0 <= off <= 2 ^ 60 -> p = off + i * w ->
  Forall (fun k => 0 <= k <= 8 /\ p + k < zlen (content s)) ks ->
  run (loads w off i ks acc K) s = run (K (rev acc ++ map (fun k => byte_at (content s) (p + k)) ks)) s.
Proof.
  induction ks as [|k r IH]; intros acc K s p W Hi Ho Hp HF.
  - simpl. rewrite app_nil_r. reflexivity.
  - inversion_clear HF. cbn [loads].
    assert (E : off +! cidx w k i = p + k).
    { rewrite cidx_id by lia. rewrite add64_id by (unfold is_i64; lia). lia. }
    rewrite E, run_bind, run_buf_get by (auto; lia).
    rewrite (IH _ _ _ p); auto. simpl rev. rewrite <- app_assoc. reflexivity.
Qed.

Lemma loads_oob {A} w off i ks : forall acc (K : list Z -> prog A) s,
  WF s -> Exists (fun k => ~ (0 <= off +! cidx w k i < zlen (content s))) ks ->
  run (loads w off i ks acc K) s = Panicked index_err s.
Proof.
  induction ks as [|k r IH]; intros acc K s W HE. inversion HE.
  cbn [loads]. rewrite run_bind.
  destruct (Z_le_dec 0 (off +! cidx w k i)); [destruct (Z_lt_dec (off +! cidx w k i) (zlen (content s)))|].
  - rewrite run_buf_get by auto. inversion HE; subst. lia. apply IH; auto.
  - rewrite run_buf_get_oob by (auto; lia). reflexivity.
  - rewrite run_buf_get_oob by (auto; lia). reflexivity.
Qed.

(** ** Putting the bytes together *)

Lemma lor_add a b k : 0 <= k -> 0 <= a < 2 ^ k -> Z.lor a (b * 2 ^ k) = a + b * 2 ^ k.
Proof.
  intros Hk Ha. symmetry. rewrite Z.add_nocarry_lxor.
  - apply Z.bits_inj'. intros n Hn. rewrite Z.lxor_spec, Z.lor_spec.
    destruct (Z.lt_ge_cases n k).
    + rewrite Z.mul_pow2_bits_low by lia. rewrite xorb_false_r, orb_false_r. auto.
    + rewrite <- (Z.mod_small a (2 ^ k)) by auto. rewrite Z.mod_pow2_bits_high by lia.
      rewrite xorb_false_l. auto.
  - apply Z.bits_inj'. intros n Hn. rewrite Z.land_spec, Z.bits_0.
    destruct (Z.lt_ge_cases n k).
    + rewrite Z.mul_pow2_bits_low by lia. apply andb_false_r.
    + rewrite <- (Z.mod_small a (2 ^ k)) by auto. rewrite Z.mod_pow2_bits_high by lia. auto.
Qed.

Lemma pow_split a b : 0 <= a -> 0 <= b -> 2 ^ (a + b) = 2 ^ a * 2 ^ b.
Proof. intros. apply Z.pow_add_r; lia. Qed.

Lemma uconv_byte bits x : 8 <= bits -> is_byte x -> uconv bits x = x.
Proof.
  intros H Hx. apply uconv_id. unfold is_byte in Hx. split. lia.
  apply Z.lt_le_trans with (2 ^ 8). lia. apply Z.pow_le_mono_r; lia.
Qed.
Lemma sconv_id w x : 0 < w -> - 2 ^ (w - 1) <= x < 2 ^ (w - 1) -> sconv w x = x.
Proof.
  intros Hw H. unfold sconv.
  assert (2 ^ w = 2 * 2 ^ (w - 1)) by (rewrite <- Z.pow_succ_r by lia; f_equal; lia).
  rewrite Z.mod_small; lia.
Qed.
Lemma sconv_byte bits x : 16 <= bits -> is_byte x -> sconv bits x = x.
Proof.
  intros H Hx. unfold is_byte in Hx. apply sconv_id. lia.
  assert (2 ^ 15 <= 2 ^ (bits - 1)) by (apply Z.pow_le_mono_r; lia). lia.
Qed.

Lemma ushl_byte bits x k :
  is_byte x -> 0 <= k -> k + 8 <= bits -> ushl bits (uconv bits x) k = x * 2 ^ k.
Proof.
  intros Hx Hk Hb. rewrite uconv_byte by (auto; lia). unfold ushl.
  replace (k <? bits) with true by lia. rewrite Z.shiftl_mul_pow2 by lia.
  apply uconv_id. unfold is_byte in Hx. split. apply Z.mul_nonneg_nonneg; try lia. 
  apply Z.lt_le_trans with (2 ^ (8 + k)).
  - rewrite pow_split by lia. apply Z.mul_lt_mono_pos_r. apply Z.pow_pos_nonneg; lia. lia.
  - apply Z.pow_le_mono_r; lia.
Qed.

Lemma sshl_byte bits x k :
  16 <= bits -> is_byte x -> 0 <= k -> k + 8 < bits -> sshl bits (sconv bits x) k = x * 2 ^ k.
Proof.
  intros H16 Hx Hk Hb. rewrite sconv_byte by (auto; lia). unfold sshl.
  replace (k <? bits) with true by lia. rewrite Z.shiftl_mul_pow2 by lia.
  unfold is_byte in Hx. apply sconv_id. lia.
  assert (P : 0 < 2 ^ k) by (apply Z.pow_pos_nonneg; lia).
  assert (x * 2 ^ k < 2 ^ (8 + k)).
  { rewrite pow_split by lia. apply Z.mul_lt_mono_pos_r; lia. }
  assert (2 ^ (8 + k) <= 2 ^ (bits - 1)) by (apply Z.pow_le_mono_r; lia).
  assert (0 <= x * 2 ^ k) by (apply Z.mul_nonneg_nonneg; lia).
  lia.
Qed.

Lemma sshl_top bits x :
  16 <= bits -> is_byte x ->
  sshl bits (sconv bits x) (bits - 8) = (if x <? 128 then x else x - 256) * 2 ^ (bits - 8).
Proof.
  intros H16 Hx. rewrite sconv_byte by (auto; lia). unfold sshl.
  replace (bits - 8 <? bits) with true by lia. rewrite Z.shiftl_mul_pow2 by lia.
  unfold is_byte in Hx.
  assert (P : 0 < 2 ^ (bits - 8)) by (apply Z.pow_pos_nonneg; lia).
  assert (E1 : 2 ^ (bits - 1) = 128 * 2 ^ (bits - 8)).
  { change 128 with (2 ^ 7). rewrite <- Z.pow_add_r by lia. f_equal. lia. }
  assert (E2 : 2 ^ bits = 256 * 2 ^ (bits - 8)).
  { change 256 with (2 ^ 8). rewrite <- Z.pow_add_r by lia. f_equal. lia. }
  unfold sconv. rewrite E1, E2. set (q := 2 ^ (bits - 8)) in *.
  replace (x * q + 128 * q) with ((x + 128) * q) by ring.
  rewrite Z.mul_mod_distr_r by lia.
  destruct (Z.ltb_spec x 128).
  - rewrite Z.mod_small by lia. ring.
  - replace ((x + 128) mod 256) with (x + 128 - 256) by lia. ring.
Qed.

(** Unsigned: the accumulated value is the little endian number. *)
Lemma comb_unsigned bits xs : forall acc j,
  Forall is_byte xs -> 0 <= j -> 0 <= acc < 2 ^ (8 * j) -> 8 * (j + zlen xs) <= bits ->
  comb false bits acc j xs = acc + 2 ^ (8 * j) * le_num xs.
Proof.
  induction xs as [|x r IH]; intros acc j HF Hj Ha Hb.
  - simpl. ring.
  - inversion_clear HF. rewrite zlen_cons in Hb. pose proof (zlen_nonneg r). simpl comb.
    rewrite ushl_byte, lor_add by (auto; lia).
    assert (E : 2 ^ (8 * (j + 1)) = 256 * 2 ^ (8 * j)).
    { replace (8 * (j + 1)) with (8 + 8 * j) by lia. rewrite pow_split by lia. reflexivity. }
    unfold is_byte in H. set (q := 2 ^ (8 * j)) in *.
    rewrite IH; auto; try lia.
    + rewrite E. simpl le_num. ring.
    + rewrite E. nia.
Qed.

Lemma comb0_unsigned bits xs :
  Forall is_byte xs -> 0 < zlen xs -> 8 * zlen xs <= bits -> comb0 false bits xs = le_num xs.
Proof.
  destruct xs as [|x r]; intros HF Hp Hb. { vm_compute in Hp; now (discriminate || destruct Hp). }
  rewrite zlen_cons in *. pose proof (zlen_nonneg r). inversion_clear HF. simpl comb0.
  rewrite uconv_byte by (auto; lia).
  rewrite comb_unsigned; auto; try lia.
Qed.

Lemma comb_signed bits xs y : forall acc j,
  Forall is_byte xs -> is_byte y -> 16 <= bits -> 0 <= j -> 0 <= acc < 2 ^ (8 * j) ->
  8 * (j + zlen xs + 1) = bits ->
  comb true bits acc j (xs ++ [y]) =
  acc + 2 ^ (8 * j) * le_num xs + (if y <? 128 then y else y - 256) * 2 ^ (bits - 8).
Proof.
  induction xs as [|x r IH]; intros acc j HF Hy H16 Hj Ha Hb.
  - rewrite zlen_nil in Hb. simpl.
    replace (8 * j) with (bits - 8) in * by lia.
    rewrite sshl_top, lor_add by (auto; lia). ring.
  - inversion_clear HF. rewrite zlen_cons in Hb. pose proof (zlen_nonneg r). simpl comb.
    rewrite sshl_byte, lor_add by (auto; lia).
    assert (E : 2 ^ (8 * (j + 1)) = 256 * 2 ^ (8 * j)).
    { replace (8 * (j + 1)) with (8 + 8 * j) by lia. rewrite pow_split by lia. reflexivity. }
    unfold is_byte in H. set (q := 2 ^ (8 * j)) in *.
    rewrite IH; auto; try lia.
    + rewrite E. simpl le_num. ring.
    + rewrite E. nia.
Qed.

Lemma le_num_app a b : le_num (a ++ b) = le_num a + 256 ^ zlen a * le_num b.
Proof.
  induction a; simpl app; simpl le_num.
  - change (256 ^ zlen (@nil Z)) with 1. ring.
  - rewrite IHa, zlen_cons, Z.pow_add_r by (try apply zlen_nonneg; lia). change (256 ^ 1) with 256. ring.
Qed.

Lemma comb0_signed bits xs :
  Forall is_byte xs -> 2 <= zlen xs -> 8 * zlen xs = bits ->
  comb0 true bits xs = (let u := le_num xs in if u <? 2 ^ (bits - 1) then u else u - 2 ^ bits).
Proof.
  intros HF Hp Hb. destruct xs as [|x r]. { vm_compute in Hp; now (discriminate || destruct Hp). }
  destruct (exists_last (l := r)) as (r' & y & ->). { intros ->. unfold zlen in Hp. simpl in Hp. lia. }
  rewrite zlen_cons, zlen_app in *. change (zlen [y]) with 1 in *. pose proof (zlen_nonneg r').
  inversion_clear HF. apply Forall_app in H1. destruct H1 as [Hr Hy]. inversion_clear Hy.
  simpl comb0. rewrite sconv_byte by (auto; lia).
  rewrite comb_signed; auto; try lia. cbv zeta. simpl le_num. rewrite le_num_app. simpl le_num.
  pose proof (le_num_range r' Hr) as R.
  rewrite pow256 in * by lia.
  replace (bits - 8) with (8 + 8 * zlen r') by lia.
  assert (E0 : 2 ^ (8 + 8 * zlen r') = 256 * 2 ^ (8 * zlen r')) by (rewrite pow_split by lia; reflexivity).
  assert (E1 : 2 ^ (bits - 1) = 32768 * 2 ^ (8 * zlen r')).
  { replace (bits - 1) with (15 + 8 * zlen r') by lia. rewrite pow_split by lia. reflexivity. }
  assert (E2 : 2 ^ bits = 65536 * 2 ^ (8 * zlen r')).
  { replace bits with (16 + 8 * zlen r') by lia. rewrite pow_split by lia. reflexivity. }
  rewrite E0, E1, E2. set (q := 2 ^ (8 * zlen r')) in *. change (2 ^ (8 * 1)) with 256.
  assert (0 < q) by (apply Z.pow_pos_nonneg; lia).
  unfold is_byte in *.
  destruct (Z.ltb_spec y 128).
  - replace (_ <? 32768 * q) with true by nia. ring.
  - replace (_ <? 32768 * q) with false by nia. ring.
Qed.

Lemma comb0_decode t xs :
  Forall is_byte xs -> zlen xs = tsize t ->
  comb0 (is_signed t) (bits_of t) xs = (match ty_endian t with LE => decode t xs | BE => decode t (rev xs) end).
Proof.
  intros HF HL. pose proof (tsize_pos t). unfold bits_of, decode, is_signed.
  assert (E : (match ty_endian t with LE => le_num xs | BE => le_num (rev (rev xs)) end) = le_num xs).
  { destruct (ty_endian t); rewrite ?rev_involutive; auto. }
  destruct (ty_sign t) eqn:Es.
  - rewrite comb0_unsigned by (auto; lia). destruct (ty_endian t); rewrite ?rev_involutive; auto.
  - rewrite comb0_signed by (auto; lia). destruct (ty_endian t); rewrite ?rev_involutive; auto.
  - rewrite comb0_unsigned by (auto; lia). destruct (ty_endian t); rewrite ?rev_involutive; auto.
Qed.

(** The bytes of one element, in the order of the loads. *)
Lemma sub_map_iota l p n :
  0 <= p -> p + Z.of_nat n <= zlen l -> sub l p (Z.of_nat n) = map (fun j => byte_at l (p + j)) (iota n).
Proof.
  induction n; intros Hp Hl.
  - reflexivity.
  - rewrite Nat2Z.inj_succ. unfold Z.succ. rewrite sub_app_split by lia. rewrite sub_one by lia.
    rewrite IHn by lia. unfold iota. rewrite seq_S, map_app, map_app. reflexivity.
Qed.

Lemma rlayout_bytes t l p :
  0 <= p -> p + tsize t <= zlen l ->
  map (fun k => byte_at l (p + k)) (rlayout t) =
  match ty_endian t with LE => sub l p (tsize t) | BE => rev (sub l p (tsize t)) end.
Proof.
  intros Hp Hl. unfold tsize in *. rewrite sub_map_iota by auto.
  destruct t; reflexivity.
Qed.

Lemma rlayout_range t : Forall (fun k => 0 <= k < tsize t) (rlayout t).
Proof. destruct t; vm_compute; repeat constructor; intro; discriminate. Qed.
Lemma rlayout_last t : In (tsize t - 1) (rlayout t).
Proof. destruct t; vm_compute; auto 10. Qed.
Lemma rlayout_first t : In 0 (rlayout t).
Proof. destruct t; vm_compute; auto 10. Qed.

Lemma loads_elem {A} t off i (K : list Z -> prog A) s :
  WF s -> 0 <= i -> i * tsize t <= 2 ^ 60 -> 0 <= off -> off + (i + 1) * tsize t <= zlen (content s) ->
  exists xs, run (loads (tsize t) off i (rlayout t) [] K) s = run (K xs) s /\
    comb0 (is_signed t) (bits_of t) xs = decode t (sub (content s) (off + i * tsize t) (tsize t)).
Proof.
  intros W Hi Hb Ho Hl. pose proof (tsize_pos t) as TP.
  pose proof (content_max s W) as M. rewrite max_alloc_val in M.
  assert (0 <= i * tsize t) by (apply Z.mul_nonneg_nonneg; lia).
  eexists. split.
  - apply (loads_ok _ _ _ _ _ _ _ (off + i * tsize t)); auto; try lia.
    eapply Forall_impl; [|apply rlayout_range]. intros k Hk. simpl in Hk. split. lia.
    replace ((i + 1) * tsize t) with (i * tsize t + tsize t) in Hl by ring. lia.
  - simpl. rewrite rlayout_bytes by lia.
    assert (HF : Forall is_byte (sub (content s) (off + i * tsize t) (tsize t))) by (apply Forall_sub, content_bytes; auto).
    assert (HL : zlen (sub (content s) (off + i * tsize t) (tsize t)) = tsize t) by (apply sub_length; lia).
    rewrite comb0_decode.
    + destruct (ty_endian t); rewrite ?rev_involutive; auto.
    + destruct (ty_endian t); auto. apply Forall_rev; auto.
    + destruct (ty_endian t); rewrite ?zlen_rev; auto.
Qed.

Lemma set_elem_ok l i v s :
  0 <= i < zlen l -> run (set_elem l i v) s = Done (put l i [v]) s.
Proof. intro H. unfold set_elem. replace ((0 <=? i) && (i <? zlen l)) with true by lia. reflexivity. Qed.
Lemma set_elem_oob l i v s :
  ~ (0 <= i < zlen l) -> run (set_elem l i v) s = Panicked index_err s.
Proof. intro H. unfold set_elem. replace ((0 <=? i) && (i <? zlen l)) with false by lia. reflexivity. Qed.

Lemma decode_all_S t l off i :
  0 <= i ->
  decode_all t l off (Z.to_nat (i + 1)) =
  decode_all t l off (Z.to_nat i) ++ [decode t (sub l (off + i * tsize t) (tsize t))].
Proof.
  intro H. replace (Z.to_nat (i + 1)) with (Z.to_nat i + 1)%nat by lia.
  rewrite decode_all_app. simpl. rewrite Z2Nat.id by lia. reflexivity.
Qed.

Lemma put_put_snoc {A} (l : list A) d v i :
  i = zlen d -> i < zlen l -> put (put l 0 d) i [v] = put l 0 (d ++ [v]).
Proof. intros -> H. change (zlen d) with (0 + zlen d) at 1. apply put_put_adj. lia. change (zlen [v]) with 1. lia. Qed.

(** Where the loop of a read that runs off the end fails. *)
Lemma read_fail {A} t off i (K : list Z -> prog A) s :
  WF s -> is_i64 off -> 0 <= i -> 0 <= i * tsize t <= 2 ^ 60 ->
  (off < 0 /\ i = 0 \/ zlen (content s) < off /\ i = 0 \/ 0 <= off <= zlen (content s) /\ zlen (content s) < off + (i + 1) * tsize t) ->
  run (loads (tsize t) off i (rlayout t) [] K) s = Panicked index_err s.
Proof.
  intros W Hi64 Hi Hb HC. pose proof (tsize_pos t) as TP.
  pose proof (content_max s W) as M. rewrite max_alloc_val in M.
  apply loads_oob; auto. apply Exists_exists.
  destruct HC as [[H ->]|[[H ->]|[H1 H2]]].
  - exists 0. split. apply rlayout_first. change (cidx (tsize t) 0 0) with 0. rewrite add64_id by (rewrite Z.add_0_r; auto). lia.
  - exists 0. split. apply rlayout_first. change (cidx (tsize t) 0 0) with 0. rewrite add64_id by (rewrite Z.add_0_r; auto). lia.
  - exists (tsize t - 1). split. apply rlayout_last. rewrite cidx_id by lia.
    rewrite add64_id by (unfold is_i64; lia). lia.
Qed.

Section reads.
Variables (t : numty) (s : St) (off n : Z).
Hypothesis W : WF s.
Hypothesis Hi64 : is_i64 off.
Let w := tsize t.
Let L := zlen (content s).

Lemma make_elems_run {B} (f : list Z -> prog B) :
  run (bind (make_elems w n) f) s =
  if (n <? 0) || (maxAlloc <? n * w) then Panicked make_err s else run (f (zeros n)) s.
Proof.
  unfold make_elems. destruct ((n <? 0) || (maxAlloc <? n * w)) eqn:E.
  - replace ((0 <=? n) && (n * w <=? maxAlloc)) with false by lia. reflexivity.
  - replace ((0 <=? n) && (n * w <=? maxAlloc)) with true by lia. reflexivity.
Qed.

Lemma read_loop_ok :
  0 <= off -> 1 <= n -> off + n * w <= L ->
  run (goto_loop n (rbody t off) (zeros n)) s = Done (decode_all t (content s) off (Z.to_nat n)) s.
Proof.
  intros Ho Hn Hl. pose proof (tsize_pos t) as TP. fold w in TP.
  pose proof (content_max s W) as M. rewrite max_alloc_val in M. fold L in M.
  destruct (goto_loop_inv (fun i out s' => s' = s /\ out = put (zeros n) 0 (decode_all t (content s) off (Z.to_nat i)))
     (rbody t off) n (zeros n) s) as (out & s' & R & -> & I).
  - nia.
  - intros i acc s1 Hi [-> ->].
    assert ((i + 1) * w <= n * w) by (apply Z.mul_le_mono_nonneg_r; lia).
    assert (0 <= i * w) by (apply Z.mul_nonneg_nonneg; lia).
    unfold rbody.
    destruct (loads_elem t off i (fun xs => set_elem (put (zeros n) 0 (decode_all t (content s) off (Z.to_nat i))) i
                (comb0 (is_signed t) (bits_of t) xs)) s W) as (xs & R & E); fold w; try (fold L); try lia.
    assert (LD : zlen (decode_all t (content s) off (Z.to_nat i)) = i) by (unfold zlen; rewrite decode_all_length; lia).
    assert (ZL : zlen (zeros n) = n) by (apply zlen_zeros; lia).
    fold w in R. rewrite R, E. rewrite set_elem_ok by (rewrite put_length; lia).
    eexists. eexists. split. reflexivity. split; auto.
    rewrite decode_all_S by lia. apply put_put_snoc; lia.
  - split; auto.
  - rewrite R, I. f_equal. replace (Z.max 1 n) with n by lia.
    assert (LD : zlen (decode_all t (content s) off (Z.to_nat n)) = n) by (unfold zlen; rewrite decode_all_length; lia).
    rewrite put_zeros by lia. replace (n - zlen (decode_all t (content s) off (Z.to_nat n))) with 0 by lia.
    apply app_nil_r.
Qed.

Lemma read_loop_fail :
  0 <= off -> 0 <= n -> n * w <= maxAlloc -> (n = 0 \/ L < off + n * w) ->
  run (goto_loop n (rbody t off) (zeros n)) s = Panicked index_err s.
Proof.
  intros Ho Hn Hm HC. pose proof (tsize_pos t) as TP. fold w in TP.
  pose proof (content_max s W) as M. rewrite max_alloc_val in *. fold L in M.
  destruct (Z_lt_dec L off) as [HL|HL].
  { apply goto_loop_first. unfold rbody. apply read_fail; auto; try lia. }
  destruct (Z.eq_dec n 0) as [->|Hn0].
  { apply goto_loop_first. unfold rbody.
    destruct (Z_le_dec (off + (0 + 1) * w) L) as [F|F].
    - destruct (loads_elem t off 0 (fun xs => set_elem (zeros 0) 0 (comb0 (is_signed t) (bits_of t) xs)) s W)
        as (xs & R & E); fold w; try (fold L); try lia.
      fold w in R. rewrite R. apply set_elem_oob. unfold zeros. change (zlen (repeat 0 (Z.to_nat 0))) with 0. lia.
    - apply read_fail; auto; fold w L; lia. }
  assert (Hm' : 0 <= (L - off) / w < n).
  { split. apply Z.div_pos; lia. apply Z.div_lt_upper_bound; lia. }
  assert (D1 : (L - off) / w * w <= L - off) by (rewrite Z.mul_comm; apply Z.mul_div_le; lia).
  assert (D2 : L - off < ((L - off) / w + 1) * w) by (pose proof (Z.mul_succ_div_gt (L - off) w); lia).
  destruct (goto_loop_panic (fun i (out : list Z) s' => s' = s /\ zlen out = n) (rbody t off) n ((L - off) / w) index_err
     (fun s' => s' = s) (zeros n) s) as (s' & R & ->); auto.
  - nia.
  - lia.
  - intros i acc s1 Hi [-> Hz].
    assert ((i + 1) * w <= (L - off) / w * w) by (apply Z.mul_le_mono_nonneg_r; lia).
    assert (0 <= i * w) by (apply Z.mul_nonneg_nonneg; lia).
    unfold rbody.
    destruct (loads_elem t off i (fun xs => set_elem acc i (comb0 (is_signed t) (bits_of t) xs)) s W)
      as (xs & R & E); fold w; try (fold L); try lia.
    fold w in R. rewrite R. rewrite set_elem_ok by lia. eexists. eexists. split. reflexivity. split; auto.
    rewrite put_length; auto. lia. change (zlen [comb0 (is_signed t) (bits_of t) xs]) with 1. lia.
  - intros acc s1 [-> Hz]. exists s. split; auto. unfold rbody. apply read_fail; auto; fold w L; try lia.
  - split; auto. apply zlen_zeros. lia.
Qed.

(** The exact effect of a Buffer typed read. *)
Lemma run_ReadT :
  run (ReadT t off n) s =
  if off +! n *! w >? L then Panicked BufferOverreadError s
  else if off <? 0 then Panicked BufferUnderreadError s
  else if (n <? 0) || (maxAlloc <? n * w) then Panicked make_err s
  else if (n =? 0) || (L <? off + n * w) then Panicked index_err s
  else Done (decode_all t (content s) off (Z.to_nat n)) s.
Proof.
  rewrite ReadT_canon. fold w.
  rewrite (check_range s off (n *! w) _ _ _ _ W eq_refl). fold L.
  destruct (off +! n *! w >? L); auto.
  destruct (Z.ltb_spec off 0); auto.
  rewrite make_elems_run. destruct ((n <? 0) || (maxAlloc <? n * w)) eqn:E; auto.
  destruct ((n =? 0) || (L <? off + n * w)) eqn:E2.
  - apply read_loop_fail; auto; lia.
  - apply read_loop_ok; auto; lia.
Qed.

Lemma run_ReadT_ok :
  0 <= off -> 1 <= n -> off + n * w <= L ->
  run (ReadT t off n) s = Done (decode_all t (content s) off (Z.to_nat n)) s.
Proof.
  intros Ho Hn Hl. pose proof (tsize_pos t) as TP. fold w in TP.
  pose proof (content_max s W) as M. rewrite max_alloc_val in *. fold L in M.
  rewrite run_ReadT. rewrite mul64_id by (unfold is_i64; nia).
  rewrite add64_id by (unfold is_i64; nia). rewrite max_alloc_val.
  replace (off + n * w >? L) with false by lia. replace (off <? 0) with false by lia.
  replace ((n <? 0) || _) with false by lia. replace ((n =? 0) || _) with false by lia. reflexivity.
Qed.

(** ** MiniBuffer typed reads *)

Lemma set_outs_same_content o : content (set_outs s o) = content s.
Proof. reflexivity. Qed.

Lemma set_outs_WF s0 o : WF s0 -> WF (set_outs s0 o).
Proof. intros []. constructor; auto. Qed.
End reads.

Lemma mini_step t s off i o :
  WF s -> 0 <= i -> i * tsize t <= 2 ^ 60 -> 0 <= off -> off + (i + 1) * tsize t <= zlen (content s) ->
  run (mrbody t off i) (set_outs s o) =
  if i <? zlen o then Done tt (set_outs s (put o i [decode t (sub (content s) (off + i * tsize t) (tsize t))]))
  else Panicked index_err (set_outs s o).
Proof.
  intros W Hi Hb Ho Hl. unfold mrbody.
  destruct (loads_elem t off i (fun xs => GetOuts (fun out =>
     bind (set_elem out i (comb0 (is_signed t) (bits_of t) xs)) (fun out' => SetOuts out' (Ret tt))))
     (set_outs s o) (set_outs_WF s o W)) as (xs & R & E); auto.
  rewrite R. cbn [run]. rewrite run_bind. rewrite E.
  destruct (Z.ltb_spec i (zlen o)).
  - rewrite set_elem_ok by (simpl; lia). reflexivity.
  - rewrite set_elem_oob by (simpl; lia). reflexivity.
Qed.

Lemma mini_ReadT_ok t s off n :
  WF s -> 0 <= off -> 1 <= n -> off + n * tsize t <= zlen (content s) -> n <= zlen (outs s) ->
  run (MiniReadT t off n) s =
  Done tt (set_outs s (put (outs s) 0 (decode_all t (content s) off (Z.to_nat n)))).
Proof.
  intros W Ho Hn Hl Hz. rewrite MiniReadT_canon. pose proof (tsize_pos t) as TP.
  pose proof (content_max s W) as M. rewrite max_alloc_val in M.
  destruct (goto_loop_inv (fun i (_ : unit) s' => s' = set_outs s (put (outs s) 0 (decode_all t (content s) off (Z.to_nat i))))
     (fun i _ => mrbody t off i) n tt s) as ([] & s' & R & I).
  - nia.
  - intros i acc s1 Hi ->.
    assert ((i + 1) * tsize t <= n * tsize t) by (apply Z.mul_le_mono_nonneg_r; lia).
    assert (LD : zlen (decode_all t (content s) off (Z.to_nat i)) = i) by (unfold zlen; rewrite decode_all_length; lia).
    rewrite mini_step by (auto; lia).
    rewrite put_length by lia. replace (i <? zlen (outs s)) with true by lia.
    eexists. eexists. split. reflexivity. f_equal. rewrite decode_all_S by lia. apply put_put_snoc; lia.
  - change (Z.to_nat 0) with O. simpl. rewrite put_nil. destruct s; reflexivity.
  - rewrite R, I. do 4 f_equal. lia.
Qed.

(** Whatever the arguments, a MiniBuffer read either returns or panics with an
    index error, and changes nothing but the caller's [out]. *)
Lemma mini_ReadT_any t s off n :
  WF s -> is_i64 off -> is_i64 n ->
  exists o, zlen o = zlen (outs s) /\
    (run (MiniReadT t off n) s = Done tt (set_outs s o) \/
     run (MiniReadT t off n) s = Panicked index_err (set_outs s o)).
Proof.
  intros W Ho Hn. rewrite MiniReadT_canon. pose proof (tsize_pos t) as TP.
  pose proof (content_max s W) as M. rewrite max_alloc_val in M. pose proof (zlen_nonneg (content s)).
  set (L := zlen (content s)) in *. set (w := tsize t) in *.
  assert (ID : s = set_outs s (outs s)) by (destruct s; reflexivity).
  destruct (Z_lt_dec off 0) as [Hneg|Hneg]; [|destruct (Z_lt_dec L off) as [Hov|Hov]].
  - exists (outs s). split; auto. right. rewrite <- ID. apply goto_loop_first. apply read_fail; auto; fold w L; lia.
  - exists (outs s). split; auto. right. rewrite <- ID. apply goto_loop_first. apply read_fail; auto; fold w L; lia.
  - (* number of iterations that can run *)
    assert (D0 : 0 <= (L - off) / w) by (apply Z.div_pos; lia).
    assert (D1 : (L - off) / w * w <= L - off) by (rewrite Z.mul_comm; apply Z.mul_div_le; lia).
    assert (D2 : L - off < ((L - off) / w + 1) * w) by (pose proof (Z.mul_succ_div_gt (L - off) w); lia).
    pose proof (zlen_nonneg (outs s)).
    set (m := Z.min ((L - off) / w) (zlen (outs s))).
    assert (ST : forall i o, 0 <= i < m -> zlen o = zlen (outs s) ->
       exists o', run (mrbody t off i) (set_outs s o) = Done tt (set_outs s o') /\ zlen o' = zlen (outs s)).
    { intros i o Hi Hz. assert ((i + 1) * w <= (L - off) / w * w) by (apply Z.mul_le_mono_nonneg_r; lia).
      rewrite mini_step by (fold w L; auto; lia). replace (i <? zlen o) with true by lia.
      eexists. split. reflexivity. rewrite put_length; auto. lia. unfold zlen at 1. simpl length. lia. }
    destruct (Z_le_dec (Z.max 1 n) m) as [Hok|Hfail].
    + destruct (goto_loop_inv (fun i (_ : unit) s' => exists o, s' = set_outs s o /\ zlen o = zlen (outs s))
        (fun i _ => mrbody t off i) n tt s) as ([] & s' & R & o & -> & Hz).
      * unfold is_i64 in *; lia.
      * intros i acc s1 Hi (o & -> & Hz). destruct (ST i o) as (o' & R & Hz'); auto. lia.
        rewrite R. eexists. eexists. split. reflexivity. exists o'. auto.
      * exists (outs s). auto.
      * exists o. auto.
    + destruct (goto_loop_panic (fun i (_ : unit) s' => exists o, s' = set_outs s o /\ zlen o = zlen (outs s))
        (fun i _ => mrbody t off i) n m index_err (fun s' => exists o, s' = set_outs s o /\ zlen o = zlen (outs s)) tt s)
        as (s' & R & o & -> & Hz).
      * unfold is_i64 in *; lia.
      * lia.
      * intros i acc s1 Hi (o & -> & Hz). destruct (ST i o) as (o' & R & Hz'); auto.
        rewrite R. eexists. eexists. split. reflexivity. exists o'. auto.
      * intros acc s1 (o & -> & Hz). exists (set_outs s o). split; [|exists o; auto].
        assert (m * w <= (L - off) / w * w) by (apply Z.mul_le_mono_nonneg_r; lia).
        assert (0 <= m * w) by (apply Z.mul_nonneg_nonneg; lia).
        destruct (Z_le_dec (off + (m + 1) * w) L) as [F|F].
        -- rewrite mini_step by (fold w L; auto; lia).
           assert (m = zlen (outs s)).
           { destruct (Z.min_spec ((L - off) / w) (zlen (outs s))) as [[? E]|[? E]]; fold m in E; auto.
             rewrite E in F. lia. }
           replace (m <? zlen o) with false by lia. reflexivity.
        -- apply read_fail; auto; try lia. apply set_outs_WF; auto.
           change (content (set_outs s o)) with (content s). fold w L. lia.
      * exists (outs s). auto.
      * exists o. auto.
Qed.
