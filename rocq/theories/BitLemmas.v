(** * BitLemmas: bits of byte strings (no reference to the model). *)
From Coq Require Import ZArith List Bool Lia ZifyBool.
From Verif Require Import GoSem Spec GoLemmas.
Import ListNotations.
Open Scope Z_scope.

Lemma is_byte_bits v : is_byte v -> forall j, 8 <= j -> Z.testbit v j = false.
Proof.
  intros H j Hj. unfold is_byte in H.
  rewrite <- (Z.mod_small v (2 ^ 8)) by lia. apply Z.mod_pow2_bits_high. lia.
Qed.

Lemma bits_is_byte v : (forall j, 8 <= j -> Z.testbit v j = false) -> is_byte v.
Proof.
  intro H. assert (E : v = v mod 2 ^ 8).
  { apply Z.bits_inj'. intros j Hj. destruct (Z.lt_ge_cases j 8).
    - rewrite Z.mod_pow2_bits_low by lia. auto.
    - rewrite Z.mod_pow2_bits_high by lia. apply H. lia. }
  unfold is_byte. pose proof (Z.mod_pos_bound v (2 ^ 8)). lia.
Qed.

Lemma land1_b2z v k : 0 <= k -> Z.land (Z.shiftr v k) 1 = Z.b2z (Z.testbit v k).
Proof.
  intro Hk. rewrite Z.testbit_odd. change (Z.land (Z.shiftr v k) 1) with (Z.land (Z.shiftr v k) (Z.ones 1)).
  rewrite Z.land_ones by lia. change (2 ^ 1) with 2. rewrite Zmod_odd.
  destruct (Z.odd (Z.shiftr v k)); reflexivity.
Qed.

Lemma setbit_byte v k : is_byte v -> 0 <= k < 8 -> is_byte (Z.setbit v k).
Proof.
  intros H Hk. apply bits_is_byte. intros j Hj. rewrite Z.setbit_neq by lia. apply is_byte_bits; auto.
Qed.
Lemma clearbit_byte v k : is_byte v -> 0 <= k -> is_byte (Z.clearbit v k).
Proof.
  intros H Hk. apply bits_is_byte. intros j Hj. rewrite Z.clearbit_eqb.
  rewrite (is_byte_bits v); auto.
Qed.

Lemma byte_eq_bits a b :
  is_byte a -> is_byte b -> (forall k, 0 <= k < 8 -> Z.testbit a k = Z.testbit b k) -> a = b.
Proof.
  intros Ha Hb H. apply Z.bits_inj'. intros j Hj.
  destruct (Z.lt_ge_cases j 8). apply H; lia.
  rewrite !is_byte_bits by (auto; lia). reflexivity.
Qed.

(** Byte strings are determined by their bits. *)
Lemma bits_ext l1 l2 :
  zlen l1 = zlen l2 -> Forall is_byte l1 -> Forall is_byte l2 ->
  (forall j, 0 <= j < 8 * zlen l1 -> bit_at l1 j = bit_at l2 j) -> l1 = l2.
Proof.
  intros HL H1 H2 H. apply byte_at_ext; auto. intros i Hi.
  apply byte_eq_bits; try (apply byte_at_is_byte; auto).
  intros k Hk. specialize (H (8 * i + (7 - k))). unfold bit_at in H.
  replace ((8 * i + (7 - k)) / 8) with i in H by lia.
  replace (7 - (8 * i + (7 - k)) mod 8) with k in H by lia.
  apply H. lia.
Qed.

Lemma put_bit_zlen l i v : 0 <= i < 8 * zlen l -> zlen (put_bit l i v) = zlen l.
Proof. intro H. unfold put_bit. apply put_length; [lia|]. unfold zlen at 1. simpl length. lia. Qed.

Lemma put_bit_bytes l i v : Forall is_byte l -> Forall is_byte (put_bit l i v).
Proof.
  intros H. unfold put_bit. apply Forall_put; auto. constructor; auto.
  pose proof (byte_at_is_byte l (i / 8) H).
  destruct v. apply setbit_byte; auto; lia. apply clearbit_byte; auto; lia.
Qed.

(** The defining property of [put_bit]. *)
Lemma bit_at_put_bit l i v j :
  0 <= i < 8 * zlen l -> 0 <= j ->
  bit_at (put_bit l i v) j = if i =? j then v else bit_at l j.
Proof.
  intros Hi Hj. unfold bit_at, put_bit.
  assert (E1 : zlen [if v then Z.setbit (byte_at l (i / 8)) (7 - i mod 8)
                     else Z.clearbit (byte_at l (i / 8)) (7 - i mod 8)] = 1) by reflexivity.
  rewrite byte_at_put by lia. rewrite E1.
  destruct (Z.eqb_spec i j).
  - subst j. replace ((i / 8 <=? i / 8) && (i / 8 <? i / 8 + 1)) with true by lia.
    rewrite Z.sub_diag. unfold byte_at at 1. simpl nth.
    destruct v. apply Z.setbit_eq; lia.
    rewrite Z.clearbit_eqb, Z.eqb_refl. apply andb_false_r.
  - destruct ((i / 8 <=? j / 8) && (j / 8 <? i / 8 + 1)) eqn:E.
    + assert (i / 8 = j / 8) by lia. replace (j / 8 - i / 8) with 0 by lia.
      assert (Hm : i mod 8 <> j mod 8).
      { intro Hm. apply n. rewrite (Z.div_mod i 8), (Z.div_mod j 8) by lia. congruence. }
      assert (0 <= i mod 8 < 8) by lia. assert (0 <= j mod 8 < 8) by lia.
      unfold byte_at at 1. simpl nth. rewrite H.
      destruct v. apply Z.setbit_neq; lia.
      rewrite Z.clearbit_eqb. replace (7 - i mod 8 =? 7 - j mod 8) with false by lia. apply andb_true_r.
    + reflexivity.
Qed.

Lemma bit_at_oob l i : Forall is_byte l -> 8 * zlen l <= i -> bit_at l i = false.
Proof.
  intros H Hi. unfold bit_at, byte_at. rewrite nth_overflow. apply Z.bits_0. unfold zlen in Hi. lia.
Qed.

Lemma flip_bit_eq l i :
  Forall is_byte l -> 0 <= i < 8 * zlen l ->
  flip_bit l i = put l (i / 8) [Z.lxor (byte_at l (i / 8)) (2 ^ (7 - i mod 8))].
Proof.
  intros HB Hi. unfold flip_bit, put_bit. f_equal. f_equal.
  apply Z.bits_inj'. intros k Hk. rewrite Z.lxor_spec, Z.pow2_bits_eqb by lia.
  unfold bit_at. destruct (Z.testbit (byte_at l (i / 8)) (7 - i mod 8)) eqn:E; simpl.
  - rewrite Z.clearbit_eqb. destruct (Z.eqb_spec (7 - i mod 8) k) as [<-|]; rewrite ?E; simpl; auto.
  - rewrite Z.setbit_eqb by lia. destruct (Z.eqb_spec (7 - i mod 8) k) as [<-|]; rewrite ?E; simpl; auto.
    rewrite xorb_false_r. auto.
Qed.

(** ** Sequences of bits *)

Lemma put_bits_zlen l off f k :
  0 <= off -> off + Z.of_nat k <= 8 * zlen l -> zlen (put_bits l off f k) = zlen l.
Proof.
  induction k; intros; auto. simpl. rewrite put_bit_zlen; rewrite IHk; lia.
Qed.
Lemma put_bits_bytes l off f k : Forall is_byte l -> Forall is_byte (put_bits l off f k).
Proof. induction k; intros; auto. simpl. apply put_bit_bytes; auto. Qed.

Lemma bit_at_put_bits l off f k j :
  0 <= off -> off + Z.of_nat k <= 8 * zlen l -> 0 <= j ->
  bit_at (put_bits l off f k) j =
  if (off <=? j) && (j <? off + Z.of_nat k) then f (j - off) else bit_at l j.
Proof.
  induction k; intros H0 H1 Hj.
  - simpl. replace (_ && _) with false by lia. auto.
  - simpl put_bits. rewrite bit_at_put_bit; [|rewrite put_bits_zlen; lia|auto].
    rewrite IHk by lia.
    destruct (Z.eqb_spec (off + Z.of_nat k) j).
    + replace (_ && _) with true by lia. f_equal. lia.
    + replace (j <? off + Z.of_nat (S k)) with (j <? off + Z.of_nat k) by lia. auto.
Qed.

Lemma bits_num_range l i n : 0 <= bits_num l i n < 2 ^ Z.of_nat n.
Proof.
  induction n.
  - simpl; lia.
  - simpl bits_num. rewrite Nat2Z.inj_succ, Z.pow_succ_r by lia.
    destruct (bit_at l (i + Z.of_nat n)); simpl; lia.
Qed.

Lemma bits_num_testbit l i n k :
  0 <= k < Z.of_nat n -> Z.testbit (bits_num l i n) k = bit_at l (i + (Z.of_nat n - 1 - k)).
Proof.
  revert k; induction n; intros k Hk. lia.
  simpl bits_num.
  destruct (Z.eq_dec k 0) as [->|Hne].
  - replace (2 * bits_num l i n + Z.b2z (bit_at l (i + Z.of_nat n)))
      with (Z.b2z (bit_at l (i + Z.of_nat n)) + 2 * bits_num l i n) by lia.
    rewrite Z.add_b2z_double_bit0. f_equal. lia.
  - replace k with (Z.succ (k - 1)) by lia.
    rewrite Z.testbit_succ_r by lia. rewrite IHn by lia. f_equal. lia.
Qed.

Lemma bits_num_ext l l' i i' n :
  (forall k, 0 <= k < Z.of_nat n -> bit_at l (i + k) = bit_at l' (i' + k)) ->
  bits_num l i n = bits_num l' i' n.
Proof.
  induction n; intro H; auto. simpl. rewrite IHn by (intros; apply H; lia).
  rewrite H by lia. auto.
Qed.

(** The number whose bits are [f 0 .. f (n-1)], most significant first. *)
Lemma bits_num_of_testbit l i n x :
  (forall k, 0 <= k < Z.of_nat n -> bit_at l (i + k) = Z.testbit x (Z.of_nat n - 1 - k)) ->
  bits_num l i n = x mod 2 ^ Z.of_nat n.
Proof.
  intro H. apply Z.bits_inj'. intros j Hj.
  destruct (Z.lt_ge_cases j (Z.of_nat n)).
  - rewrite bits_num_testbit by lia. rewrite Z.mod_pow2_bits_low by lia.
    rewrite H by lia. f_equal. lia.
  - rewrite Z.mod_pow2_bits_high by lia.
    pose proof (bits_num_range l i n). rewrite <- (Z.mod_small (bits_num l i n) (2 ^ Z.of_nat n)) by lia.
    apply Z.mod_pow2_bits_high. lia.
Qed.
