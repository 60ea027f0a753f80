(** * CodecLemmas: the number formats of Spec (no reference to the model). *)
From Coq Require Import ZArith List Bool Lia ZifyBool.
From Verif Require Import GoSem Spec GoLemmas.
Import ListNotations.
Open Scope Z_scope.

Lemma le_bytes_length n x : length (le_bytes n x) = n.
Proof. revert x; induction n; intro; simpl; auto. Qed.

Lemma le_bytes_bytes n x : Forall is_byte (le_bytes n x).
Proof. revert x; induction n; intro x; simpl; constructor; auto. unfold is_byte. lia. Qed.

Lemma le_num_bytes n x : le_num (le_bytes n x) = x mod 256 ^ Z.of_nat n.
Proof.
  revert x; induction n; intro x.
  - simpl. rewrite Z.pow_0_r, Z.mod_1_r. auto.
  - simpl. rewrite IHn. rewrite Nat2Z.inj_succ, Z.pow_succ_r by lia.
    rewrite Z.rem_mul_r by (try apply Z.pow_nonzero; lia). reflexivity.
Qed.

Lemma le_num_range l : Forall is_byte l -> 0 <= le_num l < 256 ^ zlen l.
Proof.
  induction 1.
  - change (0 <= 0 < 1). lia.
  - simpl. rewrite zlen_cons, Z.pow_add_r by (try apply zlen_nonneg; lia).
    unfold is_byte in H. change (256 ^ 1) with 256. lia.
Qed.

Lemma le_bytes_num l : Forall is_byte l -> le_bytes (length l) (le_num l) = l.
Proof.
  induction 1; simpl; auto. unfold is_byte in H.
  replace ((x + 256 * le_num l) mod 256) with x by lia.
  replace ((x + 256 * le_num l) / 256) with (le_num l) by lia. congruence.
Qed.

Lemma le_bytes_mod n x y : x mod 256 ^ Z.of_nat n = y mod 256 ^ Z.of_nat n -> le_bytes n x = le_bytes n y.
Proof.
  intro H. rewrite <- (le_bytes_num (le_bytes n x)), <- (le_bytes_num (le_bytes n y)) by apply le_bytes_bytes.
  rewrite !le_bytes_length, !le_num_bytes, H. reflexivity.
Qed.

Lemma encode_length t x : length (encode t x) = ty_bytes t.
Proof. unfold encode. destruct (ty_endian t); rewrite ?rev_length; apply le_bytes_length. Qed.
Lemma encode_zlen t x : zlen (encode t x) = tsize t.
Proof. unfold zlen, tsize. rewrite encode_length. auto. Qed.
Lemma encode_bytes t x : Forall is_byte (encode t x).
Proof. unfold encode. destruct (ty_endian t); [|apply Forall_rev]; apply le_bytes_bytes. Qed.

Lemma tsize_pos t : 2 <= tsize t <= 8.
Proof. destruct t; vm_compute; split; discriminate. Qed.

Lemma pow256 n : 0 <= n -> 256 ^ n = 2 ^ (8 * n).
Proof. intro. rewrite Z.pow_mul_r by lia. reflexivity. Qed.

Lemma decode_encode_mod t x :
  decode t (encode t x) =
  (let u := x mod 2 ^ (8 * tsize t) in
   match ty_sign t with
   | Signed => if u <? 2 ^ (8 * tsize t - 1) then u else u - 2 ^ (8 * tsize t)
   | _ => u end).
Proof.
  unfold decode, encode. destruct (ty_endian t); rewrite ?rev_involutive, le_num_bytes, pow256 by lia; reflexivity.
Qed.

Lemma decode_encode t x : in_format t x -> decode t (encode t x) = x.
Proof.
  intro H. rewrite decode_encode_mod. unfold in_format in H.
  destruct t; cbn [ty_sign] in *; unfold tsize in *; cbn [ty_bytes ty_width bytes_of_width] in *;
    change (8 * Z.of_nat 2) with 16 in *; change (8 * Z.of_nat 4) with 32 in *; change (8 * Z.of_nat 8) with 64 in *;
    cbv zeta; try (apply Z.mod_small; assumption);
    match goal with |- (if ?c then _ else _) = _ => destruct c eqn:E end; 
    change (16 - 1) with 15 in *; change (32 - 1) with 31 in *; change (64 - 1) with 63 in *; lia.
Qed.

Lemma decode_in_format t l : Forall is_byte l -> zlen l = tsize t -> in_format t (decode t l).
Proof.
  intros H L. unfold in_format, decode.
  assert (R : 0 <= (match ty_endian t with LE => le_num l | BE => le_num (rev l) end) < 2 ^ (8 * tsize t)).
  { rewrite <- pow256 by (pose proof (tsize_pos t); lia).
    destruct (ty_endian t). rewrite <- L. apply le_num_range; auto.
    rewrite <- L, <- zlen_rev. apply le_num_range. apply Forall_rev; auto. }
  cbv zeta. revert R. generalize (match ty_endian t with LE => le_num l | BE => le_num (rev l) end). intros u R.
  destruct (ty_sign t); auto.
  assert (2 ^ (8 * tsize t) = 2 * 2 ^ (8 * tsize t - 1)).
  { rewrite <- Z.pow_succ_r by (pose proof (tsize_pos t); lia). f_equal. lia. }
  destruct (Z.ltb_spec u (2 ^ (8 * tsize t - 1))); lia.
Qed.

Lemma encode_decode t l : Forall is_byte l -> zlen l = tsize t -> encode t (decode t l) = l.
Proof.
  intros H L.
  assert (LL : length l = ty_bytes t) by (unfold zlen, tsize in L; lia).
  unfold encode.
  assert (E : forall n, n = ty_bytes t -> le_bytes n (decode t l) =
     le_bytes n (match ty_endian t with LE => le_num l | BE => le_num (rev l) end)).
  { intros n ->. apply le_bytes_mod. unfold decode. cbv zeta.
    destruct (ty_sign t); auto.
    match goal with |- (if ?c then _ else _) mod _ = _ => destruct c end; auto.
    rewrite pow256 by lia. fold (tsize t).
    rewrite <- (Z_mod_plus_full _ 1 (2 ^ (8 * tsize t))). f_equal. ring. }
  destruct (ty_endian t); rewrite E by auto.
  - rewrite <- LL. apply le_bytes_num; auto.
  - rewrite <- LL, <- (rev_length l), le_bytes_num by (apply Forall_rev; auto). apply rev_involutive.
Qed.

(** ** Lists of values *)

Lemma encode_all_app t d1 d2 : encode_all t (d1 ++ d2) = encode_all t d1 ++ encode_all t d2.
Proof. unfold encode_all. apply flat_map_app. Qed.

Lemma encode_all_zlen t d : zlen (encode_all t d) = zlen d * tsize t.
Proof.
  induction d; simpl; auto. rewrite zlen_app, encode_zlen, IHd, zlen_cons. lia.
Qed.
Lemma encode_all_bytes t d : Forall is_byte (encode_all t d).
Proof. induction d; simpl; auto. apply Forall_app. split; auto. apply encode_bytes. Qed.

Lemma decode_all_length t l i n : length (decode_all t l i n) = n.
Proof. revert i; induction n; intro; simpl; auto. Qed.

Lemma decode_all_app t l i n m :
  decode_all t l i (n + m) = decode_all t l i n ++ decode_all t l (i + Z.of_nat n * tsize t) m.
Proof.
  revert i; induction n; intro i.
  - simpl. f_equal. lia.
  - simpl. f_equal. rewrite IHn. f_equal. f_equal. lia.
Qed.

Lemma decode_all_ext t l l' i i' n :
  0 <= i -> 0 <= i' ->
  sub l i (Z.of_nat n * tsize t) = sub l' i' (Z.of_nat n * tsize t) ->
  decode_all t l i n = decode_all t l' i' n.
Proof.
  pose proof (tsize_pos t) as TP.
  revert i i'; induction n; intros i i' Hi Hi' H; auto. simpl.
  replace (Z.of_nat (S n) * tsize t) with (tsize t + Z.of_nat n * tsize t) in H by lia.
  assert (E1 : sub l i (tsize t) = sub l' i' (tsize t)).
  { apply (f_equal (fun x => sub x 0 (tsize t))) in H. rewrite !sub_sub in H by lia.
    rewrite !Z.add_0_r in H. auto. }
  assert (E2 : sub l (i + tsize t) (Z.of_nat n * tsize t) = sub l' (i' + tsize t) (Z.of_nat n * tsize t)).
  { apply (f_equal (fun x => sub x (tsize t) (Z.of_nat n * tsize t))) in H. rewrite !sub_sub in H by lia. auto. }
  rewrite E1. f_equal. apply IHn; auto; lia.
Qed.

Lemma decode_all_encode_all t d r :
  Forall (in_format t) d -> decode_all t (encode_all t d ++ r) 0 (length d) = d.
Proof.
  pose proof (tsize_pos t) as TP.
  induction 1; simpl; auto. f_equal.
  - rewrite <- app_assoc. unfold sub. change (Z.to_nat 0) with O. simpl.
    replace (Z.to_nat (tsize t)) with (length (encode t x) + 0)%nat
      by (rewrite encode_length; unfold tsize; lia).
    rewrite firstn_app_2. simpl. rewrite app_nil_r. apply decode_encode; auto.
  - transitivity (decode_all t (encode_all t l ++ r) 0 (length l)); [|exact IHForall]. rewrite Z.add_0_l.
    apply decode_all_ext; try lia.
    rewrite <- app_assoc. unfold sub at 1.
    replace (Z.to_nat (tsize t)) with (length (encode t x) + 0)%nat
      by (rewrite encode_length; unfold tsize; lia).
    rewrite skipn_app, skipn_all2 by lia. rewrite Nat.add_0_r, Nat.sub_diag. reflexivity.
Qed.

Lemma sub_of_app {A} (p q : list A) n m : n = zlen p -> m = zlen q -> sub (p ++ q) 0 n = p /\ sub (p ++ q) n m = q.
Proof.
  intros -> ->. unfold sub, zlen. rewrite !Nat2Z.id. change (Z.to_nat 0) with O. simpl. split.
  - rewrite firstn_app, firstn_all, Nat.sub_diag, firstn_O, app_nil_r. auto.
  - rewrite skipn_app, skipn_all, Nat.sub_diag, skipn_O. simpl. apply firstn_all.
Qed.

(** Decoding the place where an encoding was put. *)
Lemma decode_all_put t l off d :
  Forall (in_format t) d -> 0 <= off -> off + zlen d * tsize t <= zlen l ->
  decode_all t (put l off (encode_all t d)) off (length d) = d.
Proof.
  intros Hd Ho Hl. pose proof (zlen_nonneg d). pose proof (tsize_pos t).
  transitivity (decode_all t (encode_all t d) 0 (length d));
    [|rewrite <- (app_nil_r (encode_all t d)); apply decode_all_encode_all; auto].
  apply decode_all_ext; try lia.
  rewrite sub_put_same; try rewrite encode_all_zlen; try lia.
  - unfold zlen. symmetry. apply sub_all. rewrite encode_all_zlen. unfold zlen. lia.
  - unfold zlen. lia.
Qed.

Lemma encode_all_decode_all t l i n :
  Forall is_byte l -> 0 <= i -> i + Z.of_nat n * tsize t <= zlen l ->
  encode_all t (decode_all t l i n) = sub l i (Z.of_nat n * tsize t).
Proof.
  pose proof (tsize_pos t) as TP. intro HB.
  revert i; induction n; intros i Hi Hl; auto. simpl.
  replace (Z.of_nat (S n) * tsize t) with (tsize t + Z.of_nat n * tsize t) by lia.
  rewrite sub_app_split by lia. f_equal.
  - apply encode_decode. apply Forall_sub; auto. apply sub_length; lia.
  - apply IHn; lia.
Qed.

Lemma decode_all_in_format t l i n :
  Forall is_byte l -> 0 <= i -> i + Z.of_nat n * tsize t <= zlen l ->
  Forall (in_format t) (decode_all t l i n).
Proof.
  pose proof (tsize_pos t) as TP. intro HB.
  revert i; induction n; intros i Hi Hl; simpl; constructor.
  - apply decode_in_format. apply Forall_sub; auto. apply sub_length; lia.
  - apply IHn; lia.
Qed.
