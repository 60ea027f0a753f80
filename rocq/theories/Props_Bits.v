(** * Props_Bits: properties C01 - C09 and C54, the bit operations of v3 [Buffer].

    [content s] are the bytes of the buffer, [bit_at l i] is bit [i] of a byte
    string (Spec.v).  [run m s] is what calling method [m] in state [s] gives. *)
From Coq Require Import ZArith List Bool Lia ZifyBool.
From Verif Require Import GoSem Errors Spec GoLemmas BitLemmas CodecLemmas Typed V3BitLemmas V3ByteLemmas
  TypedLemmas TypedReadLemmas Frame Sim Witness.
From Verif Require V3Buffer.
Import ListNotations.
Open Scope Z_scope.
Open Scope go_scope.

(** ** C01 *)

Theorem C01_ReadBit : forall s off, WF s ->
  (0 <= off < 8 * zlen (content s) ->
     run (V3Buffer.ReadBit off) s = Done (if bit_at (content s) off then 1 else 0) s) /\
  (8 * zlen (content s) <= off ->
     run (V3Buffer.ReadBit off) s = Panicked BufferOverreadError s) /\
  (off < 0 -> run (V3Buffer.ReadBit off) s = Panicked BufferUnderreadError s).
Proof.
  intros s off W. rewrite run_ReadBit by exact W. pose proof (zlen_nonneg (content s)).
  split; [|split]; intro H0.
  - replace (8 * zlen (content s) <=? off) with false by lia. replace (off <? 0) with false by lia.
    destruct (bit_at _ _); reflexivity.
  - now replace (8 * zlen (content s) <=? off) with true by lia.
  - replace (8 * zlen (content s) <=? off) with false by lia. now replace (off <? 0) with true by lia.
Qed.
Print Assumptions C01_ReadBit.

Example C01_case :
  run (V3Buffer.ReadBit 0) ex = Done 1 ex /\ run (V3Buffer.ReadBit 1) ex = Done 0 ex /\
  run (V3Buffer.ReadBit 32) ex = Panicked BufferOverreadError ex /\
  run (V3Buffer.ReadBit (-1)) ex = Panicked BufferUnderreadError ex.
Proof. repeat split; apply (C01_ReadBit ex _ ex_WF); vm_compute; auto; split; congruence. Qed.

(** ** C02 *)

(** [s'] is [s] with bit [off] of the content made [v]: every other bit, the
    length, the offsets, and all memory outside the buffer are as before. *)
Definition one_bit_set (s : St) (off : Z) (v : bool) (s' : St) : Prop :=
  becomes s (content s') s' /\ zlen (content s') = zlen (content s) /\
  forall j, 0 <= j < 8 * zlen (content s) ->
    bit_at (content s') j = if j =? off then v else bit_at (content s) j.

(** The three single-bit operations, and the bit each leaves behind. *)
Inductive bitop : Set := BSet | BClear | BFlip.
Definition bit_call (o : bitop) : Z -> prog unit :=
  match o with BSet => V3Buffer.SetBit | BClear => V3Buffer.ClearBit | BFlip => V3Buffer.FlipBit end.
Definition bit_result (o : bitop) (old : bool) : bool :=
  match o with BSet => true | BClear => false | BFlip => negb old end.

Lemma put_bit_one_bit_set s off v :
  WF s -> 0 <= off < 8 * zlen (content s) ->
  one_bit_set s off v (with_content s (put_bit (content s) off v)).
Proof.
  intros W H. pose proof (put_bit_zlen (content s) off v H) as L.
  unfold one_bit_set. rewrite content_with_content by assumption.
  split; [|split]. now apply with_content_becomes. exact L.
  intros j Hj. rewrite bit_at_put_bit by lia. rewrite (Z.eqb_sym j off). reflexivity.
Qed.

Lemma run_bit_call o off s : WF s ->
  run (bit_call o off) s =
  if 8 * zlen (content s) <=? off then Panicked BufferOverwriteError s
  else if off <? 0 then Panicked BufferUnderwriteError s
  else Done tt (with_content s (put_bit (content s) off (bit_result o (bit_at (content s) off)))).
Proof.
  intros W. destruct o; cbn [bit_call bit_result].
  now apply run_SetBit. now apply run_ClearBit. now apply run_FlipBit.
Qed.

Theorem C02_single_bit_writes : forall o s off, WF s ->
  (0 <= off < 8 * zlen (content s) ->
     exists s', run (bit_call o off) s = Done tt s' /\ WF s' /\
       one_bit_set s off (bit_result o (bit_at (content s) off)) s') /\
  (8 * zlen (content s) <= off -> run (bit_call o off) s = Panicked BufferOverwriteError s) /\
  (off < 0 -> run (bit_call o off) s = Panicked BufferUnderwriteError s).
Proof.
  intros o s off W. rewrite run_bit_call by exact W. pose proof (zlen_nonneg (content s)).
  split; [|split]; intro H0.
  - replace (8 * zlen (content s) <=? off) with false by lia. replace (off <? 0) with false by lia.
    eexists. split; [reflexivity|]. split.
    + apply with_content_WF; auto; [apply put_bit_zlen; auto|apply put_bit_bytes; now apply content_bytes].
    + now apply put_bit_one_bit_set.
  - now replace (8 * zlen (content s) <=? off) with true by lia.
  - replace (8 * zlen (content s) <=? off) with false by lia. now replace (off <? 0) with true by lia.
Qed.
Print Assumptions C02_single_bit_writes.

Example C02_case : exists s',
  run (bit_call BFlip 9) ex = Done tt s' /\ content s' = [165; 79; 255; 8] /\ bb s' = bb ex.
Proof. eexists. split; [vm_compute; reflexivity|]. split; reflexivity. Qed.
Example C02_case_hyp : WF ex /\ 0 <= 9 < 8 * zlen (content ex).
Proof. split; [apply ex_WF|vm_compute; auto; split; congruence]. Qed.

(** ** C03 *)

Lemma put_bit_twice l i v w :
  Forall is_byte l -> 0 <= i < 8 * zlen l -> put_bit (put_bit l i v) i w = put_bit l i w.
Proof.
  intros B H. apply bits_ext; rewrite ?put_bit_zlen; rewrite ?put_bit_zlen; auto; try lia;
    try (repeat apply put_bit_bytes; exact B).
  intros j Hj. rewrite !bit_at_put_bit by (rewrite ?put_bit_zlen; lia). now destruct (i =? j).
Qed.
Lemma put_bit_comm l i j v w :
  Forall is_byte l -> 0 <= i < 8 * zlen l -> 0 <= j < 8 * zlen l -> i <> j ->
  put_bit (put_bit l i v) j w = put_bit (put_bit l j w) i v.
Proof.
  intros B H H' N. apply bits_ext; rewrite ?put_bit_zlen; rewrite ?put_bit_zlen; auto; try lia;
    try (repeat apply put_bit_bytes; exact B).
  intros k Hk. rewrite !bit_at_put_bit by (rewrite ?put_bit_zlen; lia).
  destruct (Z.eqb_spec i k), (Z.eqb_spec j k); congruence.
Qed.
Lemma put_bit_same l i :
  Forall is_byte l -> 0 <= i < 8 * zlen l -> put_bit l i (bit_at l i) = l.
Proof.
  intros B H. apply bits_ext; rewrite ?put_bit_zlen; auto. now apply put_bit_bytes.
  intros j Hj. rewrite bit_at_put_bit by lia. destruct (Z.eqb_spec i j); congruence.
Qed.

Lemma run_two_bits a i b j s : WF s -> 0 <= i < 8 * zlen (content s) -> 0 <= j < 8 * zlen (content s) ->
  run (bit_call a i ;; bit_call b j) s =
  let l1 := put_bit (content s) i (bit_result a (bit_at (content s) i)) in
  Done tt (with_content s (put_bit l1 j (bit_result b (bit_at l1 j)))).
Proof.
  intros W Hi Hj. rewrite run_bind, run_bit_call by exact W.
  replace (8 * zlen (content s) <=? i) with false by lia. replace (i <? 0) with false by lia.
  set (l1 := put_bit (content s) i (bit_result a (bit_at (content s) i))).
  assert (L1 : zlen l1 = zlen (content s)) by (apply put_bit_zlen; auto).
  assert (B1 : Forall is_byte l1) by (apply put_bit_bytes; now apply content_bytes).
  rewrite run_bit_call by (now apply with_content_WF).
  rewrite content_with_content by assumption. rewrite L1.
  replace (8 * zlen (content s) <=? j) with false by lia. replace (j <? 0) with false by lia.
  cbn zeta. rewrite with_content_twice; auto. rewrite put_bit_zlen; lia.
Qed.

Lemma run_one_bit a i s : WF s -> 0 <= i < 8 * zlen (content s) ->
  run (bit_call a i) s = Done tt (with_content s (put_bit (content s) i (bit_result a (bit_at (content s) i)))).
Proof.
  intros W Hi. rewrite run_bit_call by exact W.
  replace (8 * zlen (content s) <=? i) with false by lia. now replace (i <? 0) with false by lia.
Qed.

(** Of two SetBit / ClearBit on one offset the later wins; in particular both
    are idempotent. *)
Theorem C03_last_write_wins : forall a b i s, WF s -> 0 <= i < 8 * zlen (content s) ->
  b <> BFlip -> run (bit_call a i ;; bit_call b i) s = run (bit_call b i) s.
Proof.
  intros a b i s W Hi N. rewrite run_two_bits, run_one_bit by assumption. cbn zeta. f_equal. f_equal.
  rewrite put_bit_twice by (auto; now apply content_bytes). destruct b; cbn; congruence.
Qed.
Print Assumptions C03_last_write_wins.

Theorem C03_flip_involution : forall i s, WF s -> 0 <= i < 8 * zlen (content s) ->
  run (V3Buffer.FlipBit i ;; V3Buffer.FlipBit i) s = Done tt s.
Proof.
  intros i s W Hi. change (V3Buffer.FlipBit i) with (bit_call BFlip i).
  rewrite run_two_bits by assumption. cbn zeta. pose proof (content_bytes s W) as B.
  rewrite put_bit_twice by auto. cbn [bit_result]. rewrite bit_at_put_bit by lia. rewrite Z.eqb_refl.
  rewrite negb_involutive, put_bit_same by auto. now rewrite with_content_same.
Qed.
Print Assumptions C03_flip_involution.

Theorem C03_different_bits_commute : forall a b i j s, WF s ->
  0 <= i < 8 * zlen (content s) -> 0 <= j < 8 * zlen (content s) -> i <> j ->
  run (bit_call a i ;; bit_call b j) s = run (bit_call b j ;; bit_call a i) s.
Proof.
  intros a b i j s W Hi Hj N. rewrite !run_two_bits by assumption. cbn zeta.
  pose proof (content_bytes s W) as B. rewrite !bit_at_put_bit by lia.
  destruct (Z.eqb_spec i j); [congruence|]. destruct (Z.eqb_spec j i); [congruence|].
  rewrite put_bit_comm by auto. reflexivity.
Qed.
Print Assumptions C03_different_bits_commute.

Example C03_case :
  run (bit_call BFlip 9 ;; bit_call BSet 12) ex = run (bit_call BSet 12 ;; bit_call BFlip 9) ex /\
  run (V3Buffer.FlipBit 31 ;; V3Buffer.FlipBit 31) ex = Done tt ex /\
  run (bit_call BFlip 9) ex <> Done tt ex.
Proof.
  split; [|split].
  - apply C03_different_bits_commute; try apply ex_WF; try (vm_compute; split; congruence). discriminate.
  - apply C03_flip_involution; [apply ex_WF|vm_compute; split; congruence].
  - vm_compute. discriminate.
Qed.

(** ** C04 *)

(** The number in the [n] bits from [off], as a sum of powers of two. *)
Definition bits_sum (l : list Z) (off n : Z) : Z :=
  fold_right Z.add 0
    (map (fun k => (if bit_at l (off + Z.of_nat k) then 1 else 0) * 2 ^ (n - 1 - Z.of_nat k))
         (seq 0 (Z.to_nat n))).

Lemma fold_add_app a b : fold_right Z.add 0 (a ++ b) = fold_right Z.add 0 a + fold_right Z.add 0 b.
Proof. induction a; cbn; lia. Qed.
Lemma fold_add_double l : fold_right Z.add 0 (map (fun x => 2 * x) l) = 2 * fold_right Z.add 0 l.
Proof. induction l; cbn; lia. Qed.

Lemma bits_num_sum l off n : bits_num l off n = bits_sum l off (Z.of_nat n).
Proof.
  unfold bits_sum. rewrite Nat2Z.id. induction n as [|m IH]; [reflexivity|].
  cbn [bits_num]. rewrite IH, seq_S, map_app, fold_add_app. cbn [map fold_right Nat.add].
  replace (Z.of_nat (S m) - 1 - Z.of_nat m) with 0 by lia.
  replace (map (fun k : nat => (if bit_at l (off + Z.of_nat k) then 1 else 0) * 2 ^ (Z.of_nat (S m) - 1 - Z.of_nat k)) (seq 0 m))
    with (map (fun x => 2 * x) (map (fun k : nat => (if bit_at l (off + Z.of_nat k) then 1 else 0) * 2 ^ (Z.of_nat m - 1 - Z.of_nat k)) (seq 0 m))).
  - rewrite fold_add_double. destruct (bit_at l (off + Z.of_nat m)); cbn [Z.b2z]; change (2 ^ 0) with 1; lia.
  - rewrite map_map. apply map_ext_in. intros k Hk. apply in_seq in Hk.
    replace (Z.of_nat (S m) - 1 - Z.of_nat k) with (1 + (Z.of_nat m - 1 - Z.of_nat k)) by lia.
    rewrite (Z.pow_add_r 2 1) by lia. change (2 ^ 1) with 2. ring.
Qed.

Theorem C04_ReadBits : forall s off n, WF s -> 1 <= n -> 0 <= off -> off + n <= 8 * zlen (content s) ->
  run (V3Buffer.ReadBits off n) s = Done (bits_sum (content s) off n mod 2 ^ 64) s /\
  (n <= 64 -> bits_sum (content s) off n mod 2 ^ 64 = bits_sum (content s) off n) /\
  (64 < n -> bits_sum (content s) off n mod 2 ^ 64 = bits_sum (content s) (off + n - 64) 64).
Proof.
  intros s off n W H1 H2 H3.
  assert (E : bits_sum (content s) off n = bits_num (content s) off (Z.to_nat n)).
  { rewrite bits_num_sum. f_equal. lia. }
  split; [|split].
  - rewrite E. now apply run_ReadBits.
  - intro H. apply Z.mod_small. rewrite E. pose proof (bits_num_range (content s) off (Z.to_nat n)) as R.
    rewrite Z2Nat.id in R by lia. pose proof (Z.pow_le_mono_r 2 n 64). lia.
  - intro H. rewrite E. change 64 with (Z.of_nat 64) at 3. rewrite <- bits_num_sum.
    symmetry. transitivity (bits_num (content s) (off + n - 64) 64).
    { f_equal. }
    apply bits_num_of_testbit. intros k Hk.
    rewrite bits_num_testbit by lia. f_equal. lia.
Qed.
Print Assumptions C04_ReadBits.

Example C04_case :
  run (V3Buffer.ReadBits 4 10) ex = Done 323 ex /\ bits_sum (content ex) 4 10 = 323.
Proof. split; vm_compute; reflexivity. Qed.

(** ** C05 *)

(** The [n] bits from [off] of the content are the [n] low bits of [data], most
    significant first; every other bit and everything else is as before. *)
Definition field_set (s : St) (off data n : Z) (s' : St) : Prop :=
  becomes s (content s') s' /\ zlen (content s') = zlen (content s) /\
  forall j, 0 <= j < 8 * zlen (content s) ->
    bit_at (content s') j =
    if (off <=? j) && (j <? off + n) then Z.testbit data (n - 1 - (j - off)) else bit_at (content s) j.

Lemma put_bits_field_set s off data n m :
  WF s -> 0 <= off -> 0 <= m -> off + m <= 8 * zlen (content s) ->
  let s' := with_content s (put_bits (content s) off (field_bit data n) (Z.to_nat m)) in
  becomes s (content s') s' /\ zlen (content s') = zlen (content s) /\
  forall j, 0 <= j < 8 * zlen (content s) ->
    bit_at (content s') j =
    if (off <=? j) && (j <? off + m) then Z.testbit data (n - 1 - (j - off)) else bit_at (content s) j.
Proof.
  intros W H1 H2 H3 s'. assert (L : off + Z.of_nat (Z.to_nat m) <= 8 * zlen (content s)) by lia.
  destruct (put_bits_WF s off (field_bit data n) (Z.to_nat m) W H1 L) as (W' & C' & Z').
  unfold s'. rewrite C'. split; [|split]; auto. now apply with_content_becomes.
  intros j Hj. rewrite bit_at_put_bits by lia. rewrite Z2Nat.id by lia. reflexivity.
Qed.

Theorem C05_SetBits : forall s off data n, WF s -> is_u64 data ->
  1 <= n -> 0 <= off -> off + n <= 8 * zlen (content s) ->
  exists s', run (V3Buffer.SetBits off data n) s = Done tt s' /\ WF s' /\ field_set s off data n s'.
Proof.
  intros s off data n W Hd H1 H2 H3. eexists. split; [now apply run_SetBits|]. split.
  - apply put_bits_WF; auto; lia.
  - apply put_bits_field_set; auto; lia.
Qed.
Print Assumptions C05_SetBits.

Example C05_case : exists s',
  run (V3Buffer.SetBits 6 683 10) ex = Done tt s' /\ content s' = [166; 171; 255; 8] /\ field_set ex 6 683 10 s'.
Proof.
  destruct (C05_SetBits ex 6 683 10 ex_WF ltac:(hyp) ltac:(hyp) ltac:(hyp) ltac:(hyp)) as (s' & E & _ & F).
  exists s'. split; [exact E|]. split; [|exact F]. vm_compute in E. inversion E. reflexivity.
Qed.

(** ** C06 *)

Theorem C06_SetBits_ReadBits : forall s off data n, WF s -> is_u64 data ->
  1 <= n -> 0 <= off -> off + n <= 8 * zlen (content s) ->
  exists s', run (V3Buffer.SetBits off data n) s = Done tt s' /\
    run (V3Buffer.ReadBits off n) s' = Done (data mod 2 ^ n) s'.
Proof.
  intros s off data n W Hd H1 H2 H3. eexists. split; [now apply run_SetBits|].
  assert (L : off + Z.of_nat (Z.to_nat n) <= 8 * zlen (content s)) by lia.
  destruct (put_bits_WF s off (field_bit data n) (Z.to_nat n) W H2 L) as (W' & C' & Z').
  rewrite run_ReadBits by (rewrite ?C', ?Z'; auto). f_equal. rewrite C'.
  rewrite (bits_num_of_testbit _ _ _ data).
  - rewrite Z2Nat.id by lia. unfold is_u64 in Hd.
    apply Z.mod_small. pose proof (Z.mod_pos_bound data (2 ^ n)). pose proof (Z.mod_le data (2 ^ n)).
    pose proof (Z.pow_pos_nonneg 2 n). lia.
  - intros k Hk. rewrite bit_at_put_bits by lia.
    replace ((off <=? off + k) && (off + k <? off + Z.of_nat (Z.to_nat n))) with true by lia.
    unfold field_bit. f_equal. lia.
Qed.
Print Assumptions C06_SetBits_ReadBits.

(** A number that fits in 64 bits is its own remainder for n >= 64. *)
Theorem C06_wide_fields : forall data n, is_u64 data -> 64 <= n -> data mod 2 ^ n = data.
Proof.
  intros data n H Hn. unfold is_u64 in H. apply Z.mod_small.
  pose proof (Z.pow_le_mono_r 2 64 n). lia.
Qed.
Print Assumptions C06_wide_fields.

Theorem C06_ReadBits_SetBits : forall s off n, WF s -> 1 <= n <= 64 -> 0 <= off -> off + n <= 8 * zlen (content s) ->
  exists v, run (V3Buffer.ReadBits off n) s = Done v s /\ run (V3Buffer.SetBits off v n) s = Done tt s.
Proof.
  intros s off n W H1 H2 H3. eexists. split; [apply run_ReadBits; auto; lia|].
  pose proof (bits_num_range (content s) off (Z.to_nat n)) as R. rewrite Z2Nat.id in R by lia.
  pose proof (Z.pow_le_mono_r 2 n 64).
  rewrite (Z.mod_small (bits_num _ _ _)) by lia.
  assert (L : off + Z.of_nat (Z.to_nat n) <= 8 * zlen (content s)) by lia.
  set (v := bits_num (content s) off (Z.to_nat n)) in *.
  destruct (put_bits_WF s off (field_bit v n) (Z.to_nat n) W H2 L) as (W' & C' & Z').
  rewrite run_SetBits by (auto; unfold is_u64; lia). f_equal.
  rewrite <- with_content_same by exact W. f_equal.
  apply bits_ext; auto; [rewrite <- C' at 1; now apply content_bytes|now apply content_bytes|].
  intros j Hj. rewrite bit_at_put_bits by lia.
  destruct ((off <=? j) && (j <? off + Z.of_nat (Z.to_nat n))) eqn:E; [|reflexivity].
  unfold field_bit, v. rewrite bits_num_testbit by lia. f_equal. lia.
Qed.
Print Assumptions C06_ReadBits_SetBits.

Example C06_case : exists s',
  run (V3Buffer.SetBits 6 683 10) ex = Done tt s' /\ run (V3Buffer.ReadBits 6 10) s' = Done 683 s'.
Proof.
  apply (C06_SetBits_ReadBits ex 6 683 10 ex_WF); hyp.
Qed.

(** ** C07 *)

Theorem C07_SetBits_overrun : forall s off data n, WF s -> is_u64 data -> is_i64 n ->
  0 <= off < 8 * zlen (content s) -> 8 * zlen (content s) < off + n ->
  exists s', run (V3Buffer.SetBits off data n) s = Panicked BufferOverwriteError s' /\
    becomes s (content s') s' /\ zlen (content s') = zlen (content s) /\
    forall j, 0 <= j < 8 * zlen (content s) ->
      bit_at (content s') j =
      if off <=? j then Z.testbit data (n - 1 - (j - off)) else bit_at (content s) j.
Proof.
  intros s off data n W Hd Hn H1 H2. eexists.
  split; [apply run_SetBits_overrun; auto; unfold is_i64 in Hn; lia|].
  destruct (put_bits_field_set s off data n (8 * zlen (content s) - off) W) as (A & B & C); try lia.
  split; [exact A|]. split; [exact B|]. intros j Hj. rewrite C by exact Hj.
  replace (j <? off + (8 * zlen (content s) - off)) with true by lia. now rewrite andb_true_r.
Qed.
Print Assumptions C07_SetBits_overrun.

Theorem C07_ReadBits_overrun : forall s off n, WF s -> is_i64 n ->
  0 <= off < 8 * zlen (content s) -> 8 * zlen (content s) < off + n ->
  run (V3Buffer.ReadBits off n) s = Panicked BufferOverreadError s.
Proof. intros. apply run_ReadBits_overrun; auto. unfold is_i64 in *; lia. Qed.
Print Assumptions C07_ReadBits_overrun.

(** SetBits is therefore not atomic: a failing call can change the content. *)
Theorem C07_SetBits_atomic_refuted :
  ~ (forall s off data n e s', WF s -> is_u64 data -> is_i64 n -> is_i64 off ->
       run (V3Buffer.SetBits off data n) s = Panicked e s' -> content s' = content s).
Proof.
  intro H.
  assert (E : run (V3Buffer.SetBits 28 255 8) ex = Panicked BufferOverwriteError
                (with_content ex [165; 15; 255; 15])) by (vm_compute; reflexivity).
  specialize (H ex 28 255 8 _ _ ex_WF ltac:(hyp) ltac:(hyp) ltac:(hyp) E). discriminate H.
Qed.
Print Assumptions C07_SetBits_atomic_refuted.

(** ** C08 *)

Theorem C08_nonpositive_counts : forall s off data n, WF s -> is_u64 data -> is_i64 n -> n <= 0 ->
  0 <= off < 8 * zlen (content s) ->
  run (V3Buffer.ReadBits off n) s = Done (if bit_at (content s) off then 1 else 0) s /\
  exists s', run (V3Buffer.SetBits off data n) s = Done tt s' /\ one_bit_set s off false s'.
Proof.
  intros s off data n W Hd Hn Hn0 H. split.
  - rewrite run_ReadBits_nonpos by auto. destruct (bit_at _ _); reflexivity.
  - eexists. split; [now apply run_SetBits_nonpos|]. now apply put_bit_one_bit_set.
Qed.
Print Assumptions C08_nonpositive_counts.

Theorem C08_zero_count_noop_refuted :
  ~ (forall s off, WF s -> 0 <= off < 8 * zlen (content s) -> run (V3Buffer.ReadBits off 0) s = Done 0 s) /\
  ~ (forall s off data, WF s -> is_u64 data -> 0 <= off < 8 * zlen (content s) ->
       run (V3Buffer.SetBits off data 0) s = Done tt s).
Proof.
  split; intro H.
  - specialize (H ex 0 ex_WF ltac:(vm_compute; split; congruence)). vm_compute in H. discriminate.
  - specialize (H ex 0 1 ex_WF ltac:(vm_compute; split; congruence) ltac:(vm_compute; split; congruence)).
    vm_compute in H. discriminate.
Qed.
Print Assumptions C08_zero_count_noop_refuted.

(** ** C09 *)

(** Every byte [b] of the content has become [f b]; nothing else has changed. *)
Definition every_byte (f : Z -> Z) (s s' : St) : Prop :=
  becomes s (content s') s' /\ zlen (content s') = zlen (content s) /\
  forall i, 0 <= i < zlen (content s) -> byte_at (content s') i = f (byte_at (content s) i).

Lemma with_map_every_byte s f g :
  WF s -> (forall x, is_byte x -> g x = f x) -> every_byte f s (with_content s (map g (content s))).
Proof.
  intros W H. unfold every_byte. rewrite content_with_content by (auto; apply zlen_map).
  split; [|split]. apply with_content_becomes; auto. apply zlen_map. apply zlen_map.
  intros i Hi. rewrite <- H by (apply byte_at_is_byte; now apply content_bytes).
  unfold byte_at. rewrite <- (map_nth g). apply nth_indep. rewrite map_length. unfold zlen in Hi. lia.
Qed.

Theorem C09_all_bits : forall s, WF s -> content s <> [] ->
  (exists s', run V3Buffer.ClearAllBits s = Done tt s' /\ every_byte (fun _ => 0) s s') /\
  (exists s', run V3Buffer.SetAllBits s = Done tt s' /\ every_byte (fun _ => 255) s s') /\
  (exists s', run V3Buffer.FlipAllBits s = Done tt s' /\ every_byte (fun b => 255 - b) s s').
Proof.
  intros s W H. assert (1 <= zlen (content s)).
  { destruct (content s); [congruence|]. rewrite zlen_cons. pose proof (zlen_nonneg l). lia. }
  split; [|split]; eexists.
  - split; [now apply run_ClearAllBits|]. now apply with_map_every_byte.
  - split; [now apply run_SetAllBits|]. now apply with_map_every_byte.
  - split; [now apply run_FlipAllBits|]. apply with_map_every_byte; auto. apply not8_sub.
Qed.
Print Assumptions C09_all_bits.

Theorem C09_flip_all_involution : forall s, WF s -> content s <> [] ->
  run (V3Buffer.FlipAllBits ;; V3Buffer.FlipAllBits) s = Done tt s.
Proof.
  intros s W H. assert (1 <= zlen (content s)).
  { destruct (content s); [congruence|]. rewrite zlen_cons. pose proof (zlen_nonneg l). lia. }
  pose proof (content_bytes s W) as B.
  assert (B1 : Forall is_byte (map not8 (content s))).
  { apply Forall_forall. intros x Hx. apply in_map_iff in Hx. destruct Hx as (y & <- & Hy).
    apply not8_byte. rewrite Forall_forall in B. auto. }
  rewrite run_bind, run_FlipAllBits by auto.
  rewrite run_FlipAllBits.
  - rewrite content_with_content, with_content_twice by (rewrite ?zlen_map; auto).
    rewrite map_map. rewrite (map_ext_in _ (fun x => x)).
    + now rewrite map_id, with_content_same.
    + intros x Hx. rewrite Forall_forall in B. pose proof (B x Hx) as Bx.
      rewrite !not8_sub by (try apply not8_byte; auto). lia.
  - apply with_content_WF; auto. apply zlen_map.
  - rewrite content_with_content; rewrite ?zlen_map; auto.
Qed.
Print Assumptions C09_flip_all_involution.

Theorem C09_empty : forall s, WF s -> content s = [] ->
  run V3Buffer.ClearAllBits s = Panicked (RuntimeError IndexOutOfRange) s /\
  run V3Buffer.SetAllBits s = Panicked (RuntimeError IndexOutOfRange) s /\
  run V3Buffer.FlipAllBits s = Panicked (RuntimeError IndexOutOfRange) s.
Proof. exact run_AllBits_empty. Qed.
Print Assumptions C09_empty.

Example C09_case : content ex <> [] /\ content ex_empty = [] /\
  exists s', run V3Buffer.FlipAllBits ex = Done tt s' /\ content s' = [90; 240; 0; 247].
Proof. split; [discriminate|]. split; [reflexivity|]. eexists. split; vm_compute; reflexivity. Qed.

(** ** C54 *)

Lemma bits_num_app l i n m :
  bits_num l i (n + m) = bits_num l i n * 2 ^ Z.of_nat m + bits_num l (i + Z.of_nat n) m.
Proof.
  induction m as [|m IH].
  - rewrite Nat.add_0_r. change (bits_num l (i + Z.of_nat n) 0) with 0. change (2 ^ Z.of_nat 0) with 1. ring.
  - rewrite Nat.add_succ_r. cbn [bits_num]. rewrite IH.
    replace (Z.of_nat (S m)) with (1 + Z.of_nat m) by lia. rewrite (Z.pow_add_r 2 1) by lia.
    change (2 ^ 1) with 2. replace (i + Z.of_nat (n + m)) with (i + Z.of_nat n + Z.of_nat m) by lia. ring.
Qed.

Lemma bits_num_byte l i : Forall is_byte l -> 0 <= i -> bits_num l (8 * i) 8 = byte_at l i.
Proof.
  intros B Hi. rewrite (bits_num_of_testbit l (8 * i) 8 (byte_at l i)).
  - apply Z.mod_small. apply (byte_at_is_byte l i B).
  - intros k Hk. change (Z.of_nat 8) with 8 in *. unfold bit_at.
    replace ((8 * i + k) / 8) with i by lia. replace ((8 * i + k) mod 8) with k by lia. f_equal; lia.
Qed.

(** [8k] bits from a byte boundary are the big-endian number of [k] bytes. *)
Lemma bits_num_bytes l off k :
  Forall is_byte l -> 0 <= off -> off + Z.of_nat k <= zlen l ->
  bits_num l (8 * off) (8 * k) = le_num (rev (sub l off (Z.of_nat k))).
Proof.
  intros B H1. induction k as [|k IH]; intro H2.
  - reflexivity.
  - replace (8 * S k)%nat with (8 * k + 8)%nat by lia. rewrite bits_num_app.
    rewrite IH by lia. replace (8 * off + Z.of_nat (8 * k)) with (8 * (off + Z.of_nat k)) by lia.
    rewrite bits_num_byte by (auto; lia).
    replace (Z.of_nat (S k)) with (Z.of_nat k + 1) by lia. rewrite sub_app_split by lia.
    rewrite sub_one by lia. rewrite rev_app_distr. cbn [rev app le_num]. change (2 ^ Z.of_nat 8) with 256. lia.
Qed.

Lemma decode_mod t l :
  Forall is_byte l -> zlen l = tsize t -> ty_endian t = BE ->
  le_num (rev l) = decode t l mod 2 ^ (8 * tsize t).
Proof.
  intros B L E. unfold decode. rewrite E.
  pose proof (le_num_range (rev l)) as R. rewrite zlen_rev, L, pow256 in R by (pose proof (tsize_pos t); lia).
  specialize (R ltac:(apply Forall_rev; exact B)).
  destruct (ty_sign t); try (now rewrite Z.mod_small).
  destruct (_ <? _); [now rewrite Z.mod_small|].
  replace (le_num (rev l) - 2 ^ (8 * tsize t)) with (le_num (rev l) + (-1) * 2 ^ (8 * tsize t)) by ring.
  rewrite Z_mod_plus_full. now rewrite Z.mod_small.
Qed.

(** Reading one value of a big-endian format at byte [off], and reading as many
    bits at bit [8*off], give the same number (modulo the width, for the signed
    formats; equal for the others). *)
Theorem C54_ReadBits_is_big_endian_read : forall t s off, WF s -> ty_endian t = BE ->
  0 <= off -> off + tsize t <= zlen (content s) ->
  exists x, run (ReadT t off 1) s = Done [x] s /\
    run (V3Buffer.ReadBits (8 * off) (8 * tsize t)) s = Done (x mod 2 ^ (8 * tsize t)) s /\
    (ty_sign t <> Signed -> x mod 2 ^ (8 * tsize t) = x).
Proof.
  intros t s off W E H1 H2. pose proof (tsize_pos t) as T. pose proof (content_bytes s W) as B.
  pose proof (content_max s W) as CM. pose proof max_alloc_val as MV.
  assert (Hs : zlen (sub (content s) off (tsize t)) = tsize t) by (apply sub_length; lia).
  assert (Hb : Forall is_byte (sub (content s) off (tsize t))) by (now apply Forall_sub).
  exists (decode t (sub (content s) off (tsize t))). split; [|split].
  - rewrite run_ReadT_ok; auto; try lia. unfold is_i64; lia.
  - rewrite run_ReadBits by (auto; lia). f_equal.
    replace (Z.to_nat (8 * tsize t)) with (8 * ty_bytes t)%nat by (unfold tsize; lia).
    rewrite bits_num_bytes by (auto; unfold tsize in *; lia). fold (tsize t).
    rewrite (decode_mod t) by auto. apply Z.mod_small.
    pose proof (Z.mod_pos_bound (decode t (sub (content s) off (tsize t))) (2 ^ (8 * tsize t))).
    pose proof (Z.pow_le_mono_r 2 (8 * tsize t) 64). lia.
  - intro NS. pose proof (decode_in_format t _ Hb Hs) as F. unfold in_format in F.
    apply Z.mod_small. destruct (ty_sign t); auto. congruence.
Qed.
Print Assumptions C54_ReadBits_is_big_endian_read.

Lemma bit_at_put_out l off d j :
  0 <= off -> off + zlen d <= zlen l -> 0 <= j -> ~ (8 * off <= j < 8 * (off + zlen d)) ->
  bit_at (put l off d) j = bit_at l j.
Proof.
  intros H1 H2 H3 H4. unfold bit_at. rewrite byte_at_put by lia.
  replace ((off <=? j / 8) && (j / 8 <? off + zlen d)) with false by lia. reflexivity.
Qed.

(** Writing one value in a big-endian format at byte [off] has exactly the effect
    of writing its low bits as a bit field at bit [8*off]. *)
Theorem C54_SetBits_is_big_endian_write : forall t s off x, WF s -> ty_endian t = BE ->
  0 <= off -> off + tsize t <= zlen (content s) ->
  run (V3Buffer.SetBits (8 * off) (x mod 2 ^ 64) (8 * tsize t)) s = run (WriteT t off [x]) s /\
  exists s', run (WriteT t off [x]) s = Done tt s'.
Proof.
  intros t s off x W E H1 H2. pose proof (tsize_pos t) as T. pose proof (content_bytes s W) as B.
  pose proof (content_max s W) as CM. pose proof max_alloc_val as MV.
  assert (Hx : 0 <= x mod 2 ^ 64 < 2 ^ 64) by (apply Z.mod_pos_bound; lia).
  assert (Z1 : zlen [x] = 1) by reflexivity.
  assert (RW : run (WriteT t off [x]) s = Done tt (with_content s (put (content s) off (encode t x)))).
  { rewrite run_WriteT; auto; [|unfold wf_data; lia|unfold is_i64; lia].
    rewrite Z1. replace (zlen (content s) <? off + 1 * tsize t) with false by lia.
    replace (off <? 0) with false by lia. change (1 =? 0) with false. cbv iota.
    cbn [encode_all flat_map]. now rewrite app_nil_r. }
  split; [|eauto].
  rewrite RW, run_SetBits by (auto; try (unfold is_u64; lia); lia). f_equal. f_equal.
  pose proof (encode_zlen t x) as EZ. pose proof (encode_bytes t x) as EB.
  assert (PZ : zlen (put (content s) off (encode t x)) = zlen (content s)) by (apply put_length; lia).
  assert (PB : Forall is_byte (put (content s) off (encode t x))) by (now apply Forall_put).
  assert (L : 8 * off + Z.of_nat (Z.to_nat (8 * tsize t)) <= 8 * zlen (content s)) by lia.
  apply bits_ext; auto.
  - rewrite put_bits_zlen by lia. lia.
  - now apply put_bits_bytes.
  - rewrite put_bits_zlen by lia. intros j Hj. rewrite bit_at_put_bits by lia.
    rewrite Z2Nat.id by lia.
    destruct ((8 * off <=? j) && (j <? 8 * off + 8 * tsize t)) eqn:Ej.
    + unfold field_bit.
      assert (N : bits_num (put (content s) off (encode t x)) (8 * off) (8 * ty_bytes t) = x mod 2 ^ (8 * tsize t)).
      { rewrite bits_num_bytes; auto; [|fold (tsize t); lia]. fold (tsize t).
        rewrite sub_put_same by lia. unfold encode. rewrite E, rev_involutive, le_num_bytes.
        fold (tsize t). now rewrite pow256 by lia. }
      pose proof (bits_num_testbit (put (content s) off (encode t x)) (8 * off) (8 * ty_bytes t)
                   (8 * tsize t - 1 - (j - 8 * off))) as TB.
      rewrite N in TB. replace (Z.of_nat (8 * ty_bytes t)) with (8 * tsize t) in TB by (unfold tsize; lia).
      specialize (TB ltac:(lia)).
      replace (8 * off + (8 * tsize t - 1 - (8 * tsize t - 1 - (j - 8 * off)))) with j in TB by lia.
      rewrite <- TB. rewrite !Z.mod_pow2_bits_low by lia. reflexivity.
    + symmetry. apply bit_at_put_out; lia.
Qed.
Print Assumptions C54_SetBits_is_big_endian_write.

Example C54_case :
  run (ReadT U32BE 0 1) ex = Done [2769288968] ex /\
  run (V3Buffer.ReadBits 0 32) ex = Done 2769288968 ex /\
  run (ReadT I16BE 0 1) ex = Done [-23281] ex /\
  run (V3Buffer.SetBits 8 (-2 mod 2 ^ 64) 16) ex = run (WriteT I16BE 1 [-2]) ex.
Proof. repeat split; vm_compute; reflexivity. Qed.
