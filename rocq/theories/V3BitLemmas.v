(** * V3BitLemmas: the bit methods of v3 evaluated on well-formed states. *)
From Coq Require Import ZArith List Bool Lia ZifyBool.
From Verif Require Import GoSem Errors Spec GoLemmas BitLemmas.
From Verif Require V3Buffer V3Mini.
Import ListNotations.
Open Scope Z_scope.

Lemma shift_read off :
  0 <= off -> uconv 64 (7 - uconv 64 (rem off 8)) = 7 - off mod 8.
Proof.
  intro H. rewrite rem_nonneg by auto. unfold uconv.
  rewrite (Z.mod_small (off mod 8)) by lia. apply Z.mod_small. lia.
Qed.

Lemma shift_write off :
  0 <= off -> uconv 64 (7 -! rem off 8) = 7 - off mod 8.
Proof.
  intro H. rewrite rem_nonneg by auto. unfold uconv.
  rewrite sub64_id by (unfold is_i64; lia). apply Z.mod_small. lia.
Qed.

Lemma ushl8_1 k : 0 <= k < 8 -> ushl 8 1 k = 2 ^ k.
Proof.
  intro H. unfold ushl. replace (k <? 8) with true by lia.
  rewrite Z.shiftl_mul_pow2, Z.mul_1_l by lia. apply uconv_id.
  split. apply Z.pow_nonneg; lia. apply Z.pow_lt_mono_r; lia.
Qed.

Lemma shr8_read v k : 0 <= k < 8 -> Z.land (shr 8 v k) 1 = Z.b2z (Z.testbit v k).
Proof.
  intro H. unfold shr. replace (k <? 8) with true by lia. apply land1_b2z. lia.
Qed.

Lemma not8_bits v k : 0 <= k < 8 -> Z.testbit (not8 v) k = negb (Z.testbit v k).
Proof.
  intro H. unfold not8. rewrite Z.lxor_spec. change 255 with (Z.ones 8).
  rewrite Z.ones_spec_low by lia. apply xorb_true_r.
Qed.

Lemma not8_byte v : is_byte v -> is_byte (not8 v).
Proof.
  intro H. apply bits_is_byte. intros j Hj. unfold not8. rewrite Z.lxor_spec.
  change 255 with (Z.ones 8). rewrite Z.ones_spec_high by lia. rewrite is_byte_bits; auto.
Qed.

Lemma lor_setbit v k : 0 <= k -> Z.lor v (2 ^ k) = Z.setbit v k.
Proof. intro. unfold Z.setbit. rewrite Z.shiftl_mul_pow2, Z.mul_1_l by lia. auto. Qed.

Lemma land_clearbit v k : is_byte v -> 0 <= k < 8 -> Z.land v (not8 (2 ^ k)) = Z.clearbit v k.
Proof.
  intros Hv Hk. apply Z.bits_inj'. intros j Hj. rewrite Z.land_spec, Z.clearbit_eqb.
  destruct (Z.lt_ge_cases j 8).
  - rewrite not8_bits, Z.pow2_bits_eqb by lia. reflexivity.
  - rewrite (is_byte_bits v Hv j) by lia. reflexivity.
Qed.

Section bits.
Variable s : St.
Hypothesis W : WF s.
Let l := content s.

Lemma off_in off : 0 <= off < 8 * zlen l -> 0 <= quo off 8 < zlen l.
Proof. intro. rewrite quo_nonneg by lia. lia. Qed.

Lemma mini_ReadBit off :
  0 <= off < 8 * zlen l -> run (V3Mini.ReadBit off) s = Done (Z.b2z (bit_at l off)) s.
Proof.
  intro H. unfold V3Mini.ReadBit. rewrite run_bind, run_buf_get by (auto using off_in).
  simpl. rewrite shift_read by lia. rewrite shr8_read by lia. rewrite quo_nonneg by lia. reflexivity.
Qed.

Lemma mini_SetBit off :
  0 <= off < 8 * zlen l -> run (V3Mini.SetBit off) s = Done tt (with_content s (put_bit l off true)).
Proof.
  intro H. unfold V3Mini.SetBit. rewrite run_bind, run_buf_get by (auto using off_in).
  rewrite run_buf_set by (auto using off_in).
  rewrite shift_write, ushl8_1, lor_setbit, quo_nonneg by lia. reflexivity.
Qed.

Lemma mini_ClearBit off :
  0 <= off < 8 * zlen l -> run (V3Mini.ClearBit off) s = Done tt (with_content s (put_bit l off false)).
Proof.
  intro H. unfold V3Mini.ClearBit. rewrite run_bind, run_buf_get by (auto using off_in).
  rewrite run_buf_set by (auto using off_in).
  rewrite shift_write, ushl8_1, quo_nonneg by lia.
  rewrite land_clearbit by (try apply byte_at_is_byte; try apply content_bytes; auto; lia). reflexivity.
Qed.

Lemma mini_FlipBit off :
  0 <= off < 8 * zlen l -> run (V3Mini.FlipBit off) s = Done tt (with_content s (flip_bit l off)).
Proof.
  intro H. unfold V3Mini.FlipBit. rewrite run_bind, run_buf_get by (auto using off_in).
  rewrite run_buf_set by (auto using off_in).
  rewrite shift_write, ushl8_1, quo_nonneg by lia.
  rewrite flip_bit_eq by (auto; apply content_bytes; auto). reflexivity.
Qed.

Lemma check_bit off {A} (e1 e2 : err) (k : prog A) :
  run (bind (get FBcap) (fun bcap => bind (panic_if (off >? bcap -! 1) e1)
         (fun _ => bind (panic_if (off <? 0) e2) (fun _ => k)))) s =
  if 8 * zlen l <=? off then Panicked e1 s
  else if off <? 0 then Panicked e2 s else run k s.
Proof.
  cbn [get bind run get_fld]. rewrite bcap_is by auto. fold l.
  pose proof (content_max s W). fold l in H. pose proof (zlen_nonneg l).
  assert (maxAlloc = 281474976710656) by reflexivity.
  rewrite sub64_id by (unfold is_i64; lia).
  rewrite run_panic_if_bind.
  replace (off >? 8 * zlen l - 1) with (8 * zlen l <=? off) by lia.
  destruct (8 * zlen l <=? off); auto.
  rewrite run_panic_if_bind. destruct (off <? 0); auto.
Qed.

Lemma run_ReadBit off :
  run (V3Buffer.ReadBit off) s =
  if 8 * zlen l <=? off then Panicked BufferOverreadError s
  else if off <? 0 then Panicked BufferUnderreadError s
  else Done (Z.b2z (bit_at l off)) s.
Proof.
  unfold V3Buffer.ReadBit. rewrite check_bit.
  destruct (Z.leb_spec (8 * zlen l) off); auto. destruct (Z.ltb_spec off 0); auto.
  apply (mini_ReadBit off). lia.
Qed.

Lemma run_SetBit off :
  run (V3Buffer.SetBit off) s =
  if 8 * zlen l <=? off then Panicked BufferOverwriteError s
  else if off <? 0 then Panicked BufferUnderwriteError s
  else Done tt (with_content s (put_bit l off true)).
Proof.
  unfold V3Buffer.SetBit. rewrite check_bit.
  destruct (Z.leb_spec (8 * zlen l) off); auto. destruct (Z.ltb_spec off 0); auto.
  apply (mini_SetBit off). lia.
Qed.

Lemma run_ClearBit off :
  run (V3Buffer.ClearBit off) s =
  if 8 * zlen l <=? off then Panicked BufferOverwriteError s
  else if off <? 0 then Panicked BufferUnderwriteError s
  else Done tt (with_content s (put_bit l off false)).
Proof.
  unfold V3Buffer.ClearBit. rewrite check_bit.
  destruct (Z.leb_spec (8 * zlen l) off); auto. destruct (Z.ltb_spec off 0); auto.
  apply (mini_ClearBit off). lia.
Qed.

Lemma run_FlipBit off :
  run (V3Buffer.FlipBit off) s =
  if 8 * zlen l <=? off then Panicked BufferOverwriteError s
  else if off <? 0 then Panicked BufferUnderwriteError s
  else Done tt (with_content s (flip_bit l off)).
Proof.
  unfold V3Buffer.FlipBit. rewrite check_bit.
  destruct (Z.leb_spec (8 * zlen l) off); auto. destruct (Z.ltb_spec off 0); auto.
  apply (mini_FlipBit off). lia.
Qed.

End bits.

(** ** Loops over bits *)

(** One Horner step on a 64-bit accumulator. *)
Lemma horner64 x b : Z.lor (ushl 64 (x mod 2 ^ 64) 1) (Z.b2z b) = (2 * x + Z.b2z b) mod 2 ^ 64.
Proof.
  unfold ushl, uconv. replace (1 <? 64) with true by lia.
  rewrite Z.shiftl_mul_pow2 by lia. change (2 ^ 1) with 2.
  assert (E : (x mod 2 ^ 64 * 2) mod 2 ^ 64 = 2 * (x mod 2 ^ 63)) by lia.
  rewrite E.
  assert (F : (2 * x + Z.b2z b) mod 2 ^ 64 = 2 * (x mod 2 ^ 63) + Z.b2z b).
  { destruct b; simpl Z.b2z; lia. }
  rewrite F. apply Z.bits_inj'. intros j Hj. rewrite Z.lor_spec.
  destruct (Z.eq_dec j 0) as [->|].
  - rewrite Z.testbit_even_0, Z.b2z_bit0, Z.add_comm, Z.add_b2z_double_bit0. reflexivity.
  - replace j with (Z.succ (j - 1)) by lia.
    rewrite Z.testbit_even_succ, Z.testbit_succ_r by lia.
    replace (Z.testbit (Z.b2z b) (Z.succ (j - 1))) with false. apply orb_false_r.
    symmetry. destruct b; [|apply Z.bits_0]. simpl Z.b2z. rewrite <- (Z.pow_0_r 2) at 1.
    apply Z.pow2_bits_false. lia.
Qed.

Lemma max_alloc_val : maxAlloc = 281474976710656.
Proof. reflexivity. Qed.

Lemma run_ReadBits s off n :
  WF s -> 1 <= n -> 0 <= off -> off + n <= 8 * zlen (content s) ->
  run (V3Buffer.ReadBits off n) s =
  Done (bits_num (content s) off (Z.to_nat n) mod 2 ^ 64) s.
Proof.
  intros W Hn Ho Hl. pose proof (content_max s W) as M. rewrite max_alloc_val in M.
  unfold V3Buffer.ReadBits.
  edestruct (goto_loop_inv
     (fun i out s' => s' = s /\ out = bits_num (content s) off (Z.to_nat i) mod 2 ^ 64))
    as (acc & s' & Hr & -> & ->).
  4: { rewrite Hr. rewrite Z.max_r by lia. reflexivity. }
  - lia.
  - intros i acc s0 Hi (-> & ->).
    eexists _, _. split; [|split; [reflexivity|]].
    + rewrite run_bind, run_ReadBit by auto. rewrite add64_id by (unfold is_i64; lia).
      replace (8 * zlen (content s) <=? off + i) with false by lia.
      replace (off + i <? 0) with false by lia. reflexivity.
    + rewrite horner64. replace (Z.to_nat (i + 1)) with (S (Z.to_nat i)) by lia.
      simpl bits_num. rewrite Z2Nat.id by lia. reflexivity.
  - split; auto.
Qed.

(** The accumulating MiniBuffer variant. *)
Lemma mini_ReadBits s off n x :
  WF s -> 1 <= n -> 0 <= off -> off + n <= 8 * zlen (content s) -> outs s = [x] -> 0 <= x < 2 ^ 64 ->
  run (V3Mini.ReadBits off n) s =
  Done tt (set_outs s [(x * 2 ^ n + bits_num (content s) off (Z.to_nat n)) mod 2 ^ 64]).
Proof.
  intros W Hn Ho Hl Hx Hx2. pose proof (content_max s W) as M. rewrite max_alloc_val in M.
  unfold V3Mini.ReadBits.
  edestruct (goto_loop_inv
     (fun i (_ : unit) s' => s' = set_outs s [(x * 2 ^ i + bits_num (content s) off (Z.to_nat i)) mod 2 ^ 64]))
    as (acc & s' & Hr & ->).
  4: { rewrite Hr. destruct acc. rewrite Z.max_r by lia. reflexivity. }
  - lia.
  - intros i acc s0 Hi ->.
    eexists _, _. split.
    + rewrite run_bind.
      assert (W' : forall o, WF (set_outs s o)) by (intro; destruct W; constructor; auto).
      rewrite mini_ReadBit; [| apply W' | ].
      2: { rewrite add64_id by (unfold is_i64; lia). unfold content in *. simpl. lia. }
      simpl. reflexivity.
    + simpl. unfold set_outs; simpl. f_equal. f_equal.
      rewrite horner64. replace (Z.to_nat (i + 1)) with (S (Z.to_nat i)) by lia.
      simpl bits_num. rewrite Z2Nat.id by lia. rewrite add64_id by (unfold is_i64; lia).
      rewrite Z.pow_add_r by lia. change (2 ^ 1) with 2.
      unfold content at 2. simpl. fold (content s). f_equal. ring_simplify. reflexivity.
  - destruct s as [h b m o]; simpl in *. unfold set_outs; simpl. f_equal. subst o. f_equal.
    change (Z.to_nat 0) with O. simpl bits_num. rewrite Z.pow_0_r. rewrite Z.mod_small; lia.
Qed.

(** *** SetBits *)

Lemma setbits_sel data n i :
  is_u64 data -> 0 <= i < n -> n < 2 ^ 63 ->
  (byte (Z.land (shr 64 data (uconv 64 (n -! i -! 1))) 1) =? 0) = negb (Z.testbit data (n - 1 - i)).
Proof.
  intros Hd Hi Hn. rewrite (sub64_id n i) by (unfold is_i64; lia).
  rewrite sub64_id by (unfold is_i64; lia). rewrite uconv_id by lia.
  unfold shr. destruct (Z.ltb_spec (n - i - 1) 64).
  - rewrite land1_b2z by lia. replace (n - i - 1) with (n - 1 - i) by lia.
    destruct (Z.testbit data (n - 1 - i)); reflexivity.
  - unfold is_u64 in Hd. replace (data <? 0) with false by lia.
    rewrite <- (Z.mod_small data (2 ^ 64)) by lia.
    rewrite Z.mod_pow2_bits_high by lia. reflexivity.
Qed.

Lemma setbits_step (SB CB : Z -> prog unit) s off data n i :
  WF s -> is_u64 data -> 0 <= i < n -> 0 <= off -> n < 2 ^ 63 -> off + i < 8 * zlen (content s) ->
  (forall s', WF s' -> content s' = content s' -> off + i < 8 * zlen (content s') ->
     run (SB (off + i)) s' = Done tt (with_content s' (put_bit (content s') (off + i) true)) /\
     run (CB (off + i)) s' = Done tt (with_content s' (put_bit (content s') (off + i) false))) ->
  run (if byte (Z.land (shr 64 data (uconv 64 (n -! i -! 1))) 1) =? 0
       then CB (off +! i) else SB (off +! i)) s =
  Done tt (with_content s (put_bit (content s) (off + i) (field_bit data n i))).
Proof.
  intros W Hd Hi Ho Hn Hl H. pose proof (content_max s W) as M. rewrite max_alloc_val in M.
  rewrite setbits_sel by auto. rewrite add64_id by (unfold is_i64; lia).
  destruct (H s W eq_refl Hl) as [H1 H2]. unfold field_bit.
  destruct (Z.testbit data (n - 1 - i)); simpl; auto.
Qed.

Lemma with_content_put_bits s off data n (i : Z) :
  WF s -> 0 <= off -> 0 <= i -> off + i < 8 * zlen (content s) ->
  with_content (with_content s (put_bits (content s) off (field_bit data n) (Z.to_nat i)))
    (put_bit (content (with_content s (put_bits (content s) off (field_bit data n) (Z.to_nat i))))
       (off + i) (field_bit data n i)) =
  with_content s (put_bits (content s) off (field_bit data n) (Z.to_nat (i + 1))).
Proof.
  intros W Ho Hi Hl.
  assert (PZ : zlen (put_bits (content s) off (field_bit data n) (Z.to_nat i)) = zlen (content s)).
  { apply put_bits_zlen; lia. }
  rewrite content_with_content by auto.
  rewrite with_content_twice; auto.
  - f_equal. replace (Z.to_nat (i + 1)) with (S (Z.to_nat i)) by lia. simpl.
    rewrite Z2Nat.id by lia. reflexivity.
  - rewrite put_bit_zlen; auto. lia.
Qed.

Lemma put_bits_WF s off f k :
  WF s -> 0 <= off -> off + Z.of_nat k <= 8 * zlen (content s) ->
  WF (with_content s (put_bits (content s) off f k)) /\
  content (with_content s (put_bits (content s) off f k)) = put_bits (content s) off f k /\
  zlen (put_bits (content s) off f k) = zlen (content s).
Proof.
  intros W Ho Hk. assert (Z := put_bits_zlen (content s) off f k Ho Hk).
  split; [|split]; auto.
  - apply with_content_WF; auto. apply put_bits_bytes. apply content_bytes; auto.
  - apply content_with_content; auto.
Qed.

Lemma mini_SetBits s off data n :
  WF s -> is_u64 data -> 1 <= n -> 0 <= off -> off + n <= 8 * zlen (content s) ->
  run (V3Mini.SetBits off data n) s =
  Done tt (with_content s (put_bits (content s) off (field_bit data n) (Z.to_nat n))).
Proof.
  intros W Hd Hn Ho Hl. pose proof (content_max s W) as M. rewrite max_alloc_val in M.
  unfold V3Mini.SetBits.
  edestruct (goto_loop_inv
     (fun i (_ : unit) s' => s' = with_content s (put_bits (content s) off (field_bit data n) (Z.to_nat i))))
    as (acc & s' & Hr & ->).
  4: { rewrite Hr. destruct acc. rewrite Z.max_r by lia. reflexivity. }
  - lia.
  - intros i acc s0 Hi ->. eexists _, _. split.
    + destruct (put_bits_WF s off (field_bit data n) (Z.to_nat i) W Ho) as (W' & C' & Z'); [lia|].
      apply (setbits_step V3Mini.SetBit V3Mini.ClearBit); auto; try lia.
      * rewrite C'. lia.
      * intros s' Ws' _ Hs'. split. apply mini_SetBit; auto; lia. apply mini_ClearBit; auto; lia.
    + apply with_content_put_bits; auto; lia.
  - change (Z.to_nat 0) with O. simpl. symmetry. apply with_content_same; auto.
Qed.

Lemma run_SetBits s off data n :
  WF s -> is_u64 data -> 1 <= n -> 0 <= off -> off + n <= 8 * zlen (content s) ->
  run (V3Buffer.SetBits off data n) s =
  Done tt (with_content s (put_bits (content s) off (field_bit data n) (Z.to_nat n))).
Proof.
  intros W Hd Hn Ho Hl. pose proof (content_max s W) as M. rewrite max_alloc_val in M.
  unfold V3Buffer.SetBits.
  edestruct (goto_loop_inv
     (fun i (_ : unit) s' => s' = with_content s (put_bits (content s) off (field_bit data n) (Z.to_nat i))))
    as (acc & s' & Hr & ->).
  4: { rewrite Hr. destruct acc. rewrite Z.max_r by lia. reflexivity. }
  - lia.
  - intros i acc s0 Hi ->. eexists _, _. split.
    + destruct (put_bits_WF s off (field_bit data n) (Z.to_nat i) W Ho) as (W' & C' & Z'); [lia|].
      apply (setbits_step V3Buffer.SetBit V3Buffer.ClearBit); auto; try lia.
      * rewrite C'. lia.
      * intros s' Ws' _ Hs'. rewrite run_SetBit, run_ClearBit by auto.
        replace (8 * zlen (content s') <=? off + i) with false by lia.
        replace (off + i <? 0) with false by lia. auto.
    + apply with_content_put_bits; auto; lia.
  - change (Z.to_nat 0) with O. simpl. symmetry. apply with_content_same; auto.
Qed.

(** An overrunning SetBits: the fitting prefix is written, then the panic. *)
Lemma run_SetBits_overrun s off data n :
  WF s -> is_u64 data -> 0 <= off < 8 * zlen (content s) -> 8 * zlen (content s) < off + n -> n < 2 ^ 63 ->
  run (V3Buffer.SetBits off data n) s =
  Panicked BufferOverwriteError
    (with_content s (put_bits (content s) off (field_bit data n) (Z.to_nat (8 * zlen (content s) - off)))).
Proof.
  intros W Hd Ho Hl Hn. pose proof (content_max s W) as M. rewrite max_alloc_val in M.
  unfold V3Buffer.SetBits.
  edestruct (goto_loop_panic
     (fun i (_ : unit) s' => s' = with_content s (put_bits (content s) off (field_bit data n) (Z.to_nat i)))
     (fun (i : Z) (_ : unit) =>
        if byte (Z.land (shr 64 data (uconv 64 (n -! i -! 1))) 1) =? 0
        then V3Buffer.ClearBit (off +! i) else V3Buffer.SetBit (off +! i)) n (8 * zlen (content s) - off) BufferOverwriteError
     (fun s' => s' = with_content s (put_bits (content s) off (field_bit data n) (Z.to_nat (8 * zlen (content s) - off)))))
    as (s' & Hr & ->).
  6: { exact Hr. }
  - lia.
  - lia.
  - intros i acc s0 Hi ->. eexists _, _. split.
    + destruct (put_bits_WF s off (field_bit data n) (Z.to_nat i) W) as (W' & C' & Z'); [lia|lia|].
      apply (setbits_step V3Buffer.SetBit V3Buffer.ClearBit); auto; try lia.
      * rewrite C'. lia.
      * intros s' Ws' _ Hs'. rewrite run_SetBit, run_ClearBit by auto.
        replace (8 * zlen (content s') <=? off + i) with false by lia.
        replace (off + i <? 0) with false by lia. auto.
    + apply with_content_put_bits; auto; lia.
  - intros acc s0 ->. eexists. split; [|reflexivity].
    destruct (put_bits_WF s off (field_bit data n) (Z.to_nat (8 * zlen (content s) - off)) W) as (W' & C' & Z'); [lia|lia|].
    rewrite setbits_sel by (auto; lia).
    rewrite add64_id by (unfold is_i64; lia).
    destruct (negb _); rewrite ?run_ClearBit, ?run_SetBit by auto; rewrite C', Z';
      replace (8 * zlen (content s) <=? off + (8 * zlen (content s) - off)) with true by lia; reflexivity.
  - change (Z.to_nat 0) with O. simpl. symmetry. apply with_content_same; auto.
Qed.

Lemma run_ReadBits_overrun s off n :
  WF s -> 0 <= off < 8 * zlen (content s) -> 8 * zlen (content s) < off + n -> n < 2 ^ 63 ->
  run (V3Buffer.ReadBits off n) s = Panicked BufferOverreadError s.
Proof.
  intros W Ho Hl Hn. pose proof (content_max s W) as M. rewrite max_alloc_val in M.
  unfold V3Buffer.ReadBits.
  edestruct (goto_loop_panic
     (fun (i : Z) (_ : Z) s' => s' = s)
     (fun (i out : Z) => bind (V3Buffer.ReadBit (off +! i)) (fun v => Ret (Z.lor (ushl 64 out 1) v)))
     n (8 * zlen (content s) - off) BufferOverreadError
     (fun s' => s' = s))
    as (s' & Hr & ->).
  6: { exact Hr. }
  - lia.
  - lia.
  - intros i acc s0 Hi ->. eexists _, _. split; [|reflexivity].
    rewrite run_bind, run_ReadBit by auto. rewrite add64_id by (unfold is_i64; lia).
    replace (8 * zlen (content s) <=? off + i) with false by lia.
    replace (off + i <? 0) with false by lia. reflexivity.
  - intros acc s0 ->. eexists. split; [|reflexivity].
    rewrite run_bind, run_ReadBit by auto. rewrite add64_id by (unfold is_i64; lia).
    replace (8 * zlen (content s) <=? off + (8 * zlen (content s) - off)) with true by lia. reflexivity.
  - reflexivity.
Qed.

(** A start outside the buffer fails on the first bit, whatever [n]. *)
Lemma goto_loop_first {S} n (body : Z -> S -> prog S) acc s e s' :
  run (body 0 acc) s = Panicked e s' -> run (goto_loop n body acc) s = Panicked e s'.
Proof. intro H. unfold goto_loop. simpl. rewrite run_bind, H. reflexivity. Qed.

Lemma goto_loop_once {S} n (body : Z -> S -> prog S) acc s a s' :
  n <= 1 -> run (body 0 acc) s = Done a s' -> run (goto_loop n body acc) s = Done a s'.
Proof.
  intros Hn H. unfold goto_loop. simpl. rewrite run_bind, H.
  rewrite add64_id by (unfold is_i64; lia). replace (0 + 1 <? n) with false by lia. reflexivity.
Qed.

Lemma run_ReadBits_start s off n :
  WF s -> is_i64 off -> ~ (0 <= off < 8 * zlen (content s)) ->
  run (V3Buffer.ReadBits off n) s =
  Panicked (if off <? 0 then BufferUnderreadError else BufferOverreadError) s.
Proof.
  intros W Hi Ho. apply goto_loop_first. rewrite run_bind, run_ReadBit by auto.
  rewrite add64_id by (unfold is_i64 in *; lia). rewrite Z.add_0_r.
  pose proof (zlen_nonneg (content s)).
  destruct (Z.ltb_spec off 0).
  - replace (8 * zlen (content s) <=? off) with false by lia. reflexivity.
  - replace (8 * zlen (content s) <=? off) with true by lia. reflexivity.
Qed.

Lemma run_SetBits_start s off data n :
  WF s -> is_i64 off -> ~ (0 <= off < 8 * zlen (content s)) ->
  run (V3Buffer.SetBits off data n) s =
  Panicked (if off <? 0 then BufferUnderwriteError else BufferOverwriteError) s.
Proof.
  intros W Hi Ho. apply goto_loop_first.
  rewrite add64_id by (unfold is_i64 in *; lia). rewrite Z.add_0_r.
  pose proof (zlen_nonneg (content s)).
  match goal with |- run (if ?c then _ else _) _ = _ => destruct c end;
  rewrite ?run_SetBit, ?run_ClearBit by auto;
  (destruct (Z.ltb_spec off 0);
   [replace (8 * zlen (content s) <=? off) with false by lia
   |replace (8 * zlen (content s) <=? off) with true by lia]; reflexivity).
Qed.

(** Non-positive counts. *)
Lemma run_ReadBits_nonpos s off n :
  WF s -> n <= 0 -> 0 <= off < 8 * zlen (content s) ->
  run (V3Buffer.ReadBits off n) s = Done (Z.b2z (bit_at (content s) off)) s.
Proof.
  intros W Hn Ho. pose proof (content_max s W) as M. rewrite max_alloc_val in M.
  apply goto_loop_once. lia. rewrite run_bind, run_ReadBit by auto.
  rewrite add64_id by (unfold is_i64; lia). rewrite Z.add_0_r.
  replace (8 * zlen (content s) <=? off) with false by lia.
  replace (off <? 0) with false by lia. reflexivity.
Qed.

Lemma run_SetBits_nonpos s off data n :
  WF s -> is_u64 data -> is_i64 n -> n <= 0 -> 0 <= off < 8 * zlen (content s) ->
  run (V3Buffer.SetBits off data n) s = Done tt (with_content s (put_bit (content s) off false)).
Proof.
  intros W Hd Hi Hn Ho. pose proof (content_max s W) as M. rewrite max_alloc_val in M.
  apply goto_loop_once. lia.
  rewrite add64_id by (unfold is_i64; lia). rewrite Z.add_0_r.
  rewrite (sub64_id n 0) by (unfold is_i64 in *; lia).
  assert (E : 64 <= uconv 64 (n - 0 -! 1)).
  { unfold uconv, sub64, wrap64, is_i64 in *. lia. }
  unfold shr. replace (uconv 64 (n - 0 -! 1) <? 64) with false by lia.
  unfold is_u64 in Hd. replace (data <? 0) with false by lia.
  change (byte (Z.land 0 1) =? 0) with true. cbv iota.
  rewrite run_ClearBit by auto.
  replace (8 * zlen (content s) <=? off) with false by lia.
  replace (off <? 0) with false by lia. reflexivity.
Qed.

(** ** Whole-buffer operations *)

Lemma byte_at_app_mid p x r i : zlen p = i -> byte_at (p ++ x :: r) i = x.
Proof.
  intro H. unfold byte_at. replace (Z.to_nat i) with (length p) by (unfold zlen in H; lia).
  rewrite app_nth2 by lia. rewrite Nat.sub_diag. reflexivity.
Qed.

Lemma put_app_mid {A} (p : list A) x r y i : zlen p = i -> put (p ++ x :: r) i [y] = p ++ y :: r.
Proof.
  intro H. unfold put. replace (Z.to_nat i) with (length p) by (unfold zlen in H; lia).
  rewrite firstn_app, firstn_all, Nat.sub_diag, firstn_O, app_nil_r. f_equal. simpl. f_equal.
  rewrite skipn_app, skipn_all2 by lia. replace (length p + 1 - length p)%nat with 1%nat by lia. reflexivity.
Qed.

Lemma all_loop (body : Z -> unit -> prog unit) (f : Z -> Z) s :
  WF s -> 1 <= zlen (content s) -> (forall x, is_byte x -> is_byte (f x)) ->
  (forall s' i, WF s' -> 0 <= i < zlen (content s') ->
     run (body i tt) s' = Done tt (with_content s' (put (content s') i [f (byte_at (content s') i)]))) ->
  run (goto_loop (s_len (b_buf (bb s))) body tt) s = Done tt (with_content s (map f (content s))).
Proof.
  intros W Hne Hf Hb. pose proof (content_max s W) as M. rewrite max_alloc_val in M.
  rewrite <- content_zlen by auto.
  set (st i := with_content s (map f (sub (content s) 0 i) ++ sub (content s) i (zlen (content s) - i))).
  assert (L : forall i, 0 <= i <= zlen (content s) ->
     zlen (map f (sub (content s) 0 i) ++ sub (content s) i (zlen (content s) - i)) = zlen (content s)).
  { intros i Hi. rewrite zlen_app, zlen_map, !sub_length by lia. lia. }
  assert (B : forall i, Forall is_byte (map f (sub (content s) 0 i) ++ sub (content s) i (zlen (content s) - i))).
  { intros i. apply Forall_app. pose proof (content_bytes s W) as CB. split; [|apply Forall_sub; auto].
    apply Forall_map. eapply Forall_impl; [|apply Forall_sub; exact CB]. auto. }
  edestruct (goto_loop_inv (fun i (_ : unit) s' => s' = st i) body (zlen (content s)) tt s)
    as (acc & s' & Hr & ->).
  - lia.
  - intros i [] s0 Hi ->. assert (Wi : WF (st i)) by (apply with_content_WF; auto; apply L; lia).
    eexists _, _. split.
    + apply Hb; auto. unfold st. rewrite content_with_content by (auto; apply L; lia). rewrite L by lia. lia.
    + unfold st. rewrite content_with_content by (auto; apply L; lia).
      assert (LL : zlen (map f (sub (content s) 0 i)) = i) by (rewrite zlen_map, sub_length; lia).
      rewrite with_content_twice; auto; try (apply L; lia).
      2: { rewrite put_length; try apply L; try lia. rewrite L by lia. unfold zlen at 1. simpl. lia. }
      f_equal.
      replace (zlen (content s) - i) with (1 + (zlen (content s) - (i + 1))) by lia.
      rewrite sub_app_split by lia. rewrite sub_one by lia.
      rewrite (sub_app_split (content s) 0 i 1) by lia. rewrite sub_one by lia.
      rewrite map_app. rewrite <- app_assoc. simpl.
      rewrite Z.add_0_l.
      set (p := map f (sub (content s) 0 i)) in *.
      set (r := sub (content s) (i + 1) (zlen (content s) - (i + 1))).
      rewrite byte_at_app_mid, put_app_mid by auto. reflexivity.
  - unfold st. change (sub (content s) 0 0) with (@nil Z). simpl. rewrite Z.sub_0_r, sub_all by lia.
    symmetry. apply with_content_same. auto.
  - rewrite Hr. destruct acc. f_equal. unfold st. f_equal.
    rewrite Z.max_r by lia. rewrite Z.sub_diag, sub_all by lia.
    change (sub (content s) (zlen (content s)) 0) with (@nil Z). apply app_nil_r.
Qed.

Lemma run_ClearAllBits s :
  WF s -> 1 <= zlen (content s) ->
  run V3Buffer.ClearAllBits s = Done tt (with_content s (map (fun _ => 0) (content s))).
Proof.
  intros W H. unfold V3Buffer.ClearAllBits. cbn [get_buf bind run].
  apply (all_loop (fun i _ => buf_set i 0) (fun _ => 0)); auto.
  - unfold is_byte; lia.
  - intros. apply run_buf_set; auto.
Qed.

Lemma run_SetAllBits s :
  WF s -> 1 <= zlen (content s) ->
  run V3Buffer.SetAllBits s = Done tt (with_content s (map (fun _ => 255) (content s))).
Proof.
  intros W H. unfold V3Buffer.SetAllBits. cbn [get_buf bind run].
  apply (all_loop (fun i _ => buf_set i 255) (fun _ => 255)); auto.
  - unfold is_byte; lia.
  - intros. apply run_buf_set; auto.
Qed.

Lemma run_FlipAllBits s :
  WF s -> 1 <= zlen (content s) ->
  run V3Buffer.FlipAllBits s = Done tt (with_content s (map not8 (content s))).
Proof.
  intros W H. unfold V3Buffer.FlipAllBits. cbn [get_buf bind run].
  apply (all_loop (fun i _ => bind (buf_get i) (fun v => buf_set i (not8 v))) not8); auto.
  - apply not8_byte.
  - intros. rewrite run_bind, run_buf_get by auto. apply run_buf_set; auto.
Qed.

Lemma run_AllBits_empty s :
  WF s -> content s = [] ->
  run V3Buffer.ClearAllBits s = Panicked (RuntimeError IndexOutOfRange) s /\
  run V3Buffer.SetAllBits s = Panicked (RuntimeError IndexOutOfRange) s /\
  run V3Buffer.FlipAllBits s = Panicked (RuntimeError IndexOutOfRange) s.
Proof.
  intros W H. assert (zlen (content s) = 0) by (rewrite H; auto).
  repeat split; unfold V3Buffer.ClearAllBits, V3Buffer.SetAllBits, V3Buffer.FlipAllBits;
    cbn [get_buf bind run]; apply goto_loop_first.
  - apply run_buf_set_oob; auto; lia.
  - apply run_buf_set_oob; auto; lia.
  - rewrite run_bind, run_buf_get_oob by (auto; lia). reflexivity.
Qed.
