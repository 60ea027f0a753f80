(** * Props_Float: floats survive bit-exactly (C16).

    The specification of IEEE 754 is the one of the Flocq library: [binary32] and
    [binary64] are its data (signed zeros, signed infinities, NaNs with sign and
    payload, finite numbers), [bits_of_b32] and [bits_of_b64] their interchange
    encodings.  In the model a Go float is its bit pattern, so a Go float32 [x] is
    passed as [bits_of_b32 x]. *)
From Coq Require Import ZArith List Bool Lia ZifyBool Reals Lra.
From Flocq Require Import Core Binary Bits.
From Verif Require Import GoSem Spec GoLemmas BitLemmas CodecLemmas V3BitLemmas V3ByteLemmas Typed TypedLemmas Frame Witness
  Props_Bits Props_Bytes Examples.
From Verif Require V3Buffer.
Import ListNotations.
Open Scope Z_scope.

(** ** What IEEE 754 says the fields of a datum are: sign, fraction, biased exponent *)

Definition fields32 (x : binary32) : bool * Z * Z :=
  match x with
  | B754_zero _ _ s => (s, 0, 0)
  | B754_infinity _ _ s => (s, 0, 255)
  | B754_nan _ _ s payload _ => (s, Zpos payload, 255)
  | B754_finite _ _ s m e _ =>                       (* the number m * 2^e *)
      if 2 ^ 23 <=? Zpos m then (s, Zpos m - 2 ^ 23, e + 150) else (s, Zpos m, 0)
  end.
Definition fields64 (x : binary64) : bool * Z * Z :=
  match x with
  | B754_zero _ _ s => (s, 0, 0)
  | B754_infinity _ _ s => (s, 0, 2047)
  | B754_nan _ _ s payload _ => (s, Zpos payload, 2047)
  | B754_finite _ _ s m e _ =>
      if 2 ^ 52 <=? Zpos m then (s, Zpos m - 2 ^ 52, e + 1075) else (s, Zpos m, 0)
  end.

Lemma fields32_split x : split_bits 23 8 (bits_of_b32 x) = fields32 x.
Proof.
  unfold bits_of_b32. rewrite split_bits_of_binary_float_correct by reflexivity.
  destruct x as [s|s|s p H|s m e H]; try reflexivity. cbn [split_bits_of_binary_float fields32].
  change (Zpower 2 23) with (2 ^ 23). destruct (2 ^ 23 <=? Z.pos m) eqn:E.
  - replace (0 <=? Z.pos m - 2 ^ 23) with true by lia. f_equal. change (SpecFloat.emin (23 + 1) (2 ^ (8 - 1))) with (-149). lia.
  - replace (0 <=? Z.pos m - 2 ^ 23) with false by lia. reflexivity.
Qed.
Lemma fields64_split x : split_bits 52 11 (bits_of_b64 x) = fields64 x.
Proof.
  unfold bits_of_b64. rewrite split_bits_of_binary_float_correct by reflexivity.
  destruct x as [s|s|s p H|s m e H]; try reflexivity. cbn [split_bits_of_binary_float fields64].
  change (Zpower 2 52) with (2 ^ 52). destruct (2 ^ 52 <=? Z.pos m) eqn:E.
  - replace (0 <=? Z.pos m - 2 ^ 52) with true by lia. f_equal. change (SpecFloat.emin (52 + 1) (2 ^ (11 - 1))) with (-1074). lia.
  - replace (0 <=? Z.pos m - 2 ^ 52) with false by lia. reflexivity.
Qed.

Lemma bits32_range x : 0 <= bits_of_b32 x < 2 ^ 32.
Proof. now apply (bits_of_binary_float_range 23 8). Qed.
Lemma bits64_range x : 0 <= bits_of_b64 x < 2 ^ 64.
Proof. now apply (bits_of_binary_float_range 52 11). Qed.
Lemma of_bits32 x : b32_of_bits (bits_of_b32 x) = x.
Proof. exact (binary_float_of_bits_of_binary_float 23 8 eq_refl eq_refl eq_refl x). Qed.
Lemma of_bits64 x : b64_of_bits (bits_of_b64 x) = x.
Proof. exact (binary_float_of_bits_of_binary_float 52 11 eq_refl eq_refl eq_refl x). Qed.
Lemma bits_of_32 v : 0 <= v < 2 ^ 32 -> bits_of_b32 (b32_of_bits v) = v.
Proof. intro H. exact (bits_of_binary_float_of_bits 23 8 eq_refl eq_refl eq_refl v H). Qed.
Lemma bits_of_64 v : 0 <= v < 2 ^ 64 -> bits_of_b64 (b64_of_bits v) = v.
Proof. intro H. exact (bits_of_binary_float_of_bits 52 11 eq_refl eq_refl eq_refl v H). Qed.

(** ** Writing and reading back *)

Lemma float_write_read {A} (bits : A -> Z) (value : Z -> A) t :
  (forall x, value (bits x) = x) -> (forall x, in_format t (bits x)) ->
  forall s off xs, WF s -> xs <> [] -> 0 <= off -> off + zlen xs * tsize t <= zlen (content s) ->
  exists s' l, run (WriteT t off (map bits xs)) s = Done tt s' /\
    run (ReadT t off (zlen xs)) s' = Done l s' /\ map value l = xs.
Proof.
  intros V F s off xs W N H0 H1. pose proof (content_max s W) as CM.
  assert (ZL : zlen (map bits xs) = zlen xs) by (unfold zlen; now rewrite map_length).
  destruct (C14_write_read t s off (map bits xs)) as (s' & R1 & R2); auto.
  - unfold wf_data. rewrite ZL. lia.
  - destruct xs; cbn; congruence.
  - apply Forall_forall. intros y Hy. apply in_map_iff in Hy as (x & <- & _). apply F.
  - now rewrite ZL.
  - exists s', (map bits xs). rewrite ZL in R2. split; auto. split; auto.
    rewrite map_map. rewrite <- map_id. apply map_ext. exact V.
Qed.

(** A float32 written and read back is the same datum: the same zero with its
    sign, the same infinity, the same subnormal, the same NaN with its payload. *)
Theorem C16_F32_write_read : forall t s off (xs : list binary32), t = F32LE \/ t = F32BE -> WF s -> xs <> [] ->
  0 <= off -> off + 4 * zlen xs <= zlen (content s) ->
  exists s' l, run (WriteT t off (map bits_of_b32 xs)) s = Done tt s' /\
    run (ReadT t off (zlen xs)) s' = Done l s' /\ map b32_of_bits l = xs.
Proof.
  intros t s off xs T W N H0 H1.
  destruct T as [-> | ->]; (apply (float_write_read bits_of_b32 b32_of_bits); auto;
    [apply of_bits32|intro; apply bits32_range|change (tsize _) with 4; lia]).
Qed.
Print Assumptions C16_F32_write_read.

Theorem C16_F64_write_read : forall t s off (xs : list binary64), t = F64LE \/ t = F64BE -> WF s -> xs <> [] ->
  0 <= off -> off + 8 * zlen xs <= zlen (content s) ->
  exists s' l, run (WriteT t off (map bits_of_b64 xs)) s = Done tt s' /\
    run (ReadT t off (zlen xs)) s' = Done l s' /\ map b64_of_bits l = xs.
Proof.
  intros t s off xs T W N H0 H1.
  destruct T as [-> | ->]; (apply (float_write_read bits_of_b64 b64_of_bits); auto;
    [apply of_bits64|intro; apply bits64_range|change (tsize _) with 8; lia]).
Qed.
Print Assumptions C16_F64_write_read.

(** The other way round: whatever the bytes are, the floats read are data whose
    encodings are those bytes, and writing them back changes nothing. *)
Theorem C16_F32_read_write : forall t s off n, t = F32LE \/ t = F32BE -> WF s -> 1 <= n ->
  0 <= off -> off + 4 * n <= zlen (content s) ->
  exists xs : list binary32, zlen xs = n /\ run (ReadT t off n) s = Done (map bits_of_b32 xs) s /\
    run (WriteT t off (map bits_of_b32 xs)) s = Done tt s.
Proof.
  intros t s off n T W Hn H0 H1.
  assert (TS : tsize t = 4) by (now destruct T as [-> | ->]).
  destruct (C13_typed_read t s off n) as (vs & R & L & F & _); auto; [lia|].
  destruct (C14_read_write t s off n) as (vs' & R' & W'); auto; [lia|].
  rewrite R in R'. injection R' as <-.
  assert (M : map bits_of_b32 (map b32_of_bits vs) = vs).
  { rewrite map_map. rewrite <- (map_id vs) at 2. apply map_ext_in. intros v Hv. apply bits_of_32.
    pose proof (proj1 (Forall_forall _ _) F v Hv) as FV. destruct T as [-> | ->]; exact FV. }
  exists (map b32_of_bits vs). rewrite M. split; auto. unfold zlen in *. now rewrite map_length.
Qed.
Print Assumptions C16_F32_read_write.

Theorem C16_F64_read_write : forall t s off n, t = F64LE \/ t = F64BE -> WF s -> 1 <= n ->
  0 <= off -> off + 8 * n <= zlen (content s) ->
  exists xs : list binary64, zlen xs = n /\ run (ReadT t off n) s = Done (map bits_of_b64 xs) s /\
    run (WriteT t off (map bits_of_b64 xs)) s = Done tt s.
Proof.
  intros t s off n T W Hn H0 H1.
  assert (TS : tsize t = 8) by (now destruct T as [-> | ->]).
  destruct (C13_typed_read t s off n) as (vs & R & L & F & _); auto; [lia|].
  destruct (C14_read_write t s off n) as (vs' & R' & W'); auto; [lia|].
  rewrite R in R'. injection R' as <-.
  assert (M : map bits_of_b64 (map b64_of_bits vs) = vs).
  { rewrite map_map. rewrite <- (map_id vs) at 2. apply map_ext_in. intros v Hv. apply bits_of_64.
    pose proof (proj1 (Forall_forall _ _) F v Hv) as FV. destruct T as [-> | ->]; exact FV. }
  exists (map b64_of_bits vs). rewrite M. split; auto. unfold zlen in *. now rewrite map_length.
Qed.
Print Assumptions C16_F64_read_write.

(** ** The bytes written are the interchange encoding *)

(** Read bit by bit: the sign, the biased exponent and the fraction of the datum
    stand one after the other, most significant bit first. *)
Lemma bits_num_field l i n k w : (k + w <= n)%nat ->
  bits_num l (i + Z.of_nat k) w = (bits_num l i n / 2 ^ Z.of_nat (n - k - w)) mod 2 ^ Z.of_nat w.
Proof.
  intro H. apply bits_num_of_testbit. intros j Hj.
  rewrite Z.div_pow2_bits by lia. rewrite bits_num_testbit by lia. f_equal. lia.
Qed.

Lemma sign_field x n : 0 < n -> 0 <= x < 2 ^ (n + 1) -> (x / 2 ^ n) mod 2 = Z.b2z (2 ^ n <=? x).
Proof.
  intros Hn H. rewrite Z.pow_add_r in H by lia. pose proof (Z.pow_pos_nonneg 2 n).
  destruct (Z.leb_spec (2 ^ n) x); cbn [Z.b2z].
  - replace (x / 2 ^ n) with 1; [reflexivity|]. apply Z.div_unique with (x - 2 ^ n); lia.
  - rewrite Z.div_small by lia. reflexivity.
Qed.

Lemma big_endian_fields t s off b : t = F32BE \/ t = F64BE -> WF s -> in_format t b ->
  0 <= off -> off + tsize t <= zlen (content s) ->
  exists s', run (WriteT t off [b]) s = Done tt s' /\ WF s' /\ zlen (content s') = zlen (content s) /\
    forall (k w : nat), (k + w <= 8 * ty_bytes t)%nat ->
    bits_num (content s') (8 * off + Z.of_nat k) w = (b / 2 ^ Z.of_nat (8 * ty_bytes t - k - w)) mod 2 ^ Z.of_nat w.
Proof.
  intros T W F H0 H1. pose proof (content_max s W) as CM. rewrite max_alloc_val in CM.
  assert (WD : wf_data (tsize t) [b]).
  { unfold wf_data. rewrite max_alloc_val. change (zlen [b]) with 1. destruct T as [-> | ->]; vm_compute; discriminate. }
  assert (L1 : off + zlen [b] * tsize t <= zlen (content s)) by (change (zlen [b]) with 1; lia).
  destruct (C12_typed_write t s off [b]) as (s' & R & W' & BS); auto; [discriminate|].
  assert (L : zlen (content s') = zlen (content s)) by apply BS.
  destruct (C14_write_read t s off [b]) as (s2 & R2 & RR); auto; [discriminate|].
  rewrite R in R2. injection R2 as <-.
  exists s'. split; auto. split; auto. split; auto.
  assert (E : ty_endian t = BE) by (destruct T as [-> | ->]; reflexivity).
  destruct (C54_ReadBits_is_big_endian_read t s' off W' E H0) as (x & X1 & X2 & X3); [lia|].
  change (zlen [b]) with 1 in RR. rewrite RR in X1. injection X1 as <-.
  rewrite X3 in X2 by (destruct T as [-> | ->]; discriminate).
  assert (TS : 8 * tsize t = Z.of_nat (8 * ty_bytes t)) by (unfold tsize; lia).
  rewrite run_ReadBits in X2 by (auto; destruct T as [-> | ->]; unfold tsize in *; cbn in *; lia).
  injection X2 as X2. rewrite TS, Nat2Z.id in X2.
  pose proof (bits_num_range (content s') (8 * off) (8 * ty_bytes t)) as BR.
  rewrite Z.mod_small in X2.
  2:{ destruct T as [-> | ->]; cbn [ty_bytes ty_width bytes_of_width] in *.
      change (2 ^ Z.of_nat (8 * 4)) with (2 ^ 32) in BR. lia. exact BR. }
  intros k w K. rewrite (bits_num_field _ _ (8 * ty_bytes t)) by exact K. now rewrite X2.
Qed.

Lemma small_mod y w : (0 < w < 64)%nat -> (y mod 2 ^ Z.of_nat w) mod 2 ^ 64 = y mod 2 ^ Z.of_nat w.
Proof.
  intro Hw. apply Z.mod_small. assert (A : 0 < 2 ^ Z.of_nat w) by (apply Z.pow_pos_nonneg; lia).
  pose proof (Z.mod_pos_bound y (2 ^ Z.of_nat w) A) as B.
  assert (C : 2 ^ Z.of_nat w <= 2 ^ 64) by (apply Z.pow_le_mono_r; lia).
  destruct B as [B1 B2]. split; [exact B1|]. eapply Z.lt_le_trans; eauto.
Qed.

Lemma fields_read t s off b mw ew : t = F32BE /\ (mw, ew) = (23%nat, 8%nat) \/ t = F64BE /\ (mw, ew) = (52%nat, 11%nat) ->
  WF s -> in_format t b -> 0 <= off -> off + tsize t <= zlen (content s) ->
  exists s', run (WriteT t off [b]) s = Done tt s' /\
    run (V3Buffer.ReadBit (8 * off)) s' = Done (Z.b2z (2 ^ (Z.of_nat mw + Z.of_nat ew) <=? b)) s' /\
    run (V3Buffer.ReadBits (8 * off + 1) (Z.of_nat ew)) s' = Done ((b / 2 ^ Z.of_nat mw) mod 2 ^ Z.of_nat ew) s' /\
    run (V3Buffer.ReadBits (8 * off + (1 + Z.of_nat ew)) (Z.of_nat mw)) s' = Done (b mod 2 ^ Z.of_nat mw) s'.
Proof.
  intros T W I H0 H1.
  assert (T' : t = F32BE \/ t = F64BE) by tauto.
  assert (N : (8 * ty_bytes t = S (ew + mw) /\ 0 < mw < 64 /\ 0 < ew < 64)%nat) by (destruct T as [[-> T]|[-> T]]; injection T as -> ->; cbn; lia).
  assert (IR : 0 <= b < 2 ^ (Z.of_nat mw + Z.of_nat ew + 1)).
  { destruct T as [[-> T]|[-> T]]; injection T as -> ->; exact I. }
  destruct N as (N & Nm & Ne). destruct (big_endian_fields t s off b) as (s' & R & W' & L & F); auto.
  exists s'. split; auto. rewrite N in F. assert (TS : 8 * tsize t = 1 + Z.of_nat ew + Z.of_nat mw) by (clear - N; unfold tsize; lia).
  assert (B : 8 * (off + tsize t) <= 8 * zlen (content s')) by (clear - L H1; lia).
  assert (F0 := F 0%nat 1%nat ltac:(clear; lia)). assert (F1 := F 1%nat ew ltac:(clear; lia)). assert (F2 := F (1 + ew)%nat mw ltac:(clear; lia)).
  clear F T T' I L R H1 N.
  split; [|split].
  - clear F1 F2. rewrite run_ReadBit by auto.
    replace (8 * zlen (content s') <=? 8 * off) with false by (clear - B H0 TS Nm; lia).
    replace (8 * off <? 0) with false by (clear - H0; lia).
    cbn [bits_num] in F0. rewrite Z.mul_0_r, Z.add_0_l, !Z.add_0_r in F0. rewrite F0. f_equal.
    change (2 ^ Z.of_nat 1) with 2. replace (Z.of_nat (S (ew + mw) - 0 - 1)) with (Z.of_nat mw + Z.of_nat ew) by (clear; lia).
    apply sign_field; [clear - Nm; lia|exact IR].
  - clear F0 F2 IR. rewrite run_ReadBits by (auto; clear F1; lia).
    rewrite Nat2Z.id. change (Z.of_nat 1) with 1 in F1. rewrite F1, small_mod by exact Ne. do 4 f_equal. clear; lia.
  - clear F0 F1 IR. rewrite run_ReadBits by (auto; clear F2; lia).
    rewrite Nat2Z.id. replace (1 + Z.of_nat ew) with (Z.of_nat (1 + ew)) by (clear; lia).
    rewrite F2, small_mod by exact Nm. replace (S (ew + mw) - (1 + ew) - mw)%nat with 0%nat by (clear; lia). now rewrite Z.pow_0_r, Z.div_1_r.
Qed.

Theorem C16_F32_fields : forall s off (x : binary32), WF s -> 0 <= off -> off + 4 <= zlen (content s) ->
  exists s', run (WriteT F32BE off [bits_of_b32 x]) s = Done tt s' /\
    let '(sg, frac, ex) := fields32 x in
    run (V3Buffer.ReadBit (8 * off)) s' = Done (Z.b2z sg) s' /\
    run (V3Buffer.ReadBits (8 * off + 1) 8) s' = Done ex s' /\
    run (V3Buffer.ReadBits (8 * off + 9) 23) s' = Done frac s'.
Proof.
  intros s off x W H0 H1.
  destruct (fields_read F32BE s off (bits_of_b32 x) 23 8) as (s' & R & F); auto; [apply bits32_range|].
  exists s'. split; [exact R|]. rewrite <- fields32_split. clear R. generalize dependent (bits_of_b32 x). intros b F.
  unfold split_bits. change (2 ^ 23 * 2 ^ 8) with (2 ^ 31).
  change (Z.of_nat 23) with 23 in F. change (Z.of_nat 8) with 8 in F.
  change (23 + 8) with 31 in F. change (1 + 8) with 9 in F. exact F.
Qed.
Print Assumptions C16_F32_fields.

Theorem C16_F64_fields : forall s off (x : binary64), WF s -> 0 <= off -> off + 8 <= zlen (content s) ->
  exists s', run (WriteT F64BE off [bits_of_b64 x]) s = Done tt s' /\
    let '(sg, frac, ex) := fields64 x in
    run (V3Buffer.ReadBit (8 * off)) s' = Done (Z.b2z sg) s' /\
    run (V3Buffer.ReadBits (8 * off + 1) 11) s' = Done ex s' /\
    run (V3Buffer.ReadBits (8 * off + 12) 52) s' = Done frac s'.
Proof.
  intros s off x W H0 H1.
  destruct (fields_read F64BE s off (bits_of_b64 x) 52 11) as (s' & R & F); auto; [apply bits64_range|].
  exists s'. split; [exact R|]. rewrite <- fields64_split. clear R. generalize dependent (bits_of_b64 x). intros b F.
  unfold split_bits. change (2 ^ 52 * 2 ^ 11) with (2 ^ 63).
  change (Z.of_nat 52) with 52 in F. change (Z.of_nat 11) with 11 in F.
  change (52 + 11) with 63 in F. change (1 + 11) with 12 in F. exact F.
Qed.
Print Assumptions C16_F64_fields.

(** The little-endian formats write the same bytes in reverse. *)
Theorem C16_little_endian : forall x : Z, encode F32LE x = rev (encode F32BE x) /\ encode F64LE x = rev (encode F64BE x).
Proof. intro x. unfold encode. cbn [ty_endian]. now rewrite !rev_involutive. Qed.
Print Assumptions C16_little_endian.

(** Concrete data: minus zero, minus infinity, the smallest subnormal, a NaN with a
    payload, and -42.42 rounded. *)
Example C16_case :
  let z := B754_zero 24 128 true in let i := B754_infinity 24 128 true in
  let d := B754_finite 24 128 false 1 (-149) eq_refl in let n := B754_nan 24 128 true 4711 eq_refl in
  let v := B754_finite 24 128 true 11120149 (-18) eq_refl in
  map bits_of_b32 [z; i; d; n; v] = [0x80000000; 0xff800000; 1; 0xff801267; 0xc229ae15] /\
  map fields32 [z; i; d; n; v] = [(true, 0, 0); (true, 0, 255); (false, 1, 0); (true, 4711, 255); (true, 2731541, 132)] /\
  encode F32BE (bits_of_b32 v) = [0xc2; 0x29; 0xae; 0x15] /\
  (WF ex_zero /\ 2 + 4 <= zlen (content ex_zero)).
Proof.
  cbv zeta. split; [vm_compute; reflexivity|]. split; [vm_compute; reflexivity|]. split; [vm_compute; reflexivity|].
  split; [exact ex_zero_WF|vm_compute; discriminate].
Qed.

(** ** The numbers of examples/floating-point *)

Lemma b64_value v : B2R 53 1024 (b64_of_bits v) = FF2R radix2 (binary_float_of_bits_aux 52 11 v).
Proof. apply B2R_FF2B. Qed.

(** The bit patterns in Examples.v are 69 and -21, and the float64 nearest to
    -42.42 and 3.621 (half the distance between neighbours is 2^-48, resp. 2^-52). *)
Theorem C56_the_floats :
  match map (fun v => B2R 53 1024 (b64_of_bits v)) the_floats with
  | [a; b; c; d] =>
      a = 69%R /\ b = (-21)%R /\ (Rabs (c - (- 42.42)) < / 2 ^ 48)%R /\ (Rabs (d - 3.621) < / 2 ^ 52)%R
  | _ => False
  end.
Proof.
  unfold the_floats. cbn [map]. rewrite !b64_value.
  repeat match goal with |- context [binary_float_of_bits_aux 52 11 ?v] =>
    let x := eval vm_compute in (binary_float_of_bits_aux 52 11 v) in change (binary_float_of_bits_aux 52 11 v) with x end.
  unfold FF2R, F2R. cbn [Fnum Fexp cond_Zopp bpow].
  replace (Z.pow_pos radix2 46) with 70368744177664 by reflexivity.
  replace (Z.pow_pos radix2 47) with 140737488355328 by reflexivity.
  replace (Z.pow_pos radix2 48) with 281474976710656 by reflexivity.
  replace (Z.pow_pos radix2 51) with 2251799813685248 by reflexivity.
  rewrite !opp_IZR.
  assert (A : forall x y, (- y < x < y)%R -> (Rabs x < y)%R) by (intros x y H; now apply Rabs_def1).
  split; [|split; [|split]].
  - lra.
  - lra.
  - apply A. lra.
  - apply A. lra.
Qed.
Print Assumptions C56_the_floats.
