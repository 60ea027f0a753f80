(** * V2Lemmas: the v2 [Buffer] methods evaluated on well-formed, unlocked states. *)
From Coq Require Import ZArith List Bool Lia ZifyBool.
From Verif Require Import GoSem Errors Spec GoLemmas BitLemmas CodecLemmas Typed V3BitLemmas V3ByteLemmas
  TypedCanon TypedLemmas TypedReadLemmas Calls Abs Frame Sim LockLemmas OldCalls.
From Verif Require V3Buffer V3Mini V2Buffer V2BufferTyped V2Mini.
Import ListNotations.
Open Scope Z_scope.

(** ** Bits *)

Lemma atob_land v k : 0 <= k -> V2Buffer.atob (negb (Z.land v (2 ^ k) =? 0)) = Z.b2z (Z.testbit v k).
Proof.
  intro Hk. assert (E : Z.land v (2 ^ k) = if Z.testbit v k then 2 ^ k else 0).
  { apply Z.bits_inj'. intros j Hj. rewrite Z.land_spec, Z.pow2_bits_eqb by lia.
    destruct (Z.eqb_spec k j) as [->|N].
    - rewrite andb_true_r. destruct (Z.testbit v j) eqn:Ev. now rewrite Z.pow2_bits_true.
      now rewrite Z.bits_0.
    - rewrite andb_false_r. destruct (Z.testbit v k). now rewrite Z.pow2_bits_false. now rewrite Z.bits_0. }
  rewrite E. destruct (Z.testbit v k).
  - assert (0 < 2 ^ k) by (apply Z.pow_pos_nonneg; lia). replace (2 ^ k =? 0) with false by lia. reflexivity.
  - reflexivity.
Qed.

Lemma bit_mask_val off : 0 <= off -> V2Buffer.bit_mask off = 2 ^ (7 - off mod 8).
Proof.
  intro H. unfold V2Buffer.bit_mask. rewrite shift_write by auto. apply ushl8_1. lia.
Qed.

Lemma bit_value off v : 0 <= off ->
  V2Buffer.atob (negb (Z.land v (V2Buffer.bit_mask off) =? 0)) =
  Z.land (shr 8 v (uconv 64 (7 - uconv 64 (rem off 8)))) 1.
Proof.
  intro H. rewrite bit_mask_val, shift_read by auto. rewrite shr8_read by lia. apply atob_land. lia.
Qed.

(** The bound checks of the bit methods, kept in front of any continuation. *)
Lemma run_bit_checks {A} off e1 e2 (k1 k2 : prog A) s :
  (0 <= off -> run k1 s = run k2 s) ->
  run (bind (get FBcap) (fun bcap => bind (panic_if (off >? (bcap -! 1)) e1)
         (fun _ => bind (panic_if (off <? 0) e2) (fun _ => k1)))) s =
  run (bind (get FBcap) (fun bcap => bind (panic_if (off >? (bcap -! 1)) e1)
         (fun _ => bind (panic_if (off <? 0) e2) (fun _ => k2)))) s.
Proof.
  intro H. cbn [bind get run]. rewrite !run_panic_if_bind. destruct (_ >? _); auto.
  destruct (Z.ltb_spec off 0); auto.
Qed.

Lemma v2_ReadBit off s : mu s = false -> run (V2Buffer.ReadBit off) s = run (V3Buffer.ReadBit off) s.
Proof.
  intro M. unfold V2Buffer.ReadBit, V2Buffer.readbit, V3Buffer.ReadBit.
  apply run_bit_checks. intro Ho. rewrite run_locked by (auto; lockfree_tac).
  rewrite !run_bind. destruct (run (buf_get (quo off 8)) s); auto. cbn [run]. now rewrite bit_value.
Qed.
Lemma v2_SetBit1 off s : mu s = false -> run (V2Buffer.SetBit off 1) s = run (V3Buffer.SetBit off) s.
Proof.
  intro M. unfold V2Buffer.SetBit, V2Buffer.setbit, V3Buffer.SetBit.
  apply run_bit_checks. intro Ho. change (1 =? 0) with false. change (1 =? 1) with true. cbv iota.
  apply run_locked; auto. lockfree_tac.
Qed.
Lemma v2_SetBit0 off s : mu s = false -> run (V2Buffer.SetBit off 0) s = run (V3Buffer.ClearBit off) s.
Proof.
  intro M. unfold V2Buffer.SetBit, V2Buffer.setbit, V3Buffer.ClearBit.
  apply run_bit_checks. intro Ho. change (0 =? 0) with true. cbv iota.
  apply run_locked; auto. lockfree_tac.
Qed.
Lemma v2_FlipBit off s : mu s = false -> run (V2Buffer.FlipBit off) s = run (V3Buffer.FlipBit off) s.
Proof.
  intro M. unfold V2Buffer.FlipBit, V2Buffer.flipbit, V3Buffer.FlipBit.
  apply run_bit_checks. intro Ho. apply run_locked; auto. lockfree_tac.
Qed.
(** SetBit with anything but 0 or 1. *)
Lemma v2_SetBit_bad off data s : WF s -> mu s = false -> data <> 0 -> data <> 1 ->
  run (V2Buffer.SetBit off data) s =
  if 8 * zlen (content s) <=? off then Panicked BufferOverwriteError s
  else if off <? 0 then Panicked BufferUnderwriteError s
  else Panicked BufferInvalidBitError s.
Proof.
  intros W M H0 H1. unfold V2Buffer.SetBit, V2Buffer.setbit. rewrite check_bit by auto.
  destruct (_ <=? _); auto. destruct (_ <? _); auto. rewrite run_locked by (auto; lockfree_tac).
  replace (data =? 0) with false by lia. replace (data =? 1) with false by lia. reflexivity.
Qed.

(** A run of a lock-free program does not change the mutex. *)
Lemma run_mu {A} (p : prog A) m s a s' : lockfree p -> mu s = m -> run p s = Done a s' -> mu s' = m.
Proof. intros L M E. pose proof (run_keeps_mu p L s) as K. rewrite E in K. cbn in K. congruence. Qed.

Lemma lf_ReadBit off : lockfree (V3Buffer.ReadBit off).
Proof. unfold V3Buffer.ReadBit. lockfree_tac. Qed.
Lemma lf_SetBit off : lockfree (V3Buffer.SetBit off).
Proof. unfold V3Buffer.SetBit. lockfree_tac. Qed.
Lemma lf_ClearBit off : lockfree (V3Buffer.ClearBit off).
Proof. unfold V3Buffer.ClearBit. lockfree_tac. Qed.

Lemma v2_ReadBits off n s : mu s = false -> run (V2Buffer.ReadBits off n) s = run (V3Buffer.ReadBits off n) s.
Proof.
  intro M. unfold V2Buffer.ReadBits, V2Buffer.readbits, V3Buffer.ReadBits.
  apply (goto_loop_ext (fun s => mu s = false)); auto.
  - intros i a t Mt. rewrite !run_bind.
    change (V2Buffer.readbit (off +! i)) with (V2Buffer.ReadBit (off +! i)).
    rewrite v2_ReadBit by auto. reflexivity.
  - intros i a t a' t' Mt. apply run_mu; auto. apply lockfree_bind. apply lf_ReadBit. intro; exact I.
Qed.

Lemma bit_byte data c : byte (Z.land (shr 64 data c) 1) = 0 \/ byte (Z.land (shr 64 data c) 1) = 1.
Proof.
  rewrite (Z.land_ones _ 1) by lia. unfold byte, uconv. change (2 ^ 1) with 2. change (2 ^ 8) with 256.
  rewrite (Z.mod_small _ 256); [|].
  - pose proof (Z.mod_pos_bound (shr 64 data c) 2). lia.
  - pose proof (Z.mod_pos_bound (shr 64 data c) 2). lia.
Qed.

Lemma v2_SetBits off data n s : mu s = false -> run (V2Buffer.SetBits off data n) s = run (V3Buffer.SetBits off data n) s.
Proof.
  intro M. unfold V2Buffer.SetBits, V2Buffer.setbits, V3Buffer.SetBits.
  apply (goto_loop_ext (fun s => mu s = false)); auto.
  - intros i a t Mt.
    destruct (bit_byte data (uconv 64 (n -! i -! 1))) as [-> | ->].
    + change (0 =? 0) with true. cbv iota. now apply v2_SetBit0.
    + change (1 =? 0) with false. cbv iota. now apply v2_SetBit1.
  - intros i a t a' t' Mt. apply run_mu; auto.
    destruct (_ =? 0). apply lf_ClearBit. apply lf_SetBit.
Qed.

Lemma v2_ClearAllBits s : mu s = false -> run V2Buffer.ClearAllBits s = run V3Buffer.ClearAllBits s.
Proof. intro M. unfold V3Buffer.ClearAllBits. apply run_locked; auto. lockfree_tac. Qed.
Lemma v2_SetAllBits s : mu s = false -> run V2Buffer.SetAllBits s = run V3Buffer.SetAllBits s.
Proof. intro M. unfold V3Buffer.SetAllBits. apply run_locked; auto. lockfree_tac. Qed.
Lemma v2_FlipAllBits s : mu s = false -> run V2Buffer.FlipAllBits s = run V3Buffer.FlipAllBits s.
Proof. intro M. unfold V3Buffer.FlipAllBits. apply run_locked; auto. lockfree_tac. Qed.

(** ** Offsets *)

Lemma v2_SeekBit off r s : mu s = false -> run (V2Buffer.SeekBit off r) s = run (V3Buffer.SeekBit off r) s.
Proof. intro M. unfold V3Buffer.SeekBit. apply run_locked; auto. lockfree_tac. Qed.
Lemma v2_Seek off r s : mu s = false -> run (V2Buffer.Seek off r) s = run (V3Buffer.SeekByte off r) s.
Proof. intro M. unfold V3Buffer.SeekByte. apply run_locked; auto. lockfree_tac. Qed.
Lemma v2_AlignBit s : mu s = false -> run V2Buffer.AlignBit s = run V3Buffer.AlignBit s.
Proof. intro M. unfold V3Buffer.AlignBit. apply run_locked; auto. lockfree_tac. Qed.
Lemma v2_AlignByte s : mu s = false -> run V2Buffer.AlignByte s = run V3Buffer.AlignByte s.
Proof. intro M. unfold V3Buffer.AlignByte. apply run_locked; auto. lockfree_tac. Qed.
Lemma v2_Refresh s : mu s = false -> run V2Buffer.Refresh s = run V3Buffer.Refresh s.
Proof. intro M. unfold V3Buffer.Refresh. apply run_locked; auto. lockfree_tac. Qed.

(** ** Bytes *)

Lemma run_byte_checks {A} off w e1 e2 (k1 k2 : prog A) s :
  (0 <= off -> run k1 s = run k2 s) ->
  run (bind (get FCap) (fun cap => bind (panic_if (w >? cap) e1)
         (fun _ => bind (panic_if (off <? 0) e2) (fun _ => k1)))) s =
  run (bind (get FCap) (fun cap => bind (panic_if (w >? cap) e1)
         (fun _ => bind (panic_if (off <? 0) e2) (fun _ => k2)))) s.
Proof.
  intro H. cbn [bind get run]. rewrite !run_panic_if_bind. destruct (_ >? _); auto.
  destruct (Z.ltb_spec off 0); auto.
Qed.

Lemma v2_ReadBytes off n s : mu s = false -> run (V2Buffer.ReadBytes off n) s = run (V3Buffer.ReadBytes off n) s.
Proof.
  intro M. unfold V2Buffer.ReadBytes, V2Buffer.read, V3Buffer.ReadBytes.
  apply run_byte_checks. intro. apply run_locked; auto. lockfree_tac.
Qed.
Lemma v2_ReadByte off s : mu s = false -> run (V2Buffer.ReadByte off) s = run (V3Buffer.ReadByte off) s.
Proof.
  intro M. unfold V2Buffer.ReadByte, V3Buffer.ReadByte. rewrite !run_bind.
  change (V2Buffer.read off 1) with (V2Buffer.ReadBytes off 1). now rewrite v2_ReadBytes.
Qed.

(** *** The byte-by-byte copy *)

Lemma length_smear k src : length (smear k src) = length src.
Proof. unfold smear. now rewrite map_length, seq_length. Qed.
Lemma zlen_smear k src : zlen (smear k src) = zlen src.
Proof. unfold zlen. now rewrite length_smear. Qed.

Lemma byte_at_smear k src j : 0 <= j < zlen src ->
  byte_at (smear k src) j = byte_at src (if 0 <? k then j mod k else j).
Proof.
  intro Hj. unfold zlen in Hj. unfold byte_at at 1, smear.
  set (f := fun i : nat => byte_at src (if 0 <? k then Z.of_nat i mod k else Z.of_nat i)).
  rewrite (nth_indep _ 0 (f 0%nat)) by (rewrite map_length, seq_length; lia).
  rewrite map_nth, seq_nth by lia. unfold f. rewrite Nat.add_0_l, Z2Nat.id by lia. reflexivity.
Qed.

Lemma smear_clean k src : (k = 0 \/ zlen src <= k) -> smear k src = src.
Proof.
  intro H. apply byte_at_ext. { apply zlen_smear. }
  intros j Hj. rewrite zlen_smear in Hj. rewrite byte_at_smear by auto.
  destruct (Z.ltb_spec 0 k); auto. rewrite Z.mod_small by lia. reflexivity.
Qed.

Lemma smear_bytes k src : Forall is_byte src -> Forall is_byte (smear k src).
Proof.
  intro H. unfold smear. apply Forall_forall. intros x Hx. apply in_map_iff in Hx.
  destruct Hx as (j & <- & _). now apply byte_at_is_byte.
Qed.

(** Reading a byte of any slice after bytes [off .. off+i) of the buffer were overwritten. *)
Lemma slice_get_after s off x d i :
  WF s -> wf_slice (heap s) d -> 0 <= off -> off + zlen x <= zlen (content s) -> 0 <= i < s_len d ->
  run (slice_get d i) (with_content s (put (content s) off x)) =
  Done (let p := s_off d + i - (s_off (b_buf (bb s)) + off) in
        if Nat.eqb (s_blk d) (s_blk (b_buf (bb s))) && (0 <=? p) && (p <? zlen x)
        then byte_at x p else byte_at (slice_bytes (heap s) d) i)
       (with_content s (put (content s) off x)).
Proof.
  intros W Hd Ho Hx Hi. pose proof (zlen_nonneg x) as Hxn.
  pose proof (content_zlen s W) as CL. pose proof (wf_blk s W) as B1. pose proof (wf_off0 s W).
  pose proof (wf_in s W). pose proof (wf_lencap s W). pose proof (wf_len0 s W).
  assert (Pz : zlen (put (content s) off x) = zlen (content s)) by (apply put_length; lia).
  destruct Hd as (Hb & Hdo & Hl & Hc).
  unfold slice_get. replace ((0 <=? i) && (i <? s_len d)) with true by lia. cbn [run].
  assert (L : length (heap (with_content s (put (content s) off x))) = length (heap s)).
  { unfold with_content, set_heap; cbn [heap]. apply length_put_heap. auto. }
  assert (A : nth (s_blk d) (heap (with_content s (put (content s) off x))) [] =
              if Nat.eqb (s_blk d) (s_blk (b_buf (bb s)))
              then put (nth (s_blk (b_buf (bb s))) (heap s) []) (s_off (b_buf (bb s)) + off) x
              else nth (s_blk d) (heap s) []).
  { unfold with_content, set_heap; cbn [heap]. rewrite nth_put_heap by auto.
    destruct (Nat.eqb_spec (s_blk d) (s_blk (b_buf (bb s)))) as [E|E]; auto.
    unfold content, slice_bytes. apply put_window; lia. }
  assert (AL : zlen (nth (s_blk d) (heap (with_content s (put (content s) off x))) []) =
               zlen (nth (s_blk d) (heap s) [])).
  { rewrite A. destruct (Nat.eqb_spec (s_blk d) (s_blk (b_buf (bb s)))) as [E|E]; auto.
    rewrite E. apply put_length; lia. }
  rewrite heap_read_ok; [|rewrite L; auto|lia|lia|rewrite AL; lia].
  rewrite sub_one by (rewrite AL; lia). f_equal. rewrite A. cbv zeta.
  unfold slice_bytes. rewrite byte_at_sub by lia.
  destruct (Nat.eqb_spec (s_blk d) (s_blk (b_buf (bb s)))) as [E|E]; auto.
  rewrite <- E in *. rewrite byte_at_put by lia. cbn [andb].
  destruct (Z.leb_spec 0 (s_off d + i - (s_off (b_buf (bb s)) + off)));
    destruct (Z.ltb_spec (s_off d + i - (s_off (b_buf (bb s)) + off)) (zlen x)); cbn [andb].
  - replace ((s_off (b_buf (bb s)) + off <=? s_off d + i) && (s_off d + i <? s_off (b_buf (bb s)) + off + zlen x)) with true by lia.
    reflexivity.
  - replace ((s_off (b_buf (bb s)) + off <=? s_off d + i) && (s_off d + i <? s_off (b_buf (bb s)) + off + zlen x)) with false by lia.
    reflexivity.
  - replace ((s_off (b_buf (bb s)) + off <=? s_off d + i) && (s_off d + i <? s_off (b_buf (bb s)) + off + zlen x)) with false by lia.
    reflexivity.
  - replace ((s_off (b_buf (bb s)) + off <=? s_off d + i) && (s_off d + i <? s_off (b_buf (bb s)) + off + zlen x)) with false by lia.
    reflexivity.
Qed.

Definition copy_loop (off : Z) (d : slice) : prog unit :=
  goto_loop (s_len d) (fun i _ => x <- slice_get d i ;; buf_set (off +! i) x) tt.

(** One step of the copy. *)
Lemma copy_step s off d i :
  WF s -> wf_slice (heap s) d -> 0 <= off -> 0 <= i < s_len d -> off + i <= zlen (content s) ->
  run (x <- slice_get d i ;; buf_set (off +! i) x)
      (with_content s (put (content s) off (sub (smear (lag s off d) (slice_bytes (heap s) d)) 0 i))) =
  if off + i <? zlen (content s) then
    Done tt (with_content s (put (content s) off (sub (smear (lag s off d) (slice_bytes (heap s) d)) 0 (i + 1))))
  else Panicked (RuntimeError IndexOutOfRange)
      (with_content s (put (content s) off (sub (smear (lag s off d) (slice_bytes (heap s) d)) 0 i))).
Proof.
  intros W Hd Ho Hi Hn. set (sm := smear (lag s off d) (slice_bytes (heap s) d)).
  assert (Lsrc : zlen (slice_bytes (heap s) d) = s_len d) by (now apply wf_slice_bytes_zlen).
  assert (Lsm : zlen sm = s_len d) by (unfold sm; rewrite zlen_smear; auto).
  assert (Lsub : zlen (sub sm 0 i) = i) by (apply sub_length; lia).
  assert (Bsm : Forall is_byte sm) by (apply smear_bytes, wf_slice_bytes; auto; apply W).
  rewrite run_bind, slice_get_after by (auto; lia).
  cbv zeta. rewrite Lsub.
  match goal with |- context [if Nat.eqb ?a ?b && ?c && ?d' then ?x else ?y] =>
    set (val := if Nat.eqb a b && c && d' then x else y) end.
  assert (V : val = byte_at sm i).
  { assert (VS : forall j, 0 <= j < s_len d -> byte_at sm j =
      byte_at (slice_bytes (heap s) d) (if 0 <? lag s off d then j mod lag s off d else j)).
    { intros j Hj. apply byte_at_smear. lia. }
    unfold val. rewrite VS by lia.
    destruct (Nat.eqb_spec (s_blk d) (s_blk (b_buf (bb s)))) as [E|E]; cbn [andb].
    - assert (Lg : lag s off d = Z.max 0 (s_off (b_buf (bb s)) + off - s_off d)).
      { unfold lag. now rewrite E, Nat.eqb_refl. }
      clearbody sm val. destruct (Z.ltb_spec 0 (lag s off d)).
      + rewrite Z.max_r in Lg by lia. set (k := s_off (b_buf (bb s)) + off - s_off d) in *.
        destruct (Z.leb_spec 0 (s_off d + i - (s_off (b_buf (bb s)) + off)));
          destruct (Z.ltb_spec (s_off d + i - (s_off (b_buf (bb s)) + off)) i); cbn [andb]; try lia.
        * rewrite byte_at_sub by lia. rewrite Z.add_0_l.
          replace (s_off d + i - (s_off (b_buf (bb s)) + off)) with (i - k) by lia.
          rewrite VS by lia. f_equal.
          rewrite Lg. replace (i - k) with (i + (-1) * k) by lia. rewrite Z_mod_plus_full. reflexivity.
        * rewrite Lg, Z.mod_small by lia. reflexivity.
      + replace (s_off d + i - (s_off (b_buf (bb s)) + off) <? i) with false by lia. rewrite andb_false_r. reflexivity.
    - unfold lag. replace (Nat.eqb (s_blk d) (s_blk (b_buf (bb s)))) with false. reflexivity.
      symmetry. now apply Nat.eqb_neq. }
  rewrite V. clearbody val. 
  assert (Pz : zlen (put (content s) off (sub sm 0 i)) = zlen (content s)) by (apply put_length; lia).
  assert (Pb : Forall is_byte (put (content s) off (sub sm 0 i))).
  { apply Forall_put. now apply content_bytes. now apply Forall_sub. }
  assert (W' : WF (with_content s (put (content s) off (sub sm 0 i)))) by (now apply with_content_WF).
  assert (C' : content (with_content s (put (content s) off (sub sm 0 i))) = put (content s) off (sub sm 0 i))
    by (now apply content_with_content).
  assert (E : off +! i = off + i).
  { apply add64_id. pose proof (content_max s W). rewrite max_alloc_val in *. unfold is_i64. lia. }
  rewrite E. destruct (Z.ltb_spec (off + i) (zlen (content s))).
  - rewrite run_buf_set; auto; [|rewrite C', Pz; lia].
    f_equal. rewrite C'. rewrite with_content_twice; [|auto|auto|].
    + f_equal. rewrite (sub_app_split sm 0 i 1) by lia. rewrite Z.add_0_l, (sub_one sm i) by lia.
      rewrite <- Lsub at 2. apply put_put_adj; change (zlen [byte_at sm i]) with 1; lia.
    + rewrite put_length; [auto|lia|]. change (zlen [byte_at sm i]) with 1. lia.
  - rewrite run_buf_set_oob; auto. rewrite C', Pz. lia.
Qed.

(** The whole copy: exact, up to smearing, when the destination fits; otherwise
    it stops with an index error at the end of the buffer. *)
Lemma run_copy_loop s off d :
  WF s -> wf_slice (heap s) d -> 0 <= off < 2 ^ 63 ->
  run (copy_loop off d) s =
  if s_len d =? 0 then Panicked (RuntimeError IndexOutOfRange) s
  else if off + s_len d <=? zlen (content s) then
    Done tt (with_content s (put (content s) off (smear (lag s off d) (slice_bytes (heap s) d))))
  else if off <? zlen (content s) then
    Panicked (RuntimeError IndexOutOfRange)
      (with_content s (put (content s) off
         (sub (smear (lag s off d) (slice_bytes (heap s) d)) 0 (zlen (content s) - off))))
  else Panicked (RuntimeError IndexOutOfRange) s.
Proof.
  intros W Hd Ho.
  pose proof (wf_slice_cap_max _ _ (wf_h s W) Hd) as Hm. rewrite max_alloc_val in Hm.
  pose proof (content_max s W) as M. rewrite max_alloc_val in M. pose proof (zlen_nonneg (content s)).
  assert (S0 : with_content s (put (content s) off (sub (smear (lag s off d) (slice_bytes (heap s) d)) 0 0)) = s).
  { change (sub (smear (lag s off d) (slice_bytes (heap s) d)) 0 0) with (@nil Z).
    rewrite put_nil. now apply with_content_same. }
  destruct (Z.eqb_spec (s_len d) 0) as [E|N].
  { unfold copy_loop. apply goto_loop_first. rewrite run_bind. unfold slice_get. rewrite E. reflexivity. }
  destruct (Z.leb_spec (off + s_len d) (zlen (content s))).
  - edestruct (goto_loop_inv (fun i (_ : unit) t => t =
       with_content s (put (content s) off (sub (smear (lag s off d) (slice_bytes (heap s) d)) 0 i)))
       (fun i _ => x <- slice_get d i ;; buf_set (off +! i) x) (s_len d) tt s) as (a & t & Hr & I).
    + lia.
    + intros i a t Hi ->. exists tt. eexists. split; [|reflexivity].
      rewrite copy_step by (auto; lia). now replace (off + i <? zlen (content s)) with true by lia.
    + now rewrite S0.
    + unfold copy_loop. rewrite Hr. destruct a. f_equal. rewrite I. f_equal. f_equal.
      apply sub_all. rewrite zlen_smear, wf_slice_bytes_zlen by auto. lia.
  - destruct (Z.ltb_spec off (zlen (content s))).
    + edestruct (goto_loop_panic (fun i (_ : unit) t => t =
         with_content s (put (content s) off (sub (smear (lag s off d) (slice_bytes (heap s) d)) 0 i)))
         (fun i _ => x <- slice_get d i ;; buf_set (off +! i) x) (s_len d)
         (zlen (content s) - off) (RuntimeError IndexOutOfRange)
         (fun t => t = with_content s (put (content s) off
         (sub (smear (lag s off d) (slice_bytes (heap s) d)) 0 (zlen (content s) - off)))) tt s)
        as (t & Hr & I).
      * lia.
      * lia.
      * intros i a t Hi ->. exists tt. eexists. split; [|reflexivity].
        rewrite copy_step by (auto; lia). now replace (off + i <? zlen (content s)) with true by lia.
      * intros a t ->. eexists. split; [|reflexivity]. rewrite copy_step by (auto; lia).
        now replace (off + (zlen (content s) - off) <? zlen (content s)) with false by lia.
      * now rewrite S0.
      * unfold copy_loop. rewrite Hr. now rewrite I.
    + unfold copy_loop. apply goto_loop_first.
      assert (Hg : run (slice_get d 0) s = Done (byte_at (slice_bytes (heap s) d) 0) s).
      { destruct Hd as (Hb & Hdo & Hl & Hc).
        unfold slice_get. replace ((0 <=? 0) && (0 <? s_len d)) with true by lia. cbn [run].
        rewrite heap_read_ok by (auto; lia). rewrite sub_one by lia. f_equal.
        unfold slice_bytes. rewrite byte_at_sub by lia. reflexivity. }
      rewrite run_bind, Hg. rewrite add64_id by (unfold is_i64; lia). apply run_buf_set_oob; auto. lia.
Qed.

Lemma lf_copy_loop off d : lockfree (copy_loop off d).
Proof. unfold copy_loop. lockfree_tac. Qed.

(** v2 and v1 WriteBytes. *)
Lemma v2_WriteBytes s off d :
  WF s -> mu s = false -> wf_slice (heap s) d -> is_i64 off ->
  run (V2Buffer.WriteBytes off d) s =
  if zlen (content s) <? off + s_len d
  then (if off + s_len d <? 2 ^ 63 then Panicked BufferOverwriteError s
        else Panicked (RuntimeError IndexOutOfRange) (set_mu s true))
  else if off <? 0 then Panicked BufferUnderwriteError s
  else if s_len d =? 0 then Panicked (RuntimeError IndexOutOfRange) (set_mu s true)
  else Done tt (with_content s (put (content s) off (smear (lag s off d) (slice_bytes (heap s) d)))).
Proof.
  intros W M Hd Ho. unfold V2Buffer.WriteBytes, V2Buffer.write.
  rewrite (check_range s off (s_len d) _ _ _ _ W eq_refl).
  pose proof (wf_slice_cap_max _ _ (wf_h s W) Hd) as Hm. rewrite max_alloc_val in Hm.
  pose proof (content_max s W) as HM. rewrite max_alloc_val in HM. pose proof (zlen_nonneg (content s)).
  fold (copy_loop off d). rewrite run_lock_unlock by (auto using lf_copy_loop).
  unfold is_i64 in Ho.
  destruct (Z.ltb_spec (zlen (content s)) (off + s_len d)).
  - destruct (Z.ltb_spec (off + s_len d) (2 ^ 63)).
    + rewrite add64_id by (unfold is_i64; lia). now replace (_ >? _) with true by lia.
    + assert (E : off +! s_len d = off + s_len d - 2 ^ 64) by (unfold add64, wrap64; lia).
      rewrite E. replace (_ >? _) with false by lia. replace (off <? 0) with false by lia.
      rewrite run_copy_loop by (auto; lia).
      destruct (s_len d =? 0); auto. replace (_ <=? _) with false by lia.
      now replace (off <? zlen (content s)) with false by lia.
  - rewrite add64_id by (unfold is_i64; lia). replace (_ >? _) with false by lia.
    destruct (Z.ltb_spec off 0); auto. rewrite run_copy_loop by (auto; lia).
    destruct (s_len d =? 0); auto. now replace (_ <=? _) with true by lia.
Qed.

Lemma v2_WriteByte s off v :
  WF s -> mu s = false -> is_byte v -> is_i64 off ->
  run (V2Buffer.WriteByte off v) s =
  if zlen (content s) <? off + 1
  then (if off + 1 <? 2 ^ 63 then Panicked BufferOverwriteError (alloc s [v])
        else Panicked (RuntimeError IndexOutOfRange) (set_mu (alloc s [v]) true))
  else if off <? 0 then Panicked BufferUnderwriteError (alloc s [v])
  else Done tt (with_content (alloc s [v]) (put (content s) off [v])).
Proof.
  intros W M Hv Ho. unfold V2Buffer.WriteByte. rewrite run_lit_bytes.
  assert (V1 : Forall is_byte [v]) by (constructor; auto).
  assert (V2 : zlen [v] <= maxAlloc) by (rewrite max_alloc_val; vm_compute; discriminate).
  destruct (lit_wf s [v]) as [Hd Hb]. pose proof (alloc_WF s [v] W V1 V2) as W'.
  pose proof (content_alloc s [v] W) as C.
  set (d := mkSlice (length (heap s)) 0 (zlen [v]) (zlen [v])) in *.
  change (V2Buffer.write off d) with (V2Buffer.WriteBytes off d).
  rewrite v2_WriteBytes; auto. change (s_len d) with 1. rewrite C.
  replace (1 =? 0) with false by lia. bcase; [bcase; auto|]. bcase; [auto|]. do 3 f_equal.
  rewrite Hb. apply smear_clean. left. unfold lag.
  replace (Nat.eqb _ _) with false; auto. symmetry. apply Nat.eqb_neq.
  change (s_blk d) with (length (heap s)). change (bb (alloc s [v])) with (bb s).
  pose proof (wf_blk s W). lia.
Qed.

(** ** Integers *)

Lemma WriteU_canon t off data :
  WriteU t off data =
  (cap <- get FCap ;;
   panic_if (off +! zlen data *! tsize (fmt t) >? cap) BufferOverwriteError ;;
   panic_if (off <? 0) BufferUnderwriteError ;;
   lock ;; MiniWriteT (fmt t) off data ;; unlock).
Proof. destruct t; reflexivity. Qed.
Lemma WriteUNext_canon t data :
  WriteUNext t data =
  (off <- get FOff ;; WriteU t off data ;; V2Buffer.seek (zlen data *! tsize (fmt t)) true).
Proof. destruct t; reflexivity. Qed.
Lemma ReadU_canon t off n :
  ReadU t off n =
  (cap <- get FCap ;;
   panic_if (off +! n *! tsize (fmt t) >? cap) BufferOverreadError ;;
   panic_if (off <? 0) BufferUnderreadError ;;
   out <- make_elems (tsize (fmt t)) n ;;
   locked (goto_loop n (rbody (fmt t) off) out)).
Proof. destruct t; reflexivity. Qed.
Lemma ReadUNext_canon t n :
  ReadUNext t n =
  (off <- get FOff ;; out <- ReadU t off n ;; V2Buffer.seek (n *! tsize (fmt t)) true ;; Ret out).
Proof. destruct t; reflexivity. Qed.

(** A typed write: as in v3, but a panic inside the loop keeps the mutex. *)
Lemma lf_stores bits w off i data l : lockfree (stores bits w off i data l).
Proof.
  induction l as [|[k sh] r IH]; cbn [stores]. exact I.
  destruct r. { lockfree_tac. }
  apply lockfree_bind. apply lockfree_elem. intro. apply lockfree_bind. apply lockfree_buf_set. intro. exact IH.
Qed.
Lemma lf_MiniWriteT t off data : lockfree (MiniWriteT t off data).
Proof. rewrite MiniWriteT_canon. apply lockfree_goto_loop. intros. apply lf_stores. Qed.

Lemma lf_loads {A} w off i ks : forall acc (K : list Z -> prog A),
  (forall l, lockfree (K l)) -> lockfree (loads w off i ks acc K).
Proof.
  induction ks as [|k r IH]; intros acc K HK; cbn [loads]. apply HK.
  apply lockfree_bind. apply lockfree_buf_get. intro. now apply IH.
Qed.
Lemma lf_rbody t off i out : lockfree (rbody t off i out).
Proof. apply lf_loads. intro. apply lockfree_set_elem. Qed.

Lemma v2_ReadT t off n s : mu s = false -> run (ReadU t off n) s = run (ReadT (fmt t) off n) s.
Proof.
  intro M. rewrite ReadU_canon, ReadT_canon. apply run_byte_checks. intros _.
  rewrite !run_bind. unfold make_elems. destruct (_ && _); cbn [run]; auto.
  apply run_locked; auto. apply lockfree_goto_loop. intros. apply lf_rbody.
Qed.

Lemma v2_WriteT t off data s :
  WF s -> mu s = false -> is_i64 off -> wf_data (tsize (fmt t)) data ->
  run (WriteU t off data) s =
  if zlen (content s) <? off + zlen data * tsize (fmt t)
  then (if off + zlen data * tsize (fmt t) <? 2 ^ 63 then Panicked BufferOverwriteError s
        else Panicked index_err (set_mu s true))
  else if off <? 0 then Panicked BufferUnderwriteError s
  else if zlen data =? 0 then Panicked index_err (set_mu s true)
  else Done tt (with_content s (put (content s) off (encode_all (fmt t) data))).
Proof.
  intros W M Ho Hd. rewrite WriteU_canon.
  set (w := tsize (fmt t)) in *. set (L := zlen (content s)).
  pose proof (tsize_pos (fmt t)) as TP. fold w in TP.
  pose proof (content_max s W) as HM. rewrite max_alloc_val in HM. fold L in HM.
  pose proof (zlen_nonneg data). pose proof (zlen_nonneg (content s)) as Lp. fold L in Lp.
  assert (Hd' : 0 <= zlen data * w <= 2 ^ 48).
  { unfold wf_data in Hd. rewrite max_alloc_val in Hd. split; [apply Z.mul_nonneg_nonneg; lia|exact Hd]. }
  rewrite (check_range s off (zlen data * w) _ _ _ _ W) by (rewrite mul64_id; [reflexivity|unfold is_i64; lia]).
  fold L. rewrite run_lock_unlock by (auto using lf_MiniWriteT). rewrite mini_WriteT by auto.
  fold w. fold L. set (N := zlen data * w) in *.
  assert (NN : zlen data = 0 -> N = 0) by (intro Z0; unfold N; rewrite Z0; reflexivity).
  destruct (Z.ltb_spec L (off + N)).
  - destruct (Z.ltb_spec (off + N) (2 ^ 63)).
    + rewrite add64_id by (unfold is_i64 in *; lia). replace (off + N >? L) with true by lia. auto.
    + replace (off +! N >? L) with false.
      * replace (off <? 0) with false by lia. replace (_ || _ || _) with true by lia. auto.
      * unfold add64, wrap64, is_i64 in *. replace ((off + N + 2 ^ 63) mod 2 ^ 64) with (off + N - 2 ^ 63).
        lia. apply Z.mod_unique with 1; lia.
  - rewrite add64_id by (unfold is_i64 in *; lia). replace (off + N >? L) with false by lia.
    destruct (Z.ltb_spec off 0); auto.
    destruct (Z.eqb_spec (zlen data) 0) as [Ez|Ez]; cbn [orb]; auto.
    replace (L <? off) with false by lia. replace (off + N <=? L) with true by lia. auto.
Qed.

(** ** Grow and Reset *)

(** The state after a Grow that fits in the capacity: the bytes behind the
    content become zero and part of it. *)
Definition grown_in_place (s : St) (n : Z) : St :=
  with_content (with_slice (alloc s (zeros n)) (resize (b_buf (bb s)) (zlen (content s) + n)))
               (content s ++ zeros n).

(** Memory and header before the capacity fields are refreshed. *)
Lemma run_grow_steps {A} pol s n (K : unit -> prog A) :
  WF s -> is_i64 n ->
  run (b <- get_buf ;; z <- make_bytes n n ;; s' <- append pol b z ;; x <- set_buf s' ;; K x) s =
  if (n <? 0) || (maxAlloc <? n) then Panicked make_err s
  else if n <=? s_cap (b_buf (bb s)) - zlen (content s) then
    run (K tt) (let t := set_heap s (heap (grown_in_place s n)) in
                set_bb t (upd_buf (bb t) (resize (b_buf (bb s)) (zlen (content s) + n))))
  else if zlen (content s) + n <=? maxAlloc then
    let c := new_cap pol (s_cap (b_buf (bb s))) (zlen (content s) + n) in
    run (K tt) (let t := alloc (alloc s (zeros n)) (content s ++ zeros (c - zlen (content s))) in
                set_bb t (upd_buf (bb t) (mkSlice (length (heap s) + 1) 0 (zlen (content s) + n) c)))
  else Panicked make_err (alloc s (zeros n)).
Proof.
  intros W Hn. pose proof max_alloc_val as MV.
  pose proof (wf_lencap s W). pose proof (wf_len0 s W). pose proof (content_zlen s W) as CL.
  pose proof (content_max s W) as M. pose proof (wf_cap_max s W) as M2.
  pose proof (wf_blk s W) as Hb. pose proof (wf_off0 s W). pose proof (wf_in s W).
  cbn [get_buf bind run]. set (b := b_buf (bb s)) in *.
  unfold make_bytes. destruct ((n <? 0) || (maxAlloc <? n)) eqn:En.
  { replace ((0 <=? n) && (n <=? n) && (n <=? maxAlloc)) with false by lia. reflexivity. }
  replace ((0 <=? n) && (n <=? n) && (n <=? maxAlloc)) with true by lia.
  cbn [bind run]. change (set_heap s (heap s ++ [zeros n])) with (alloc s (zeros n)).
  unfold append. cbn [s_len s_off s_blk].
  assert (N1 : nth (s_blk b) (heap (alloc s (zeros n))) [] = nth (s_blk b) (heap s) []) by (apply nth_alloc_old; auto).
  assert (N2 : nth (length (heap s)) (heap (alloc s (zeros n))) [] = zeros n) by (apply nth_alloc_new).
  assert (L1 : length (heap (alloc s (zeros n))) = S (length (heap s))).
  { unfold alloc, set_heap; cbn [heap]. rewrite app_length; simpl; lia. }
  destruct (Z.leb_spec n (s_cap b - zlen (content s))).
  - replace (s_len b + n <=? s_cap b) with true by lia. cbn [bind run].
    rewrite heap_read_ok; rewrite ?L1, ?N2; try lia. 2: rewrite zlen_zeros; lia.
    rewrite sub_all by (rewrite zlen_zeros; lia).
    rewrite heap_write_ok; rewrite ?L1, ?N1; try lia. 2: rewrite zlen_zeros; lia.
    cbn [bind run set_buf]. cbv zeta. f_equal.
    unfold set_bb, set_heap; cbn [heap bb mu outs]. f_equal; [|f_equal; unfold resize; f_equal; lia].
    unfold grown_in_place, with_content, set_heap, with_slice, set_bb; cbn [heap bb b_buf resize s_blk s_off s_len].
    fold b. rewrite N1. f_equal. f_equal.
    rewrite <- put_put_adj; rewrite ?zlen_app, ?zlen_zeros; try lia.
    rewrite CL. f_equal. symmetry.
    change (content s) with (sub (nth (s_blk b) (heap s) []) (s_off b) (s_len b)). apply put_sub_same; lia.
  - replace (s_len b + n <=? s_cap b) with false by lia. rewrite <- CL.
    destruct (Z.leb_spec (zlen (content s) + n) maxAlloc).
    2: reflexivity.
    set (c := new_cap pol (s_cap b) (zlen (content s) + n)).
    assert (Hcc : zlen (content s) + n <= c <= maxAlloc) by (unfold c, new_cap; lia).
    cbn [bind run].
    assert (N3 : nth (s_blk b) (heap (alloc s (zeros n)) ++ [zeros c]) [] = nth (s_blk b) (heap s) []).
    { rewrite nth_alloc_old by lia. exact N1. }
    assert (N4 : forall x, nth (length (heap s)) (heap (alloc s (zeros n)) ++ [x]) [] = zeros n).
    { intro. rewrite nth_alloc_old by lia. exact N2. }
    cbn [heap set_heap].
    rewrite heap_read_ok; rewrite ?N3; rewrite ?app_length; try lia.
    change (sub (nth (s_blk b) (heap s) []) (s_off b) (zlen (content s))) with (sub (nth (s_blk b) (heap s) []) (s_off b) (zlen (content s))).
    replace (sub (nth (s_blk b) (heap s) []) (s_off b) (zlen (content s))) with (content s) by (rewrite CL; reflexivity).
    rewrite heap_write_ok; rewrite ?nth_alloc_new; rewrite ?app_length; rewrite ?zlen_zeros; simpl length; try lia.
    rewrite put_alloc_new. rewrite put_zeros by lia.
    cbn [heap set_heap].
    rewrite heap_read_ok; rewrite ?N4; rewrite ?app_length; rewrite ?zlen_zeros; simpl length; try lia.
    rewrite sub_all by (rewrite zlen_zeros; lia).
    assert (EL : (length (heap s) + 1)%nat = length (heap s ++ [zeros n])) by (rewrite app_length; reflexivity).
    rewrite EL.
    rewrite heap_write_ok; rewrite ?nth_alloc_new; rewrite ?zlen_app, ?zlen_zeros; try lia.
    2: rewrite (app_length (heap s ++ _)); simpl; lia.
    rewrite put_alloc_new. cbn [bind run set_buf]. cbv zeta. f_equal.
    unfold alloc, set_bb, set_heap; cbn [heap bb mu outs]. f_equal.
    f_equal. f_equal.
    rewrite <- (put_zeros (content s) c) by lia.
    change (zlen (content s)) with (0 + zlen (content s)) at 1.
    rewrite put_put_adj by (rewrite ?zlen_zeros; lia).
    rewrite !put_zeros by (rewrite ?zlen_app, ?zlen_zeros; lia).
    rewrite <- app_assoc. f_equal. rewrite zlen_app, zlen_zeros by lia.
    unfold zeros. rewrite <- repeat_app. f_equal. lia.
Qed.

Lemma grown_in_place_wf s n :
  WF s -> 0 <= n <= s_cap (b_buf (bb s)) - zlen (content s) -> n <= maxAlloc ->
  WF (grown_in_place s n) /\ content (grown_in_place s n) = content s ++ zeros n.
Proof.
  intros W Hn Hm. pose proof (zlen_nonneg (content s)).
  pose proof (alloc_WF s (zeros n) W (Forall_zeros n) ltac:(rewrite zlen_zeros; lia)) as W1.
  pose proof (content_alloc s (zeros n) W) as C1.
  pose proof (content_zlen s W). pose proof (wf_lencap s W).
  assert (W2 : WF (with_slice (alloc s (zeros n)) (resize (b_buf (bb s)) (zlen (content s) + n)))).
  { apply with_slice_WF; auto. change (b_buf (bb s)) with (b_buf (bb (alloc s (zeros n)))).
    apply resize_wf; auto. change (bb (alloc s (zeros n))) with (bb s). lia. }
  assert (L : zlen (content s ++ zeros n) =
     zlen (content (with_slice (alloc s (zeros n)) (resize (b_buf (bb s)) (zlen (content s) + n))))).
  { rewrite (content_zlen _ W2). rewrite zlen_app, zlen_zeros by lia. reflexivity. }
  split. apply with_content_WF; auto. apply Forall_app; split. now apply content_bytes. apply Forall_zeros.
  now apply content_with_content.
Qed.

(** v2 and v1 Grow. *)
Definition v2_grown (pol : Z -> Z -> Z) (s : St) (n : Z) : St :=
  if n <=? s_cap (b_buf (bb s)) - zlen (content s) then grown_in_place s n
  else grown (alloc s (zeros n)) n (new_cap pol (s_cap (b_buf (bb s))) (zlen (content s) + n)).

Lemma v2_grown_wf pol s n :
  WF s -> 0 <= n -> zlen (content s) + n <= maxAlloc ->
  WF (v2_grown pol s n) /\ content (v2_grown pol s n) = content s ++ zeros n.
Proof.
  intros W Hn Hm. pose proof (zlen_nonneg (content s)). unfold v2_grown.
  destruct (Z.leb_spec n (s_cap (b_buf (bb s)) - zlen (content s))).
  - apply grown_in_place_wf; auto; lia.
  - pose proof (alloc_WF s (zeros n) W (Forall_zeros n) ltac:(rewrite zlen_zeros; lia)) as W1.
    pose proof (content_alloc s (zeros n) W) as C1.
    assert (zlen (content s) + n <= new_cap pol (s_cap (b_buf (bb s))) (zlen (content s) + n) <= maxAlloc)
      by (unfold new_cap; lia).
    split. apply grown_WF; rewrite ?C1; auto; lia.
    rewrite content_grown; rewrite ?C1; auto; lia.
Qed.

Lemma mini2_Grow pol s n :
  WF s -> is_i64 n ->
  run (V2Mini.grow pol n) s =
  if (n <? 0) || (maxAlloc <? n) then Panicked make_err s
  else if zlen (content s) + n <=? maxAlloc then Done tt (v2_grown pol s n)
  else Panicked make_err (alloc s (zeros n)).
Proof.
  intros W Hn. unfold V2Mini.grow. rewrite (run_grow_steps pol s n (fun _ => V2Mini.refresh)) by auto.
  pose proof (zlen_nonneg (content s)). pose proof (wf_cap_max s W).
  destruct ((n <? 0) || (maxAlloc <? n)) eqn:En; auto.
  change V2Mini.refresh with V3Buffer.Refresh. unfold v2_grown.
  destruct (Z.leb_spec n (s_cap (b_buf (bb s)) - zlen (content s))).
  - replace (zlen (content s) + n <=? maxAlloc) with true by lia.
    destruct (grown_in_place_wf s n W ltac:(lia) ltac:(lia)) as [W' _].
    cbv zeta. rewrite run_Refresh.
    + f_equal. 
    + exact (wf_h _ W').
    + exact (wf_sl _ W').
  - destruct (Z.leb_spec (zlen (content s) + n) maxAlloc); auto.
    destruct (v2_grown_wf pol s n W ltac:(lia) ltac:(lia)) as [W' _]. revert W'. unfold v2_grown.
    replace (n <=? s_cap (b_buf (bb s)) - zlen (content s)) with false by lia. intro W'.
    cbv zeta. unfold grown in *. rewrite content_alloc in * by auto.
    assert (L1 : length (heap (alloc s (zeros n))) = (length (heap s) + 1)%nat).
    { unfold alloc, set_heap; cbn [heap]. rewrite app_length; simpl; lia. }
    rewrite L1 in *.
    rewrite run_Refresh; [reflexivity| exact (wf_h _ W') | exact (wf_sl _ W')].
Qed.

Lemma set_mu_WF s m : WF s -> WF (set_mu s m).
Proof. intros [A B C D E F]. now constructor. Qed.

Lemma v2_Grow pol s n :
  WF s -> mu s = false -> is_i64 n ->
  run (V2Buffer.Grow pol n) s =
  if (n <? 0) || (maxAlloc <? n) then Panicked make_err (set_mu s true)
  else if zlen (content s) + n <=? maxAlloc then Done tt (v2_grown pol s n)
  else Panicked make_err (set_mu (alloc s (zeros n)) true).
Proof.
  intros W M Hn. unfold V2Buffer.Grow, V2Buffer.grow, lock. cbn [bind run]. rewrite M.
  pose proof (run_grow_steps pol (set_mu s true) n (fun _ => bind unlock (fun _ => V2Buffer.refresh))
                (set_mu_WF s true W) Hn) as E.
  pose proof (run_grow_steps pol s n (fun _ => V3Buffer.Refresh) W Hn) as E1.
  pose proof (mini2_Grow pol s n W Hn) as E2. unfold V2Mini.grow in E2.
  change V2Mini.refresh with V3Buffer.Refresh in E2. rewrite E1 in E2. clear E1.
  etransitivity; [exact E|]. clear E. revert E2.
  change (b_buf (bb (set_mu s true))) with (b_buf (bb s)).
  change (content (set_mu s true)) with (content s).
  change (heap (set_mu s true)) with (heap s).
  destruct (_ || _) eqn:En; auto.
  assert (R : forall t, mu t = true -> run (bind unlock (fun _ => V2Buffer.refresh)) t = run V3Buffer.Refresh (set_mu t false)).
  { intros t Mt. unfold unlock. cbn [bind run]. rewrite Mt. apply (v2_Refresh (set_mu t false)). reflexivity. }
  destruct (n <=? _) eqn:E1.
  - intro E2. rewrite R by reflexivity. 
    assert (W2 : zlen (content s) + n <=? maxAlloc = true) by (pose proof (wf_cap_max s W); lia).
    rewrite W2 in *. rewrite <- E2. f_equal.
    unfold set_bb, set_heap, set_mu; cbn [heap bb mu outs]. now rewrite M.
  - destruct (zlen (content s) + n <=? maxAlloc) eqn:E3; auto.
    intro E2. cbv zeta in *. rewrite R by reflexivity. rewrite <- E2. f_equal.
    unfold alloc, set_bb, set_heap, set_mu; cbn [heap bb mu outs]. now rewrite M.
Qed.

(** v2 Reset: a fresh empty block, everything zero. *)
Definition reset2 (s : St) : St :=
  with_off (with_boff (with_slice (alloc s []) (mkSlice (length (heap s)) 0 0 0)) 0) 0.

Lemma v2_Reset s : mu s = false -> run V2Buffer.Reset s = Done tt (reset2 s).
Proof.
  intro M. unfold V2Buffer.Reset, V2Buffer.reset.
  rewrite run_locked by (auto; unfold empty_slice; lockfree_tac). reflexivity.
Qed.
Lemma mini2_Reset s : run V2Mini.Reset s = Done tt (reset2 s).
Proof. reflexivity. Qed.
Lemma reset2_WF s : WF s -> WF (reset2 s).
Proof.
  intro W. apply with_off_WF; [|unfold is_i64; lia]. apply with_boff_WF; [|unfold is_i64; lia].
  apply with_slice_WF. apply alloc_WF; auto. rewrite max_alloc_val. change (zlen (@nil Z)) with 0. lia.
  unfold wf_slice; simpl. rewrite nth_alloc_new, app_length. change (zlen (@nil Z)) with 0. simpl. lia.
Qed.
