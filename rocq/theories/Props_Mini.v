(** * Props_Mini: properties C35 - C40 and C57 of the v3 [MiniBuffer]. *)
From Coq Require Import ZArith List Bool Lia ZifyBool.
From Verif Require Import GoSem Errors Spec GoLemmas BitLemmas CodecLemmas Typed V3BitLemmas V3ByteLemmas
  TypedCanon TypedLemmas TypedReadLemmas Calls Abs Frame Sim History NewBuf Witness
  MiniAbs MiniLemmas MiniSim MiniHistory.
From Verif Require V3Buffer V3Mini.
Import ListNotations.
Open Scope Z_scope.

(** ** C35 *)

(** The out variable of the call, as the documentation wants it: a zero uint64
    for ReadBits, a slice of [n] elements (with any contents) for a typed read. *)
Definition fresh_out {B} (o : opn B) (out : list Z) : Prop :=
  match o with
  | OReadBits _ => out = [0]
  | ORead _ n => zlen out = n
  | _ => True
  end.
Definition fresh_out_call {B} (c : call B) (out : list Z) : Prop :=
  match c with At _ o | Next o => fresh_out o out | _ => True end.

Lemma put_over {A} (l d : list A) : zlen d = zlen l -> put l 0 d = d.
Proof.
  intro H. unfold put, zlen in *. change (Z.to_nat 0) with O. cbn [firstn app Nat.add].
  rewrite skipn_all2 by lia. apply app_nil_r.
Qed.

Lemma same_at s off o v s' :
  WF s -> is_i64 off -> mini_opn o = true -> valid_opn s o -> fresh_out o (outs s) ->
  run (do_at off o) s = Done v s' ->
  exists out, run (mini_at off o) s = Done v (set_outs s' out).
Proof.
  intros W Hoff Hm Ho Hf. pose proof (content_max s W) as HM. pose proof max_alloc_val as MV.
  pose proof (zlen_nonneg (content s)) as HN. pose proof (set_outs_self s) as SO.
  destruct o as [ | n | | | | data n | d | v0 | n | | t d | t n]; try discriminate;
    cbn [mini_at do_at valid_opn fresh_out] in *;
    rewrite ?run_ret_unit, ?run_ret_int, ?run_ret_bytes, ?run_ret_nums.
  - rewrite run_ReadBit by assumption. destruct (Z.leb_spec (8 * zlen (content s)) off); [discriminate|].
    destruct (Z.ltb_spec off 0); [discriminate|]. intro E; inversion E; subst. exists (outs s').
    rewrite mini_ReadBit, SO by (auto; lia). reflexivity.
  - (* ReadBits *)
    destruct (Z_lt_dec off 0); [rewrite run_ReadBits_start by (auto; lia); discriminate|].
    destruct (Z_le_dec (8 * zlen (content s)) off); [rewrite run_ReadBits_start by (auto; lia); discriminate|].
    rewrite run_bind. destruct (Z_le_dec n 0).
    { rewrite run_ReadBits_nonpos by (auto; lia). intro E; inversion E; subst.
      exists [Z.b2z (bit_at (content s') off)].
      unfold V3Mini.ReadBits.
      rewrite (goto_loop_once n _ tt s' tt (set_outs s' [Z.b2z (bit_at (content s') off)])).
      - reflexivity.
      - lia.
      - rewrite run_bind, add64_id by (unfold is_i64 in *; lia). rewrite Z.add_0_r.
        rewrite mini_ReadBit by (auto; lia). cbn [run]. rewrite Hf. reflexivity. }
    destruct (Z_lt_dec (8 * zlen (content s)) (off + n)).
    { rewrite run_ReadBits_overrun by (auto; unfold is_i64 in *; lia). discriminate. }
    rewrite run_ReadBits by (auto; lia). intro E; inversion E; subst.
    rewrite (mini_ReadBits s' off n 0) by (auto; lia). cbn [run out_int outs set_outs hd].
    eexists. rewrite Z.mul_0_l, Z.add_0_l. reflexivity.
  - rewrite run_SetBit by assumption. destruct (Z.leb_spec (8 * zlen (content s)) off); [discriminate|].
    destruct (Z.ltb_spec off 0); [discriminate|]. intro E; inversion E; subst.
    exists (outs s). rewrite mini_SetBit by (auto; lia). reflexivity.
  - rewrite run_ClearBit by assumption. destruct (Z.leb_spec (8 * zlen (content s)) off); [discriminate|].
    destruct (Z.ltb_spec off 0); [discriminate|]. intro E; inversion E; subst.
    exists (outs s). rewrite mini_ClearBit by (auto; lia). reflexivity.
  - rewrite run_FlipBit by assumption. destruct (Z.leb_spec (8 * zlen (content s)) off); [discriminate|].
    destruct (Z.ltb_spec off 0); [discriminate|]. intro E; inversion E; subst.
    exists (outs s). rewrite mini_FlipBit by (auto; lia). reflexivity.
  - (* SetBits *) destruct Ho as [Hd Hn].
    destruct (Z_lt_dec off 0); [rewrite run_SetBits_start by (auto; lia); discriminate|].
    destruct (Z_le_dec (8 * zlen (content s)) off); [rewrite run_SetBits_start by (auto; lia); discriminate|].
    destruct (Z_le_dec n 0).
    { rewrite run_SetBits_nonpos by (auto; lia). intro E; inversion E; subst.
      exists (outs s). rewrite mini_SetBits_all by auto. replace (Z.max 1 n) with 1 by lia.
      change (Z.to_nat 1) with 1%nat. cbn [mwrite]. unfold mupd, in_bits.
      replace ((0 <=? off) && (off <? 8 * zlen (content s))) with true by lia.
      unfold field_bit. rewrite Z.testbit_neg_r by lia. reflexivity. }
    destruct (Z_lt_dec (8 * zlen (content s)) (off + n)).
    { rewrite run_SetBits_overrun by (auto; unfold is_i64 in *; lia). discriminate. }
    rewrite run_SetBits by (auto; lia). intro E; inversion E; subst.
    exists (outs s). rewrite mini_SetBits by (auto; lia). reflexivity.
  - (* WriteBytes *) rewrite run_WriteBytes by assumption.
    destruct (Z.ltb_spec (zlen (content s)) (off + s_len d)); [bcase; discriminate|].
    destruct (Z.ltb_spec off 0); [discriminate|]. intro E; inversion E; subst.
    pose proof (wf_slice_bytes_zlen _ _ Ho) as L. assert (0 <= s_len d) by apply Ho.
    exists (outs s). rewrite mini_WriteBytes by auto.
    replace ((0 <=? off) && (off <=? zlen (content s))) with true by lia.
    rewrite sub_all by lia. reflexivity.
  - (* ReadBytes *) rewrite run_ReadBytes_raw by assumption.
    destruct (off +! n >? zlen (content s)) eqn:E1; [discriminate|].
    destruct (Z.ltb_spec off 0); [discriminate|].
    destruct (Z.leb_spec off (off +! n)); [|discriminate]. intro E; inversion E; subst.
    exists (outs s'). rewrite mini_ReadBytes by assumption.
    pose proof (wf_lencap s' W). rewrite content_zlen in E1 by assumption.
    replace ((0 <=? off) && (off <=? off +! n) && (off +! n <=? s_cap (b_buf (bb s')))) with true by lia.
    rewrite SO. reflexivity.
  - (* Write *) rewrite run_WriteT by assumption.
    destruct (Z.ltb_spec (zlen (content s)) (off + zlen d * tsize t)); [bcase; discriminate|].
    destruct (Z.ltb_spec off 0); [discriminate|].
    destruct (Z.eqb_spec (zlen d) 0); [discriminate|]. intro E; inversion E; subst.
    exists (outs s). rewrite mini_WriteT by assumption. pose proof (tsize_pos t). pose proof (zlen_nonneg d).
    replace ((zlen d =? 0) || (off <? 0) || (zlen (content s) <? off)) with false by nia.
    replace (off + zlen d * tsize t <=? zlen (content s)) with true by lia. reflexivity.
  - (* Read *) rewrite run_ReadT by assumption.
    destruct (off +! n *! tsize t >? zlen (content s)) eqn:E1; [discriminate|].
    destruct (Z.ltb_spec off 0); [discriminate|].
    destruct ((n <? 0) || (maxAlloc <? n * tsize t)) eqn:E2; [discriminate|].
    destruct ((n =? 0) || (zlen (content s) <? off + n * tsize t)) eqn:E3; [discriminate|].
    intro E; inversion E; subst v s'.
    rewrite run_bind, mini_ReadT_ok by (auto; lia). cbn [run out_nums outs set_outs].
    eexists. f_equal. f_equal. apply put_over. rewrite Hf. unfold zlen. rewrite decode_all_length. lia.
Qed.

Theorem C35_same_as_Buffer : forall s c v s', WF s -> valid_mini s c (outs s) -> fresh_out_call c (outs s) ->
  run (do_call c) s = Done v s' ->
  exists out, run (mini_call c) s = Done v (set_outs s' out).
Proof.
  intros s c v s' W (Hm & Hc & Hv) Hf E.
  assert (SAME : do_call c = mini_call c -> exists out, run (mini_call c) s = Done v (set_outs s' out)).
  { intros <-. exists (outs s'). rewrite set_outs_self. exact E. }
  pose proof (wf_lencap s W) as LC. pose proof (content_zlen s W) as CZ.
  destruct c as [off o | o | | | | off r | off r | off | off | | | n | n | n | | | | | | | ];
    cbn [mini_method valid_call fresh_out_call] in *;
    try (apply SAME; reflexivity); clear SAME.
  - destruct Hc. eapply same_at; eauto.
  - cbn [do_call mini_call] in *. rewrite run_do_next in E. rewrite run_mini_next by assumption.
    destruct (run (do_at (cursor s (bit_addressed o)) o) s) as [v1 s1| | |] eqn:R; try discriminate.
    inversion E; subst v s'.
    destruct (same_at s _ o v1 s1 W (cursor_i64 s _ W) Hm Hc Hf R) as (out & ->). exists out.
    destruct (bit_addressed o); reflexivity.
  - cbn [do_call mini_call] in *. rewrite run_ret_unit in *. rewrite run_TruncateLeft in E by assumption.
    rewrite mini_TruncateLeft by assumption. destruct (Z.ltb_spec n 0); [discriminate|].
    destruct (Z.leb_spec n (zlen (content s))); [|discriminate]. inversion E; subst.
    exists (outs s). replace ((0 <=? n) && true) with true by lia. reflexivity.
  - cbn [do_call mini_call] in *. rewrite run_ret_unit in *. rewrite run_TruncateRight in E by assumption.
    rewrite mini_TruncateRight by assumption. destruct (Z.ltb_spec n 0); [discriminate|].
    destruct (Z.leb_spec n (zlen (content s))); [|discriminate]. inversion E; subst.
    exists (outs s). replace ((0 <=? zlen (content s) - n) && (zlen (content s) - n <=? s_cap (b_buf (bb s)))) with true by lia.
    reflexivity.
  - cbn [do_call mini_call] in *. rewrite run_ret_unit in *. rewrite run_Grow in E by assumption.
    rewrite mini_Grow by assumption. pose proof (zlen_nonneg (content s)).
    destruct (Z.ltb_spec n 0); [discriminate|].
    destruct (Z.leb_spec n (s_cap (b_buf (bb s)) - zlen (content s))).
    + inversion E; subst. exists (outs s). replace (0 <=? zlen (content s) + n) with true by lia. reflexivity.
    + destruct (Z.leb_spec (2 * (s_cap (b_buf (bb s)) + n)) maxAlloc); [|discriminate].
      inversion E; subst. exists (outs s). reflexivity.
Qed.
Print Assumptions C35_same_as_Buffer.

(** The constructors do the same. *)
Theorem C35_same_constructor : forall pol slices s,
  run (V3Mini.NewMiniBuffer pol slices) s = run (V3Buffer.NewBuffer pol slices) s.
Proof. reflexivity. Qed.
Print Assumptions C35_same_constructor.

Example C35_case :
  run (do_call (Next (ORead U16LE 1))) (set_outs ex [12]) = Done (RNums [0xff0f]) (with_off (set_outs ex [12]) 3) /\
  run (mini_call (Next (ORead U16LE 1))) (set_outs ex [12]) = Done (RNums [0xff0f]) (with_off (set_outs ex [0xff0f]) 3).
Proof. split; vm_compute; reflexivity. Qed.
Example C35_case_hyp : WF (set_outs ex [12]) /\ valid_mini (set_outs ex [12]) (Next (ORead U16LE 1)) [12] /\
  fresh_out_call (Next (@ORead slice U16LE 1)) [12].
Proof. split; [wf_state|]. vm_compute. repeat split; congruence. Qed.

(** ** C36 *)

(** One call: it returns or it panics; it never faults, i.e. never leaves the
    backing arrays of the slices it was given. *)
Theorem C36_call_is_safe : forall s c, WF s -> valid_mini s c (outs s) ->
  exists s', WF s' /\ ((exists v, run (mini_call c) s = Done v s') \/ (exists e, run (mini_call c) s = Panicked e s')).
Proof.
  intros s c W V. pose proof (mini_call_sim s c W V) as S.
  destruct (run (mini_call c) s) as [v s'|e s'|s'|]; cbn [msim] in S; try contradiction;
    destruct S as [_ G]; exists s'; (split; [destruct (g_wf _ _ G); constructor; assumption|]); eauto.
Qed.
Print Assumptions C36_call_is_safe.

(** From construction on, through any history of calls with any arguments. *)
Theorem C36_histories_are_safe : forall pol s0 slices,
  wf_heap (heap s0) -> zlen slices < 2 ^ 63 -> Forall (wf_slice (heap s0)) slices ->
  (exists s1, run (V3Mini.NewMiniBuffer pol slices) s0 = Done tt s1 /\ WF s1 /\
     forall es, valid_mevents es s1 -> exists a s', mexec es s1 = Some (a, s') /\ WF s') \/
  (exists s1, run (V3Mini.NewMiniBuffer pol slices) s0 = Panicked (RuntimeError MakeLenOutOfRange) s1).
Proof.
  intros pol s0 slices H1 H2 H3. rewrite C35_same_constructor.
  pose proof (NewBuffer_any pol s0 slices H1 H2 H3) as N.
  destruct (_ <=? _).
  - left. destruct N as (s' & E & F). exists s'. split; [exact E|]. pose proof (fb_wf _ _ _ F) as W.
    split; [exact W|]. intros es V. destruct (mexec_refines es s' W V) as (a & s'' & E' & W' & _). eauto.
  - right. destruct N as (s' & E & _). eauto.
Qed.
Print Assumptions C36_histories_are_safe.

(** Bytes outside the backing region are never written by the MiniBuffer: they
    change only when the caller changes them. *)
Theorem C36_isolation : forall es s a s' b i,
  WF s -> valid_mevents es s -> mexec es s = Some (a, s') ->
  (b < length (heap s))%nat -> 0 <= i -> outside s b i -> mcaller_spares b i es ->
  mem (heap s') b i = mem (heap s) b i.
Proof. intros es s a s' b i W V E Hb Hi O C. apply (mexec_outside es s a s' b i W V E Hb Hi O C). Qed.
Print Assumptions C36_isolation.

Definition ex_mhistory : list mevent :=
  [MCall (At (-3) OSetBit) []; MCall (Next (OReadBits 4)) [1]; MCall (At (-2 ^ 63) OReadBit) [];
   MCall (CTruncateRight (-2)) []; MStore 0 5 100; MCall (At 3 (OWrite U32BE [0x11223344])) [];
   MCall (At 2 (OReadBytes 100)) []; MCall (At 4 (ORead U16BE 1)) [7; 7]; MCall (CGrow (-3)) [];
   MCall (At (-4) (OSetBits 1000 30)) []; MCall (CGrow (2 ^ 63 - 1)) []; MCall CBytes []].

Example C36_case : exists s', mexec ex_mhistory ex =
  Some ([MReturned RUnit []; MReturned (RInt 18) [18]; MRaised index_error []; MReturned RUnit [];
         MRaised index_error []; MRaised slice_error []; MReturned (RNums [8755; 7]) [8755; 7]; MReturned RUnit [];
         MRaised index_error []; MRaised make_error [];
         MReturned (RBytes [0; 0; 250]) []], s').
Proof. eexists. vm_compute. reflexivity. Qed.
Example C36_case_valid : valid_mevents ex_mhistory ex.
Proof.
  vm_compute. repeat split; try discriminate; repeat constructor; discriminate.
Qed.

(** ** C37 *)

(** The bytes that fit, [k] of them, are stored and nothing is reported. *)
Theorem C37_WriteBytes_prefix : forall s off d k,
  WF s -> wf_arg s d -> 0 <= off <= zlen (content s) ->
  k = Z.min (s_len d) (zlen (content s) - off) ->
  exists s', run (V3Mini.WriteBytes off d) s = Done tt s' /\ becomes s (content s') s' /\ WF s' /\
    zlen (content s') = zlen (content s) /\
    forall i, 0 <= i < zlen (content s) ->
      byte_at (content s') i =
      if (off <=? i) && (i <? off + k) then byte_at (slice_bytes (heap s) d) (i - off)
      else byte_at (content s) i.
Proof.
  intros s off d k W Hd Ho ->. rewrite mini_WriteBytes by assumption.
  replace ((0 <=? off) && (off <=? zlen (content s))) with true by lia.
  pose proof (wf_slice_bytes_zlen _ _ Hd) as L. assert (L0 : 0 <= s_len d) by apply Hd.
  rewrite (Z.min_comm (s_len d)).
  set (k := Z.min (zlen (content s) - off) (s_len d)).
  assert (SL : zlen (sub (slice_bytes (heap s) d) 0 k) = k) by (apply sub_length; lia).
  assert (F : Forall is_byte (slice_bytes (heap s) d)) by (apply wf_slice_bytes; auto; apply (wf_h s W)).
  destruct (put_fits s off (sub (slice_bytes (heap s) d) 0 k)) as [PZ PB]; auto; try lia. { now apply Forall_sub. }
  eexists. split; [reflexivity|]. rewrite content_with_content by auto.
  split; [now apply with_content_becomes|]. split; [now apply with_content_WF|]. split; [exact PZ|].
  intros i Hi. rewrite byte_at_put by lia. rewrite SL.
  destruct ((off <=? i) && (i <? off + k)) eqn:E; [|reflexivity].
  rewrite byte_at_sub by lia. reflexivity.
Qed.
Print Assumptions C37_WriteBytes_prefix.

(** WriteBytesNext advances by the length of the data, also when it did not fit. *)
Theorem C37_WriteBytesNext_advances : forall s d,
  WF s -> wf_arg s d -> 0 <= b_off (bb s) <= zlen (content s) ->
  exists s', run (V3Mini.WriteBytesNext d) s = Done tt s' /\
    b_off (bb s') = b_off (bb s) + s_len d /\
    (zlen (content s) < b_off (bb s) + s_len d <-> zlen (content s') < b_off (bb s')).
Proof.
  intros s d W Hd Ho.
  destruct (C37_WriteBytes_prefix s (b_off (bb s)) d _ W Hd Ho eq_refl) as (s1 & E & (_ & B & _) & W1 & Z1 & _).
  pose proof (content_max s W) as M. rewrite max_alloc_val in M.
  assert (s_len d <= maxAlloc).
  { destruct Hd as (D1 & D2 & D3 & D4). destruct W as [Wh _ _ _ _ _]. unfold wf_heap in Wh. rewrite Forall_forall in Wh.
    destruct (Wh (nth (s_blk d) (heap s) [])) as [_ Q]. { apply nth_In. lia. } lia. }
  assert (0 <= s_len d) by apply Hd.
  unfold V3Mini.WriteBytesNext. rewrite run_bind. cbn [run get].
  change (get_fld (bb s) FOff) with (b_off (bb s)). rewrite run_bind, E.
  change V3Mini.SeekByte with V3Buffer.SeekByte. rewrite run_SeekByte.
  eexists. split; [reflexivity|].
  cbn [bb with_off set_bb b_off]. rewrite B. rewrite max_alloc_val in *.
  rewrite add64_id by (unfold is_i64; lia). split; [reflexivity|].
  match goal with |- context [content (with_off s1 ?x)] => change (content (with_off s1 x)) with (content s1) end. rewrite Z1.
  reflexivity.
Qed.
Print Assumptions C37_WriteBytesNext_advances.

Example C37_case :
  run (V3Mini.WriteBytesNext (mkSlice 1 0 3 3)) (with_off ex 2) =
  Done tt (with_off (with_content ex [165; 15; 9; 9]) 5) /\ zlen (content ex) = 4.
Proof. split; vm_compute; reflexivity. Qed.
Example C37_case_hyp : WF (with_off ex 2) /\ wf_arg (with_off ex 2) (mkSlice 1 0 3 3) /\ 0 <= 2 <= zlen (content ex).
Proof. split; [wf_state|]. vm_compute. repeat split; congruence || lia. Qed.

(** ** C38 *)

Theorem C38_typed_write_prefix : forall t s off data,
  WF s -> wf_data (tsize t) data -> 0 <= off <= zlen (content s) ->
  zlen (content s) < off + zlen data * tsize t ->
  exists s', run (MiniWriteT t off data) s = Panicked (RuntimeError IndexOutOfRange) s' /\
    becomes s (content s') s' /\ WF s' /\ zlen (content s') = zlen (content s) /\
    forall i, 0 <= i < zlen (content s) ->
      byte_at (content s') i =
      if off <=? i then byte_at (encode_all t data) (i - off) else byte_at (content s) i.
Proof.
  intros t s off data W Hd Ho Hl. pose proof (content_max s W) as M. rewrite max_alloc_val in M.
  rewrite mini_WriteT by (auto; unfold is_i64; lia). pose proof (tsize_pos t). pose proof (zlen_nonneg data).
  replace ((zlen data =? 0) || (off <? 0) || (zlen (content s) <? off)) with false by nia.
  replace (off + zlen data * tsize t <=? zlen (content s)) with false by lia.
  pose proof (encode_all_zlen t data) as EZ. pose proof (encode_all_bytes t data) as EB.
  set (k := zlen (content s) - off).
  assert (SL : zlen (sub (encode_all t data) 0 k) = k) by (apply sub_length; lia).
  destruct (put_fits s off (sub (encode_all t data) 0 k)) as [PZ PB]; auto; try lia. { now apply Forall_sub. }
  eexists. split; [reflexivity|]. rewrite content_with_content by auto.
  split; [now apply with_content_becomes|]. split; [now apply with_content_WF|]. split; [exact PZ|].
  intros i Hi. rewrite byte_at_put by lia. rewrite SL.
  replace (i <? off + k) with true by lia. rewrite andb_true_r.
  destruct (Z.leb_spec off i); [|reflexivity]. rewrite byte_at_sub by lia. reflexivity.
Qed.
Print Assumptions C38_typed_write_prefix.

(** A failed WriteTNext leaves the offset where it was. *)
Theorem C38_typed_next_keeps_offset : forall t s data e s', WF s -> wf_data (tsize t) data ->
  run (MiniWriteTNext t data) s = Panicked e s' -> b_off (bb s') = b_off (bb s) /\ b_boff (bb s') = b_boff (bb s).
Proof.
  intros t s data e s' W Hd E. pose proof (run_mini_next (OWrite t data) s eq_refl) as N.
  cbn [mini_next mini_at bit_addressed cursor] in N. rewrite !run_ret_unit, E in N.
  rewrite mini_WriteT in N by (auto; apply (wf_off s W)).
  destruct (_ || _ || _); [inversion N; auto|]. destruct (_ <=? _); [discriminate|]. inversion N; auto.
Qed.
Print Assumptions C38_typed_next_keeps_offset.

Example C38_case : run (MiniWriteT U32BE 1 [0x11223344]) ex =
  Panicked (RuntimeError IndexOutOfRange) (with_content ex [165; 17; 34; 51]).
Proof. vm_compute. reflexivity. Qed.
Example C38_case_hyp : WF ex /\ wf_data (tsize U32BE) [0x11223344] /\ 0 <= 1 <= zlen (content ex) /\
  zlen (content ex) < 1 + zlen [0x11223344] * tsize U32BE.
Proof. split; [exact ex_WF|]. vm_compute. repeat split; congruence. Qed.

(** ** C39 *)

(** [bits_num l off n] is the number whose bits are the [n] bits from [off] on. *)
Theorem C39_ReadBits_accumulates : forall s off n x,
  WF s -> outs s = [x] -> is_u64 x -> 1 <= n -> 0 <= off -> off + n <= 8 * zlen (content s) ->
  run (V3Mini.ReadBits off n) s =
  Done tt (set_outs s [(x * 2 ^ n + bits_num (content s) off (Z.to_nat n)) mod 2 ^ 64]).
Proof. intros. apply mini_ReadBits; auto. Qed.
Print Assumptions C39_ReadBits_accumulates.

(** So the value read is the field if and only if the old bits of [*out] are
    shifted out, i.e. 2^64 divides old * 2^n. *)
Theorem C39_when_it_is_the_field : forall s off n x,
  WF s -> outs s = [x] -> is_u64 x -> 1 <= n -> 0 <= off -> off + n <= 8 * zlen (content s) ->
  run (V3Mini.ReadBits off n) s = Done tt (set_outs s [bits_num (content s) off (Z.to_nat n) mod 2 ^ 64]) <->
  (x * 2 ^ n) mod 2 ^ 64 = 0.
Proof.
  intros s off n x W Hx Hu Hn Ho Hl. rewrite (C39_ReadBits_accumulates s off n x) by assumption.
  set (v := bits_num _ _ _). split.
  - intro E. inversion E as [E1].
    assert (E2 : ((x * 2 ^ n + v) - v) mod 2 ^ 64 = 0).
    { rewrite Zminus_mod, E1, Z.sub_diag. reflexivity. }
    replace (x * 2 ^ n + v - v) with (x * 2 ^ n) in E2 by ring. exact E2.
  - intro E. rewrite Z.add_mod by lia. rewrite E, Z.add_0_l, Z.mod_mod by lia. reflexivity.
Qed.
Print Assumptions C39_when_it_is_the_field.

Theorem C39_fresh_or_wide : forall s off n x,
  WF s -> outs s = [x] -> is_u64 x -> 1 <= n -> 0 <= off -> off + n <= 8 * zlen (content s) ->
  x = 0 \/ 64 <= n ->
  run (V3Mini.ReadBits off n) s = Done tt (set_outs s [bits_num (content s) off (Z.to_nat n) mod 2 ^ 64]).
Proof.
  intros s off n x W Hx Hu Hn Ho Hl H. apply (C39_when_it_is_the_field s off n x); auto.
  destruct H as [->|H]; [reflexivity|].
  replace (2 ^ n) with (2 ^ (n - 64) * 2 ^ 64) by (rewrite <- Z.pow_add_r by lia; f_equal; lia).
  rewrite Z.mul_assoc. apply Z.mod_mul. lia.
Qed.
Print Assumptions C39_fresh_or_wide.

Example C39_case : exists s', run (V3Mini.ReadBits 2 3) (set_outs ex [1]) = Done tt s' /\
  outs s' = [12] /\ bits_num (content ex) 2 3 = 4.
Proof. eexists. split; [vm_compute; reflexivity|]. vm_compute. split; reflexivity. Qed.
Example C39_case_hyp : WF (set_outs ex [1]) /\ outs (set_outs ex [1]) = [1] /\ is_u64 1 /\ 2 + 3 <= 8 * zlen (content (set_outs ex [1])).
Proof. split; [wf_state|]. vm_compute. repeat split; congruence. Qed.

(** ** C40 *)

(** The seven positions before a non-empty buffer. *)
Theorem C40_phantom_bits : forall s off, WF s -> -7 <= off <= -1 -> 1 <= zlen (content s) ->
  run (V3Mini.ReadBit off) s = Done 0 s /\ run (V3Mini.SetBit off) s = Done tt s /\
  run (V3Mini.ClearBit off) s = Done tt s /\ run (V3Mini.FlipBit off) s = Done tt s.
Proof.
  intros s off W Ho Hl.
  assert (I : in_bits (content s) off = false) by (unfold in_bits; lia).
  assert (P : phantom (content s) off = true) by (unfold phantom; lia).
  rewrite mini_ReadBit_all, mini_SetBit_all, mini_ClearBit_all, mini_FlipBit_all by assumption.
  unfold mbit, mupd. rewrite I, P. rewrite with_content_same by assumption. auto.
Qed.
Print Assumptions C40_phantom_bits.

(** Every other position outside. *)
Theorem C40_out_of_range_bits : forall s off, WF s -> is_i64 off ->
  off < -7 \/ 8 * zlen (content s) <= off \/ (off < 0 /\ zlen (content s) = 0) ->
  run (V3Mini.ReadBit off) s = Panicked (RuntimeError IndexOutOfRange) s /\
  run (V3Mini.SetBit off) s = Panicked (RuntimeError IndexOutOfRange) s /\
  run (V3Mini.ClearBit off) s = Panicked (RuntimeError IndexOutOfRange) s /\
  run (V3Mini.FlipBit off) s = Panicked (RuntimeError IndexOutOfRange) s.
Proof.
  intros s off W Hi Ho. pose proof (zlen_nonneg (content s)).
  assert (I : in_bits (content s) off = false) by (unfold in_bits; lia).
  assert (P : phantom (content s) off = false) by (unfold phantom; lia).
  rewrite mini_ReadBit_all, mini_SetBit_all, mini_ClearBit_all, mini_FlipBit_all by assumption.
  unfold mbit, mupd. rewrite I, P. auto.
Qed.
Print Assumptions C40_out_of_range_bits.

(** ReadBytes gives the bytes of the array, also behind the length; a request
    beyond the capacity, with a negative offset or a negative count panics. *)
Theorem C40_ReadBytes : forall s off n, WF s -> is_i64 off -> is_i64 n ->
  (0 <= off /\ 0 <= n /\ off + n <= s_cap (b_buf (bb s)) /\
   exists r, run (V3Mini.ReadBytes off n) s = Done r s /\
     slice_bytes (heap s) r = sub (content s ++ spare s) off n) \/
  ((off < 0 \/ n < 0 \/ s_cap (b_buf (bb s)) < off + n) /\
   run (V3Mini.ReadBytes off n) s = Panicked (RuntimeError SliceOutOfRange) s).
Proof.
  intros s off n W Ho Hn. rewrite mini_ReadBytes by assumption.
  pose proof (wf_cap_max s W) as M. rewrite max_alloc_val in M. unfold is_i64 in *.
  pose proof (wf_off0 s W) as O0.
  destruct ((0 <=? off) && (off <=? off +! n) && (off +! n <=? s_cap (b_buf (bb s)))) eqn:E.
  - assert (A : off +! n = off + n) by (unfold add64, wrap64 in *; lia). rewrite A in *.
    left. split; [lia|]. split; [lia|]. split; [lia|]. eexists. split; [reflexivity|].
    rewrite <- array_split by assumption. rewrite sub_sub by lia. unfold slice_bytes, window. cbn.
    f_equal. lia.
  - right. split; [|reflexivity]. unfold add64, wrap64 in E. lia.
Qed.
Print Assumptions C40_ReadBytes.

(** Grow by a negative amount shrinks; TruncateRight by a negative amount grows
    into the spare bytes. *)
Theorem C40_Grow_negative : forall s k, WF s -> 0 <= k <= zlen (content s) ->
  exists s', run (V3Mini.Grow (- k)) s = Done tt s' /\
    content s' = sub (content s) 0 (zlen (content s) - k) /\
    spare s' = sub (content s) (zlen (content s) - k) k ++ spare s /\ heap s' = heap s.
Proof.
  intros s k W Hk. pose proof (content_max s W) as M. rewrite max_alloc_val in M.
  pose proof (wf_lencap s W) as LC. pose proof (content_zlen s W) as CZ. pose proof (spare_zlen s W) as SZ.
  rewrite mini_Grow by (auto; unfold is_i64; lia).
  replace (- k <=? s_cap (b_buf (bb s)) - zlen (content s)) with true by lia.
  replace (0 <=? zlen (content s) + - k) with true by lia.
  eexists. split; [reflexivity|]. rewrite content_resize_shrink by (auto; lia). rewrite spare_resize by (auto; lia).
  replace (zlen (content s) + - k) with (zlen (content s) - k) by lia.
  split; [reflexivity|]. split; [|reflexivity]. rewrite sub_mid by lia.
  replace (zlen (content s) - (zlen (content s) - k)) with k by lia.
  f_equal. apply sub_all. lia.
Qed.
Print Assumptions C40_Grow_negative.

Theorem C40_TruncateRight_negative : forall s k, WF s -> 0 <= k <= zlen (spare s) ->
  exists s', run (V3Mini.TruncateRight (- k)) s = Done tt s' /\
    content s' = content s ++ sub (spare s) 0 k /\
    spare s' = sub (spare s) k (zlen (spare s) - k) /\ heap s' = heap s.
Proof.
  intros s k W Hk. pose proof (wf_cap_max s W) as M. rewrite max_alloc_val in M.
  pose proof (wf_lencap s W) as LC. pose proof (content_zlen s W) as CZ. pose proof (spare_zlen s W) as SZ.
  pose proof (zlen_nonneg (content s)).
  rewrite mini_TruncateRight by (auto; unfold is_i64; lia).
  replace ((0 <=? zlen (content s) - - k) && (zlen (content s) - - k <=? s_cap (b_buf (bb s)))) with true by lia.
  eexists. split; [reflexivity|].
  replace (zlen (content s) - - k) with (zlen (content s) + k) by lia.
  rewrite content_resize_grow by (auto; lia). rewrite spare_resize by (auto; lia).
  split; [reflexivity|]. split; [|reflexivity].
  replace (content s ++ spare s) with ((content s ++ sub (spare s) 0 k) ++ sub (spare s) k (zlen (spare s) - k)).
  2:{ rewrite <- app_assoc. f_equal. rewrite <- (Z.add_0_l k) at 2. rewrite <- sub_app_split by lia.
      apply sub_all. lia. }
  apply sub_of_app.
  - rewrite zlen_app, sub_length by lia. lia.
  - rewrite sub_length by lia. lia.
Qed.
Print Assumptions C40_TruncateRight_negative.

Example C40_case :
  run (V3Mini.SetBit (-5)) ex = Done tt ex /\ run (V3Mini.ReadBit (-5)) ex = Done 0 ex /\
  run (V3Mini.ReadBit (-8)) ex = Panicked (RuntimeError IndexOutOfRange) ex /\
  (exists r, run (V3Mini.ReadBytes 3 3) ex = Done r ex /\ slice_bytes (heap ex) r = [8; 77; 66]) /\
  (exists s', run (V3Mini.Grow (-3)) ex = Done tt s' /\ content s' = [165]) /\
  (exists s', run (V3Mini.TruncateRight (-1)) ex = Done tt s' /\ content s' = [165; 15; 255; 8; 77]).
Proof.
  do 3 (split; [vm_compute; reflexivity|]).
  split; [|split]; eexists; (split; [vm_compute; reflexivity|]); vm_compute; reflexivity.
Qed.

(** ** C57 *)

(** Any history of MiniBuffer calls, with any arguments, is observed as the same
    history of the abstract MiniBuffer of MiniAbs.v. *)
Theorem C57_histories_refine : forall es s, WF s -> valid_mevents es s ->
  exists a s', mexec es s = Some (a, s') /\ abs_mexec (view_mevents es s) (abs s) = (a, abs s').
Proof.
  intros es s W V. destruct (mexec_refines es s W V) as (a & s' & E & _ & _ & R). eauto.
Qed.
Print Assumptions C57_histories_refine.

(** In particular two MiniBuffers with the same bytes, spare bytes and offsets
    cannot be told apart, wherever they are in memory. *)
Example C57_case : exists a s', mexec ex_mhistory ex = Some (a, s') /\
  abs_mexec (view_mevents ex_mhistory ex) (abs ex) = (a, abs s').
Proof. apply C57_histories_refine. exact ex_WF. exact C36_case_valid. Qed.
