(** * Props_State: properties C21, C22, C25 - C34 of the v3 [Buffer]: safety,
    offsets, length, memory and histories. *)
From Coq Require Import ZArith List Bool Lia ZifyBool.
From Verif Require Import GoSem Errors Spec GoLemmas BitLemmas CodecLemmas Typed V3BitLemmas V3ByteLemmas
  TypedCanon TypedLemmas TypedReadLemmas Calls Abs Frame Sim History NewBuf Witness.
From Verif Require V3Buffer.
Import ListNotations.
Open Scope Z_scope.
Open Scope go_scope.

(** [s] is the state after [NewBuffer(slices...)] on a heap in which the slices
    exist. *)
Definition new_buffer (pol : Z -> Z -> Z) (s0 : St) (slices : list slice) (s : St) : Prop :=
  wf_heap (heap s0) /\ zlen slices < 2 ^ 63 /\ Forall (wf_slice (heap s0)) slices /\
  run (V3Buffer.NewBuffer pol slices) s0 = Done tt s.

Lemma new_buffer_fresh pol s0 slices s :
  new_buffer pol s0 slices s -> fresh_buffer s0 s (all_bytes (heap s0) slices).
Proof.
  intros (H1 & H2 & H3 & E). pose proof (NewBuffer_any pol s0 slices H1 H2 H3) as N.
  destruct (_ <=? _).
  - destruct N as (s' & E' & F). assert (s' = s) by congruence. now subst.
  - destruct N as (s' & E' & _). congruence.
Qed.

Definition ex0 : St := mkSt [[1; 2; 3]; [4; 5]] (mkBuf (mkSlice 0 0 0 0) 0 0 0 0) false [].
Definition pol0 : Z -> Z -> Z := fun c n => 2 * c.

Definition ex_new : St :=
  match run (V3Buffer.NewBuffer pol0 [mkSlice 0 0 3 3; mkSlice 1 0 2 2]) ex0 with Done _ s => s | _ => ex0 end.

Lemma ex_new_new : new_buffer pol0 ex0 [mkSlice 0 0 3 3; mkSlice 1 0 2 2] ex_new.
Proof.
  split; [|split; [|split]].
  - repeat (constructor; [split; [repeat (constructor; [unfold is_byte; lia|]); constructor | vm_compute; discriminate]|]).
    constructor.
  - reflexivity.
  - repeat (constructor; [unfold wf_slice; cbn; repeat split; try lia; vm_compute; discriminate|]). constructor.
  - vm_compute. reflexivity.
Qed.

(** ** C21 *)

(** One call: it returns or it panics; it neither faults nor blocks. *)
Theorem C21_call_is_safe : forall s c, WF s -> valid_call s c ->
  exists s', WF s' /\ ((exists v, run (do_call c) s = Done v s') \/ (exists e, run (do_call c) s = Panicked e s')).
Proof.
  intros s c W V. pose proof (do_call_sim s c W V) as S.
  destruct (run (do_call c) s) as [v s'|e s'|s'|]; cbn [sim] in S; try contradiction;
    exists s'; (split; [apply S|]); eauto.
Qed.
Print Assumptions C21_call_is_safe.

(** NewBuffer itself, and then any history of calls, stores through slices and
    allocations by the caller, with panics recovered. *)
Theorem C21_histories_are_safe : forall pol s0 slices,
  wf_heap (heap s0) -> zlen slices < 2 ^ 63 -> Forall (wf_slice (heap s0)) slices ->
  (exists s1, run (V3Buffer.NewBuffer pol slices) s0 = Done tt s1 /\ WF s1 /\
     forall es, valid_events es s1 -> exists a s', exec es s1 = Some (a, s') /\ WF s') \/
  (exists s1, run (V3Buffer.NewBuffer pol slices) s0 = Panicked (RuntimeError MakeLenOutOfRange) s1).
Proof.
  intros pol s0 slices H1 H2 H3. pose proof (NewBuffer_any pol s0 slices H1 H2 H3) as N.
  destruct (_ <=? _).
  - left. destruct N as (s' & E & F). exists s'. split; [exact E|]. pose proof (fb_wf _ _ _ F) as W.
    split; [exact W|]. intros es V. destruct (exec_refines es s' W V) as (a & s'' & E' & W' & _). eauto.
  - right. destruct N as (s' & E & _). eauto.
Qed.
Print Assumptions C21_histories_are_safe.

Definition ex_history : list event :=
  [ECall (CGrow 3); ECall (At 1 (OWrite U16BE [0x1234])); EStore 0 1 99; ECall (At 100 OReadBit);
   ECall (Next (OSetBits 5 3)); ECall (CTruncateLeft 2); EAlloc [1; 2]; ECall (Next (OReadBits 4));
   ECall (At (2 ^ 63 - 1) OReadByte); ECall (CTruncateRight 9); ECall CReset; ECall (CGrow 2)].

Example C21_case : exists a s', exec ex_history ex_new = Some (a, s') /\ content s' = [52; 4] /\
  a = [Returned RUnit; Returned RUnit; Raised BufferOverreadError; Returned RUnit; Returned RUnit;
       Returned (RInt 10); Raised slice_error; Raised slice_error; Returned RUnit; Returned RUnit].
Proof. do 2 eexists. split; [vm_compute; reflexivity|]. split; vm_compute; reflexivity. Qed.
Example C21_case_valid : valid_events ex_history ex_new.
Proof. vm_compute. repeat split; try discriminate; repeat constructor; discriminate. Qed.

(** ** C22 *)

(** No positional operation moves an offset. *)
Lemma abs_at_offsets off o a :
  match abs_at off o a with Ok _ a' | Fail _ a' => a_off a' = a_off a /\ a_boff a' = a_boff a end.
Proof.
  destruct o as [ | n | | | | data n | d | v | n | | t d | t n]; cbn [abs_at];
    repeat bcase; cbn [a_off a_boff set_bytes]; auto.
Qed.

Lemma do_at_offsets s off o s' :
  WF s -> is_i64 off -> valid_opn s o ->
  (exists v, run (do_at off o) s = Done v s') \/ (exists e, run (do_at off o) s = Panicked e s') ->
  b_off (bb s') = b_off (bb s) /\ b_boff (bb s') = b_boff (bb s) /\ WF s'.
Proof.
  intros W Hoff Ho H. pose proof (do_at_sim s off o W Hoff Ho) as S.
  pose proof (abs_at_offsets off (abs_opn s o) (abs s)) as A.
  destruct H as [(v & E)|(e & E)]; rewrite E in S; cbn [sim] in S; destruct S as [S G];
    rewrite S in A; cbn in A; split; [apply A|split; [apply A|apply G]|apply A|split; [apply A|apply G]].
Qed.

(** A bit operation uses and moves the bit offset only, a byte or typed operation
    the byte offset only; [+!] is addition of Go's int. *)
Theorem C22_next_success : forall s o v s1, WF s -> valid_opn s o ->
  run (do_at (if bit_addressed o then b_boff (bb s) else b_off (bb s)) o) s = Done v s1 ->
  b_off (bb s1) = b_off (bb s) /\ b_boff (bb s1) = b_boff (bb s) /\
  run (do_next o) s =
    Done v (if bit_addressed o
            then with_boff s1 (b_boff (bb s) +! advance_of s_len o)
            else with_off s1 (b_off (bb s) +! advance_of s_len o)).
Proof.
  intros s o v s1 W Ho E.
  destruct (do_at_offsets s (if bit_addressed o then b_boff (bb s) else b_off (bb s)) o s1) as (H1 & H2 & _);
    eauto. { destruct (bit_addressed o); [apply (wf_boff s W)|apply (wf_off s W)]. }
  split; [exact H1|]. split; [exact H2|]. rewrite run_do_next. unfold cursor, with_cursor. rewrite E.
  destruct (bit_addressed o); congruence.
Qed.
Print Assumptions C22_next_success.

Theorem C22_next_failure : forall s o e s1, WF s -> valid_opn s o ->
  run (do_at (if bit_addressed o then b_boff (bb s) else b_off (bb s)) o) s = Panicked e s1 ->
  run (do_next o) s = Panicked e s1 /\
  b_off (bb s1) = b_off (bb s) /\ b_boff (bb s1) = b_boff (bb s).
Proof.
  intros s o e s1 W Ho E.
  destruct (do_at_offsets s (if bit_addressed o then b_boff (bb s) else b_off (bb s)) o s1) as (H1 & H2 & _);
    eauto. { destruct (bit_addressed o); [apply (wf_boff s W)|apply (wf_off s W)]. }
  split; [|auto]. rewrite run_do_next. unfold cursor. now rewrite E.
Qed.
Print Assumptions C22_next_failure.

Example C22_case :
  run (do_next (OReadBits 5)) ex = Done (RInt 5) (with_boff ex 8) /\
  run (do_next (ORead U16LE 1)) ex = Done (RNums [65295]) (with_off ex 3) /\
  run (do_next (ORead U32LE 1)) ex = Panicked BufferOverreadError ex.
Proof. repeat split; vm_compute; reflexivity. Qed.

(** ** C25 *)

Theorem C25_seek : forall s off,
  run (V3Buffer.SeekByte off false) s = Done tt (with_off s off) /\
  run (V3Buffer.SeekByte off true) s = Done tt (with_off s (b_off (bb s) +! off)) /\
  run (V3Buffer.SeekBit off false) s = Done tt (with_boff s off) /\
  run (V3Buffer.SeekBit off true) s = Done tt (with_boff s (b_boff (bb s) +! off)).
Proof. intros. rewrite !run_SeekByte, !run_SeekBit. auto. Qed.
Print Assumptions C25_seek.

(** What [with_off] and [with_boff] leave alone. *)
Theorem C25_seek_frame : forall s x,
  b_off (bb (with_off s x)) = x /\ b_boff (bb (with_off s x)) = b_boff (bb s) /\
  b_boff (bb (with_boff s x)) = x /\ b_off (bb (with_boff s x)) = b_off (bb s) /\
  heap (with_off s x) = heap s /\ heap (with_boff s x) = heap s /\
  content (with_off s x) = content s /\ content (with_boff s x) = content s /\
  b_cap (bb (with_off s x)) = b_cap (bb s) /\ b_cap (bb (with_boff s x)) = b_cap (bb s).
Proof. intros. repeat split. Qed.
Print Assumptions C25_seek_frame.

Theorem C25_align : forall s, is_i64 (b_off (bb s)) -> is_i64 (b_boff (bb s)) ->
  run V3Buffer.AlignBit s = Done tt (with_boff s (b_off (bb s) *! 8)) /\
  run V3Buffer.AlignByte s = Done tt (with_off s (Z.quot (b_boff (bb s)) 8)) /\
  (is_i64 (8 * b_off (bb s)) ->
     exists s', run (V3Buffer.AlignBit ;; V3Buffer.AlignByte) s = Done tt s' /\
       b_off (bb s') = b_off (bb s) /\ b_boff (bb s') = 8 * b_off (bb s)) /\
  (0 <= b_boff (bb s) ->
     exists s', run (V3Buffer.AlignByte ;; V3Buffer.AlignBit) s = Done tt s' /\
       b_boff (bb s') = 8 * (b_boff (bb s) / 8) /\ b_off (bb s') = b_boff (bb s) / 8).
Proof.
  intros s H1 H2. rewrite run_AlignBit, run_AlignByte.
  split; [reflexivity|]. split; [reflexivity|]. split.
  - intro H. rewrite run_bind, run_AlignBit, run_AlignByte. eexists. split; [reflexivity|]. cbn.
    rewrite mul64_id by (rewrite Z.mul_comm; auto). unfold quo.
    rewrite Z.quot_mul by lia. lia.
  - intro H. rewrite run_bind, run_AlignByte, run_AlignBit. eexists. split; [reflexivity|]. cbn.
    unfold quo. rewrite Z.quot_div_nonneg by lia.
    assert (8 * (b_boff (bb s) / 8) <= b_boff (bb s)) by (apply Z.mul_div_le; lia).
    assert (0 <= b_boff (bb s) / 8) by (apply Z.div_pos; lia).
    rewrite mul64_id by (unfold is_i64 in *; lia). lia.
Qed.
Print Assumptions C25_align.

Theorem C25_after : forall s x, WF s -> is_i64 x ->
  run (V3Buffer.AfterByte None) s = Done (wrap64 (zlen (content s) - b_off (bb s) - 1)) s /\
  run (V3Buffer.AfterByte (Some x)) s = Done (wrap64 (zlen (content s) - x - 1)) s /\
  run (V3Buffer.AfterBit None) s = Done (wrap64 (8 * zlen (content s) - b_boff (bb s) - 1)) s /\
  run (V3Buffer.AfterBit (Some x)) s = Done (wrap64 (8 * zlen (content s) - x - 1)) s.
Proof.
  intros s x W Hx. assert (A : forall p q, p -! q -! 1 = wrap64 (p - q - 1)).
  { intros. unfold sub64. destruct (wrap64_cases (p - q)) as (k & ->). unfold wrap64.
    replace (p - q + k * 2 ^ 64 - 1 + 2 ^ 63) with (p - q - 1 + 2 ^ 63 + k * 2 ^ 64) by lia.
    now rewrite Z_mod_plus_full. }
  cbn [V3Buffer.AfterByte V3Buffer.AfterBit]. cbn [run get bind].
  repeat split; cbn; rewrite A; (rewrite cap_is || rewrite bcap_is); auto.
Qed.
Print Assumptions C25_after.

Example C25_case :
  run (V3Buffer.AfterByte None) ex = Done 2 ex /\ run (V3Buffer.AfterBit (Some 8)) ex = Done 23 ex.
Proof. split; vm_compute; reflexivity. Qed.

(** ** C26 *)

Theorem C26_capacity_right : forall pol s0 slices s1 es a s,
  new_buffer pol s0 slices s1 -> valid_events es s1 -> exec es s1 = Some (a, s) ->
  run V3Buffer.ByteCapacity s = Done (zlen (content s)) s /\
  run V3Buffer.BitCapacity s = Done (8 * zlen (content s)) s /\
  exists d, run V3Buffer.Bytes s = Done d s /\ slice_bytes (heap s) d = content s /\ s_len d = zlen (content s).
Proof.
  intros pol s0 slices s1 es a s N V E. pose proof (fb_wf _ _ _ (new_buffer_fresh _ _ _ _ N)) as W1.
  destruct (exec_refines es s1 W1 V) as (a' & s' & E' & W & _). rewrite E in E'. inversion E'; subst a' s'.
  cbn. rewrite (cap_is s W), (bcap_is s W). split; [reflexivity|]. split; [reflexivity|].
  eexists. split; [reflexivity|]. split; [reflexivity|]. now rewrite content_zlen.
Qed.
Print Assumptions C26_capacity_right.

Definition changes_length {B} (c : call B) : bool :=
  match c with CTruncateLeft _ | CTruncateRight _ | CGrow _ | CReset => true | _ => false end.

Lemma put_bits_zlen' l off f k : 0 <= off -> off + Z.of_nat k <= 8 * zlen l -> zlen (put_bits l off f k) = zlen l.
Proof. intros. now apply put_bits_zlen. Qed.

Lemma abs_at_length off o a :
  match abs_at off o a with Ok _ a' | Fail _ a' =>
    zlen (a_bytes a') = zlen (a_bytes a) /\ a_spare a' = a_spare a end.
Proof.
  destruct o as [ | n | | | | data n | d | v | n | | t d | t n]; cbn [abs_at];
    repeat bcase; cbn [a_bytes a_spare set_bytes]; split; auto;
    try (unfold flip_bit; apply put_bit_zlen; lia);
    try (apply put_bits_zlen; lia);
    apply put_length; rewrite ?encode_all_zlen; try change (zlen [v]) with 1; lia.
Qed.

Lemma abs_call_length c a :
  changes_length c = false ->
  match abs_call c a with Ok _ a' | Fail _ a' =>
    zlen (a_bytes a') = zlen (a_bytes a) /\ a_spare a' = a_spare a end.
Proof.
  intro H. destruct c as [off o | o | | | | off r | off r | off | off | | | n | n | n | | | | | | | ];
    cbn in H; try discriminate; cbn [abs_call]; repeat bcase; cbn [a_bytes a_spare set_bytes set_off set_boff]; auto.
  - apply abs_at_length.
  - unfold abs_next. bcase.
    + pose proof (abs_at_length (a_boff a) o a). destruct (abs_at _ _ _); auto.
    + pose proof (abs_at_length (a_off a) o a). destruct (abs_at _ _ _); auto.
  - unfold zlen. now rewrite map_length.
  - unfold zlen. now rewrite map_length.
  - unfold zlen. now rewrite map_length.
Qed.

Theorem C26_who_changes_length : forall s c s', WF s -> valid_call s c -> changes_length c = false ->
  (exists v, run (do_call c) s = Done v s') \/ (exists e, run (do_call c) s = Panicked e s') ->
  zlen (content s') = zlen (content s).
Proof.
  intros s c s' W V Hc H. pose proof (do_call_sim s c W V) as S.
  assert (Hc' : changes_length (view_call s c) = false) by (destruct c; auto).
  pose proof (abs_call_length (view_call s c) (abs s) Hc') as A.
  destruct H as [(v & E)|(e & E)]; rewrite E in S; cbn [sim] in S; destruct S as [S G];
    rewrite S in A; apply A.
Qed.
Print Assumptions C26_who_changes_length.

Example C26_case : exists s', run (V3Buffer.Grow 5 ;; V3Buffer.TruncateLeft 2) ex = Done tt s' /\
  run V3Buffer.ByteCapacity s' = Done 7 s' /\ run V3Buffer.BitCapacity s' = Done 56 s'.
Proof. eexists. split; [vm_compute; reflexivity|]. split; vm_compute; reflexivity. Qed.

(** ** C27 *)

Theorem C27_Grow : forall s n, WF s -> 0 <= n -> 2 * (s_cap (b_buf (bb s)) + n) <= maxAlloc ->
  exists s' added, run (V3Buffer.Grow n) s = Done tt s' /\ WF s' /\
    content s' = content s ++ added /\ zlen added = n /\
    b_off (bb s') = b_off (bb s) /\ b_boff (bb s') = b_boff (bb s) /\
    (forall d, wf_arg s d -> slice_bytes (heap s') d = slice_bytes (heap s) d) /\
    (zlen (spare s) < n ->
       added = zeros n /\ forall d, wf_arg s d -> s_blk d <> s_blk (b_buf (bb s'))).
Proof.
  intros s n W Hn Hm. pose proof max_alloc_val as MV. pose proof (wf_lencap s W) as LC. pose proof (wf_len0 s W).
  pose proof (spare_zlen s W) as SZ. pose proof (content_zlen s W) as CZ.
  rewrite run_Grow by (auto; unfold is_i64; lia). replace (n <? 0) with false by lia. rewrite CZ in *.
  destruct (Z.leb_spec n (s_cap (b_buf (bb s)) - s_len (b_buf (bb s)))).
  - eexists. exists (sub (spare s) 0 n). split; [reflexivity|].
    split; [apply with_slice_WF; auto; apply resize_wf; auto; lia|].
    split. { rewrite <- CZ. apply content_resize_grow; auto; lia. }
    split; [apply sub_length; lia|]. do 2 (split; [reflexivity|]). split; [reflexivity|]. intro. lia.
  - replace (2 * (s_cap (b_buf (bb s)) + n) <=? maxAlloc) with true by lia.
    eexists. exists (zeros n). split; [reflexivity|].
    split; [apply grown_WF; auto; lia|]. split; [apply content_grown; auto; lia|].
    split. { unfold zeros, zlen. rewrite repeat_length. lia. }
    do 2 (split; [reflexivity|]). split.
    + intros d Hd. cbn. apply slice_bytes_app. apply Hd.
    + intros _. split; [reflexivity|]. intros d Hd. cbn. pose proof (proj1 Hd). lia.
Qed.
Print Assumptions C27_Grow.

Theorem C27_Grow_negative : forall s n, WF s -> is_i64 n -> n < 0 ->
  run (V3Buffer.Grow n) s = Panicked BufferInvalidByteCountError s.
Proof. intros s n W Hi H. rewrite run_Grow by auto. now replace (n <? 0) with true by lia. Qed.
Print Assumptions C27_Grow_negative.

(** Too large: a Go panic, and nothing has changed. *)
Theorem C27_Grow_too_large : forall s n, WF s -> is_i64 n ->
  zlen (spare s) < n -> maxAlloc < 2 * (s_cap (b_buf (bb s)) + n) ->
  run (V3Buffer.Grow n) s = Panicked (RuntimeError MakeLenOutOfRange) s.
Proof.
  intros s n W Hi H1 H2. pose proof (spare_zlen s W) as SZ. pose proof (content_zlen s W) as CZ.
  pose proof (wf_lencap s W). rewrite run_Grow by auto. replace (n <? 0) with false by lia. rewrite CZ.
  replace (n <=? s_cap (b_buf (bb s)) - s_len (b_buf (bb s))) with false by lia.
  now replace (2 * (s_cap (b_buf (bb s)) + n) <=? maxAlloc) with false by lia.
Qed.
Print Assumptions C27_Grow_too_large.

Example C27_case : exists s', run (V3Buffer.Grow 3) ex = Done tt s' /\
  content s' = [165; 15; 255; 8; 0; 0; 0] /\ zlen (spare s') = 11.
Proof. eexists. split; [vm_compute; reflexivity|]. split; vm_compute; reflexivity. Qed.

(** ** C28 *)

Theorem C28_Truncate_Grow_restores : forall s k, WF s -> 0 <= k <= zlen (content s) ->
  exists s', run (V3Buffer.TruncateRight k ;; V3Buffer.Grow k) s = Done tt s' /\ content s' = content s.
Proof.
  intros s k W Hk. pose proof max_alloc_val as MV. pose proof (content_max s W) as CM.
  pose proof (content_zlen s W) as CZ. pose proof (wf_lencap s W) as LC. pose proof (wf_cap_max s W) as CM2.
  assert (I : is_i64 k) by (unfold is_i64; lia).
  rewrite run_bind, run_TruncateRight by auto. replace (k <? 0) with false by lia.
  replace (k <=? zlen (content s)) with true by lia.
  set (s1 := with_slice s (resize (b_buf (bb s)) (zlen (content s) - k))).
  assert (W1 : WF s1) by (apply with_slice_WF; auto; apply resize_wf; auto; lia).
  assert (C1 : content s1 = sub (content s) 0 (zlen (content s) - k)) by (apply content_resize_shrink; auto; lia).
  assert (Z1 : zlen (content s1) = zlen (content s) - k) by (rewrite C1; apply sub_length; lia).
  rewrite run_Grow by auto. replace (k <? 0) with false by lia. rewrite Z1.
  change (s_cap (b_buf (bb s1))) with (s_cap (b_buf (bb s))).
  replace (k <=? s_cap (b_buf (bb s)) - (zlen (content s) - k)) with true by lia.
  eexists. split; [reflexivity|].
  replace (zlen (content s) - k + k) with (s_len (b_buf (bb s))) by lia.
  unfold content. cbn. unfold slice_bytes. cbn. reflexivity.
Qed.
Print Assumptions C28_Truncate_Grow_restores.

(** "The bytes Grow adds are zero" is false: [Reset] then [Grow] shows old bytes. *)
Theorem C28_Grow_zeroes_refuted :
  ~ (forall s n s', WF s -> 0 <= n -> run (V3Buffer.Grow n) s = Done tt s' ->
       content s' = content s ++ zeros n).
Proof.
  intro H. specialize (H ex 2). destruct (run (V3Buffer.Grow 2) ex) as [[] s'| | |] eqn:E; try (vm_compute in E; discriminate).
  specialize (H s' ex_WF ltac:(lia) eq_refl). vm_compute in E. inversion E; subst s'. vm_compute in H. discriminate.
Qed.
Print Assumptions C28_Grow_zeroes_refuted.

Theorem C28_Reset_Grow : forall s n, WF s -> 0 <= n <= zlen (content s) ->
  exists s', run (V3Buffer.Reset ;; V3Buffer.Grow n) s = Done tt s' /\ content s' = sub (content s) 0 n.
Proof.
  intros s n W Hn. pose proof max_alloc_val as MV. pose proof (content_max s W) as CM.
  pose proof (content_zlen s W) as CZ. pose proof (wf_lencap s W) as LC. pose proof (wf_len0 s W).
  assert (I : is_i64 n) by (unfold is_i64; lia).
  rewrite run_bind, run_Reset by auto.
  set (s1 := with_off (with_boff (with_slice s (resize (b_buf (bb s)) 0)) 0) 0).
  assert (W1 : WF s1).
  { apply with_off_WF; [|unfold is_i64; lia]. apply with_boff_WF; [|unfold is_i64; lia].
    apply with_slice_WF; auto; apply resize_wf; auto; lia. }
  assert (Z1 : zlen (content s1) = 0) by reflexivity.
  rewrite run_Grow by auto. replace (n <? 0) with false by lia. rewrite Z1.
  change (s_cap (b_buf (bb s1))) with (s_cap (b_buf (bb s))).
  replace (n <=? s_cap (b_buf (bb s)) - 0) with true by lia.
  eexists. split; [reflexivity|]. rewrite Z.add_0_l.
  assert (E : content (with_slice s1 (resize (b_buf (bb s1)) n)) = content (with_slice s (resize (b_buf (bb s)) n))) by reflexivity.
  rewrite E. apply content_resize_shrink; auto.
Qed.
Print Assumptions C28_Reset_Grow.

Example C28_case : exists s', run (V3Buffer.Reset ;; V3Buffer.Grow 3) ex = Done tt s' /\ content s' = [165; 15; 255].
Proof. eexists. split; [vm_compute; reflexivity|]. vm_compute; reflexivity. Qed.

(** ** C29 *)

Theorem C29_Truncate : forall s n, WF s -> 0 <= n <= zlen (content s) ->
  (exists s', run (V3Buffer.TruncateLeft n) s = Done tt s' /\ WF s' /\
     content s' = sub (content s) n (zlen (content s) - n) /\ heap s' = heap s /\
     b_off (bb s') = b_off (bb s) /\ b_boff (bb s') = b_boff (bb s)) /\
  (exists s', run (V3Buffer.TruncateRight n) s = Done tt s' /\ WF s' /\
     content s' = sub (content s) 0 (zlen (content s) - n) /\ heap s' = heap s /\
     b_off (bb s') = b_off (bb s) /\ b_boff (bb s') = b_boff (bb s)).
Proof.
  intros s n W Hn. pose proof max_alloc_val as MV. pose proof (content_max s W) as CM.
  pose proof (content_zlen s W) as CZ. pose proof (wf_lencap s W) as LC.
  rewrite run_TruncateLeft by auto. rewrite run_TruncateRight by (auto; unfold is_i64; lia).
  replace (n <? 0) with false by lia. replace (n <=? zlen (content s)) with true by lia. split.
  - eexists. split; [reflexivity|]. split; [apply with_slice_WF; auto; apply trunc_left_wf; auto; lia|].
    split; [now apply content_trunc_left|]. repeat split.
  - eexists. split; [reflexivity|]. split; [apply with_slice_WF; auto; apply resize_wf; auto; lia|].
    split; [apply content_resize_shrink; auto; lia|]. repeat split.
Qed.
Print Assumptions C29_Truncate.

Theorem C29_Truncate_errors : forall s n, WF s -> is_i64 n ->
  (n < 0 -> run (V3Buffer.TruncateLeft n) s = Panicked BufferInvalidByteCountError s /\
            run (V3Buffer.TruncateRight n) s = Panicked BufferInvalidByteCountError s) /\
  (zlen (content s) < n -> run (V3Buffer.TruncateLeft n) s = Panicked (RuntimeError SliceOutOfRange) s /\
            run (V3Buffer.TruncateRight n) s = Panicked (RuntimeError SliceOutOfRange) s).
Proof.
  intros s n W I. pose proof (zlen_nonneg (content s)). rewrite run_TruncateLeft, run_TruncateRight by auto.
  split; intro.
  - replace (n <? 0) with true by lia. auto.
  - replace (n <? 0) with false by lia. replace (n <=? zlen (content s)) with false by lia. auto.
Qed.
Print Assumptions C29_Truncate_errors.

Example C29_case : exists s', run (V3Buffer.TruncateLeft 1 ;; V3Buffer.TruncateRight 2) ex = Done tt s' /\ content s' = [15].
Proof. eexists. split; [vm_compute; reflexivity|]. vm_compute; reflexivity. Qed.

(** ** C30 *)

Theorem C30_Reset : forall s, WF s ->
  exists s', run V3Buffer.Reset s = Done tt s' /\ WF s' /\ content s' = [] /\
    b_cap (bb s') = 0 /\ b_bcap (bb s') = 0 /\ b_off (bb s') = 0 /\ b_boff (bb s') = 0 /\
    heap s' = heap s /\ spare s' = content s ++ spare s.
Proof.
  intros s W. pose proof (wf_lencap s W). pose proof (wf_len0 s W). pose proof (content_zlen s W).
  pose proof (spare_zlen s W).
  rewrite run_Reset by auto. eexists. split; [reflexivity|]. split.
  { apply with_off_WF; [|unfold is_i64; lia]. apply with_boff_WF; [|unfold is_i64; lia].
    apply with_slice_WF; auto; apply resize_wf; auto; lia. }
  do 6 (split; [reflexivity|]).
  transitivity (spare (with_slice s (resize (b_buf (bb s)) 0))); [reflexivity|].
  rewrite spare_resize by (auto; lia). apply sub_all; rewrite zlen_app; lia.
Qed.
Print Assumptions C30_Reset.

Example C30_case : exists s', run V3Buffer.Reset ex = Done tt s' /\ spare s' = [165; 15; 255; 8; 77; 66].
Proof. eexists. split; [vm_compute; reflexivity|]. vm_compute; reflexivity. Qed.

(** ** C31 *)

Theorem C31_NewBuffer : forall pol s0 slices s,
  new_buffer pol s0 slices s ->
  WF s /\ content s = concat (map (slice_bytes (heap s0)) slices) /\
  b_off (bb s) = 0 /\ b_boff (bb s) = 0 /\
  (forall d, wf_arg s0 d -> slice_bytes (heap s) d = slice_bytes (heap s0) d).
Proof.
  intros pol s0 slices s N. destruct (new_buffer_fresh _ _ _ _ N) as [F1 F2 F3 F4 (new & F5) _ _].
  do 4 (split; [assumption|]). intros d Hd. rewrite F5. apply slice_bytes_app. apply Hd.
Qed.
Print Assumptions C31_NewBuffer.

(** It succeeds unless the total length exceeds what Go can allocate. *)
Theorem C31_NewBuffer_succeeds : forall pol s0 slices,
  wf_heap (heap s0) -> zlen slices < 2 ^ 63 -> Forall (wf_slice (heap s0)) slices ->
  zlen (concat (map (slice_bytes (heap s0)) slices)) <= maxAlloc ->
  exists s, new_buffer pol s0 slices s.
Proof.
  intros pol s0 slices H1 H2 H3 H4. pose proof (NewBuffer_any pol s0 slices H1 H2 H3) as N.
  unfold all_bytes in N. replace (_ <=? maxAlloc) with true in N by lia. destruct N as (s & E & _).
  exists s. repeat split; assumption.
Qed.
Print Assumptions C31_NewBuffer_succeeds.

(** One slice: the buffer is that very slice (same array, same position). *)
Theorem C31_one_slice_shared : forall pol s0 d s,
  new_buffer pol s0 [d] s -> b_buf (bb s) = d.
Proof.
  intros pol s0 d s (H1 & H2 & H3 & E). inversion H3; subst. rewrite run_NewBuffer_one in E by auto.
  now inversion E.
Qed.
Print Assumptions C31_one_slice_shared.

(** Several slices: memory of its own.  No history of calls changes what existed
    before, and the caller's stores to what existed before do not reach the buffer. *)
Lemma new_buffer_many pol s0 slices s :
  new_buffer pol s0 slices s -> (2 <= length slices)%nat -> (length (heap s0) <= s_blk (b_buf (bb s)))%nat.
Proof.
  intros (H1 & H2 & H3 & E) L. pose proof (NewBuffer_any pol s0 slices H1 H2 H3) as N.
  destruct (Z.leb_spec (zlen (all_bytes (heap s0) slices)) maxAlloc).
  - destruct (run_NewBuffer_many pol s0 slices H1 L H2 H3) as (s' & E' & _ & _ & _ & _ & _ & B & _); auto.
    assert (s' = s) by congruence. now subst.
  - destruct N as (s' & E' & _). congruence.
Qed.

Lemma exec_keeps_slice es : forall s a s' d,
  WF s -> valid_events es s -> exec es s = Some (a, s') -> wf_arg s d ->
  (forall i, 0 <= i < s_len d -> outside s (s_blk d) (s_off d + i) /\ caller_spares (s_blk d) (s_off d + i) es) ->
  slice_bytes (heap s') d = slice_bytes (heap s) d.
Proof.
  intros s a s' d W V E Hd H. destruct Hd as (Hb & Ho & Hl & Hc).
  destruct (exec_refines es s W V) as (a' & s'' & E' & W' & _). rewrite E in E'. inversion E'; subst a' s''.
  assert (L : 0 < s_len d -> zlen (nth (s_blk d) (heap s') []) = zlen (nth (s_blk d) (heap s) [])).
  { intro. destruct (H 0) as [H1 H2]; [lia|].
    eapply exec_outside with (i := s_off d + 0); eauto. lia. }
  unfold slice_bytes. destruct (Z.eq_dec (s_len d) 0) as [Z0|Z0].
  { unfold sub. rewrite Z0. reflexivity. }
  specialize (L ltac:(lia)). apply byte_at_ext; rewrite !sub_length by lia; auto.
  intros i Hi. rewrite !byte_at_sub by lia. destruct (H i ltac:(lia)) as [H1 H2].
  destruct (exec_outside es s a s' (s_blk d) (s_off d + i)) as (_ & _ & M & _); auto; try lia.
Qed.

Theorem C31_several_slices_private : forall pol s0 slices s es a s' d,
  new_buffer pol s0 slices s -> (2 <= length slices)%nat ->
  valid_events es s -> exec es s = Some (a, s') -> wf_arg s0 d ->
  (forall i, 0 <= i < s_len d -> caller_spares (s_blk d) (s_off d + i) es) ->
  slice_bytes (heap s') d = slice_bytes (heap s0) d.
Proof.
  intros pol s0 slices s es a s' d N L V E Hd Hc. pose proof (new_buffer_many _ _ _ _ N L) as B.
  destruct (new_buffer_fresh _ _ _ _ N) as [F1 F2 F3 F4 (new & F5) _ _].
  transitivity (slice_bytes (heap s) d); [|rewrite F5; apply slice_bytes_app; apply Hd].
  eapply exec_keeps_slice; eauto.
  - unfold wf_arg. rewrite F5. now apply wf_slice_app.
  - intros i Hi. split; auto. left. destruct Hd. lia.
Qed.
Print Assumptions C31_several_slices_private.

Theorem C31_several_slices_unreachable : forall pol s0 slices s b i v s' a,
  new_buffer pol s0 slices s -> (2 <= length slices)%nat -> (b < length (heap s0))%nat ->
  valid_event s (EStore b i v) -> exec1 (EStore b i v) s = Some (a, s') ->
  content s' = content s /\ bb s' = bb s.
Proof.
  intros pol s0 slices s b i v s' a N L Hb V E. pose proof (new_buffer_many _ _ _ _ N L) as B.
  pose proof (fb_wf _ _ _ (new_buffer_fresh _ _ _ _ N)) as W.
  destruct (exec1_refines (EStore b i v) s W V) as (a' & s'' & E' & _ & _ & _ & R).
  rewrite E in E'. inversion E'; subst a' s''. cbn [view_event] in R.
  replace ((b =? s_blk (b_buf (bb s)))%nat) with false in R by lia. cbn in R. inversion R.
  split; [congruence|]. cbn [exec1] in E. destruct (heap_write _ _ _ _); inversion E; auto.
Qed.
Print Assumptions C31_several_slices_unreachable.

Example C31_case : new_buffer pol0 ex0 [mkSlice 0 0 3 3; mkSlice 1 0 2 2] ex_new /\ content ex_new = [1; 2; 3; 4; 5].
Proof. split; [apply ex_new_new|reflexivity]. Qed.

(** ** C32 *)

(** As long as the buffer still uses the array that [d] was taken from - which may
    have been truncated, reset and grown in place - byte [i] of [d] is a byte of
    the buffer whenever it still lies in it; [shift] is how much has been
    truncated on the left. *)
Theorem C32_read_slices_alias : forall s off n d s' shift, WF s ->
  0 <= off -> 0 <= n -> off + n <= zlen (content s) -> run (V3Buffer.ReadBytes off n) s = Done d s ->
  WF s' -> s_blk (b_buf (bb s')) = s_blk (b_buf (bb s)) ->
  s_off (b_buf (bb s')) = s_off (b_buf (bb s)) + shift ->
  forall i, 0 <= i < n -> 0 <= off + i - shift < zlen (content s') ->
    byte_at (slice_bytes (heap s') d) i = byte_at (content s') (off + i - shift).
Proof.
  intros s off n d s' shift W H1 H2 H3 E W' Hb Ho i Hi Hj.
  rewrite run_ReadBytes_ok in E by auto. inversion E; subst d. unfold content, slice_bytes, window. cbn.
  rewrite Hb, Ho. pose proof (wf_off0 s W). pose proof (wf_off0 s' W'). pose proof (content_zlen s' W').
  rewrite !byte_at_sub by lia. f_equal. lia.
Qed.
Print Assumptions C32_read_slices_alias.

(** What the result of a run leaves as the buffer's fields. *)
Definition fields_kept (s : St) (r : res (rv slice)) : Prop :=
  match r with Done _ s' | Panicked _ s' => bb s' = bb s | _ => False end.

Lemma do_at_fields s off o : WF s -> is_i64 off -> valid_opn s o -> fields_kept s (run (do_at off o) s).
Proof.
  intros W Hoff Ho. pose proof (content_max s W) as HM. pose proof max_alloc_val as MV.
  pose proof (zlen_nonneg (content s)) as HN.
  destruct o as [ | n | | | | data n | d | v | n | | t d | t n]; cbn [do_at valid_opn] in *;
    rewrite ?run_ret_unit, ?run_ret_int, ?run_ret_bytes, ?run_ret_nums.
  - rewrite run_ReadBit by assumption. repeat bcase; reflexivity.
  - destruct (Z.leb_spec (8 * zlen (content s)) off).
    { rewrite run_ReadBits_start by (auto; lia). bcase; reflexivity. }
    destruct (Z.ltb_spec off 0). { rewrite run_ReadBits_start by (auto; lia). bcase; reflexivity. }
    destruct (Z.leb_spec n 0). { rewrite run_ReadBits_nonpos by (auto; lia). reflexivity. }
    destruct (Z.ltb_spec (8 * zlen (content s)) (off + n)).
    { rewrite run_ReadBits_overrun by (auto; unfold is_i64 in *; lia). reflexivity. }
    rewrite run_ReadBits by (auto; lia). reflexivity.
  - rewrite run_SetBit by assumption. repeat bcase; reflexivity.
  - rewrite run_ClearBit by assumption. repeat bcase; reflexivity.
  - rewrite run_FlipBit by assumption. repeat bcase; reflexivity.
  - destruct Ho as [Hd Hn]. destruct (Z.leb_spec (8 * zlen (content s)) off).
    { rewrite run_SetBits_start by (auto; lia). bcase; reflexivity. }
    destruct (Z.ltb_spec off 0). { rewrite run_SetBits_start by (auto; lia). bcase; reflexivity. }
    destruct (Z.leb_spec n 0). { rewrite run_SetBits_nonpos by (auto; lia). reflexivity. }
    destruct (Z.ltb_spec (8 * zlen (content s)) (off + n)).
    { rewrite run_SetBits_overrun by (auto; unfold is_i64 in *; lia). reflexivity. }
    rewrite run_SetBits by (auto; lia). reflexivity.
  - rewrite run_WriteBytes by assumption. repeat bcase; reflexivity.
  - rewrite run_WriteByte by assumption. repeat bcase; reflexivity.
  - rewrite run_ReadBytes_raw by assumption. repeat bcase; reflexivity.
  - rewrite run_ReadByte by assumption. repeat bcase; reflexivity.
  - rewrite run_WriteT by assumption. repeat bcase; reflexivity.
  - rewrite run_ReadT by assumption. repeat bcase; reflexivity.
Qed.

(** A call with a position changes no field at all; no call but Grow changes the
    array in use, and Grow changes it only when the spare bytes do not suffice. *)
Theorem C32_positional_calls_in_place : forall s off o s', WF s -> is_i64 off -> valid_opn s o ->
  (exists v, run (do_at off o) s = Done v s') \/ (exists e, run (do_at off o) s = Panicked e s') ->
  bb s' = bb s.
Proof.
  intros s off o s' W Hoff Ho H. pose proof (do_at_fields s off o W Hoff Ho) as F.
  destruct H as [(v & E)|(e & E)]; rewrite E in F; exact F.
Qed.
Print Assumptions C32_positional_calls_in_place.

Theorem C32_who_reallocates : forall s c s', WF s -> valid_call s c ->
  match c with CGrow n => n <= zlen (spare s) | _ => True end ->
  (exists v, run (do_call c) s = Done v s') \/ (exists e, run (do_call c) s = Panicked e s') ->
  s_blk (b_buf (bb s')) = s_blk (b_buf (bb s)).
Proof.
  intros s c s' W V Hg H.
  assert (P : match run (do_call c) s with Done _ s' | Panicked _ s' => s_blk (b_buf (bb s')) = s_blk (b_buf (bb s))
              | _ => False end).
  { clear H s'. pose proof (content_zlen s W) as CZ. pose proof (spare_zlen s W) as SP.
    destruct c as [off o | o | | | | off r | off r | off | off | | | n | n | n | | | | | | | ];
    cbn [do_call valid_call] in *; rewrite ?run_ret_unit, ?run_ret_int, ?run_ret_bytes, ?run_ret_nums.
    - destruct V as [V1 V2]. pose proof (do_at_fields s off o W V1 V2) as F.
      destruct (run _ s); cbn in F; try contradiction; now rewrite F.
    - rewrite run_do_next. pose proof (do_at_fields s (cursor s (bit_addressed o)) o W (cursor_i64 s _ W) V) as F.
      destruct (run _ s); cbn in F; try contradiction; [|now rewrite F].
      unfold with_cursor. destruct (bit_addressed o); cbn; now rewrite F.
    - destruct (Z.eq_dec (zlen (content s)) 0) as [e|].
      + destruct (run_AllBits_empty s W (zlen_0_nil _ e)) as (-> & _ & _). reflexivity.
      + rewrite run_ClearAllBits by (auto; pose proof (zlen_nonneg (content s)); lia). reflexivity.
    - destruct (Z.eq_dec (zlen (content s)) 0) as [e|].
      + destruct (run_AllBits_empty s W (zlen_0_nil _ e)) as (_ & -> & _). reflexivity.
      + rewrite run_SetAllBits by (auto; pose proof (zlen_nonneg (content s)); lia). reflexivity.
    - destruct (Z.eq_dec (zlen (content s)) 0) as [e|].
      + destruct (run_AllBits_empty s W (zlen_0_nil _ e)) as (_ & _ & ->). reflexivity.
      + rewrite run_FlipAllBits by (auto; pose proof (zlen_nonneg (content s)); lia). reflexivity.
    - rewrite run_SeekBit. reflexivity.
    - rewrite run_SeekByte. reflexivity.
    - destruct off; reflexivity.
    - destruct off; reflexivity.
    - reflexivity.
    - reflexivity.
    - rewrite run_TruncateLeft by auto. repeat bcase; reflexivity.
    - rewrite run_TruncateRight by auto. repeat bcase; reflexivity.
    - rewrite run_Grow by auto. rewrite CZ.
      replace (n <=? s_cap (b_buf (bb s)) - s_len (b_buf (bb s))) with true by lia. repeat bcase; reflexivity.
    - reflexivity.
    - rewrite run_Reset by auto. reflexivity.
    - reflexivity.
    - reflexivity.
    - reflexivity.
    - reflexivity.
    - reflexivity. }
  destruct H as [(v & E)|(e & E)]; rewrite E in P; exact P.
Qed.
Print Assumptions C32_who_reallocates.

(** A store through the slice returned by ReadBytes shows in the buffer. *)
Theorem C32_stores_show : forall s off n d i v, WF s ->
  0 <= off -> off + n <= zlen (content s) -> 0 <= i < n -> is_byte v ->
  run (V3Buffer.ReadBytes off n) s = Done d s ->
  exists s', exec1 (EStore (s_blk d) (s_off d + i) v) s = Some ([], s') /\ WF s' /\
    bb s' = bb s /\ content s' = put (content s) (off + i) [v].
Proof.
  intros s off n d i v W H1 H2 Hi Hv E. rewrite run_ReadBytes_ok in E by (auto; lia). inversion E; subst d. clear E.
  cbn [s_blk s_off window]. set (b := b_buf (bb s)).
  pose proof (wf_off0 s W) as O0. pose proof (wf_lencap s W) as LC. pose proof (wf_in s W) as IN.
  pose proof (content_zlen s W) as CZ. pose proof (spare_zlen s W) as SZ. fold b in O0, LC, IN, CZ, SZ.
  assert (V : valid_event s (EStore (s_blk b) (s_off b + off + i) v)).
  { split; [apply (wf_blk s W)|]. split; [|exact Hv]. fold b in IN. lia. }
  destruct (exec1_refines _ s W V) as (a & s' & E & W' & _ & _ & R).
  cbn [view_event] in R. fold b in R. rewrite Nat.eqb_refl in R.
  replace (s_off b <=? s_off b + off + i) with true in R by lia.
  replace (s_off b + off + i <? s_off b + s_cap b) with true in R by lia. cbn [andb] in R.
  cbn [abs_exec abs_exec1] in R. cbn [exec1] in E.
  destruct (heap_write (heap s) (s_blk b) (s_off b + off + i) [v]) eqn:Hw; [|discriminate].
  inversion E; subst a s'. exists (set_heap s h). cbn [exec1]. rewrite Hw.
  split; [reflexivity|]. split; [exact W'|]. split; [reflexivity|].
  inversion R as [R1]. unfold abs_poke in R1. cbn [a_bytes a_spare abs] in R1.
  replace (s_off b + off + i - s_off b) with (off + i) in R1 by lia.
  assert (C : content (set_heap s h) = sub (put (content s ++ spare s) (off + i) [v]) 0 (zlen (content s)))
    by (symmetry; exact R1).
  replace (s_off b + off + i - s_off b) with (off + i) by lia. clear C R R1.
  assert (ZA : zlen (content s ++ spare s) = zlen (content s) + zlen (spare s)) by apply zlen_app.
  pose proof (zlen_nonneg (spare s)). assert (V1 : zlen [v] = 1) by reflexivity.
  assert (L1 : zlen (put (content s ++ spare s) (off + i) [v]) = zlen (content s ++ spare s))
    by (apply put_length; lia).
  apply byte_at_ext.
  - rewrite sub_length by lia. rewrite put_length by lia. reflexivity.
  - rewrite sub_length by lia. intros j Hj. rewrite byte_at_sub by lia.
    rewrite !byte_at_put by (change (zlen [v]) with 1; lia). rewrite Z.add_0_l. bcase; auto.
    unfold byte_at. rewrite app_nth1; auto. unfold zlen in Hj. lia.
Qed.
Print Assumptions C32_stores_show.

Example C32_case : exists d s' s'', run (V3Buffer.ReadBytes 1 2) ex = Done d ex /\
  run (V3Buffer.WriteByte 2 200) ex = Done tt s' /\ slice_bytes (heap s') d = [15; 200] /\
  exec1 (EStore (s_blk d) (s_off d + 1) 77) ex = Some ([], s'') /\ content s'' = [165; 15; 77; 8].
Proof. do 3 eexists. do 4 (split; [vm_compute; reflexivity|]). vm_compute; reflexivity. Qed.

(** ** C33 *)

Theorem C33_isolation : forall pol s0 slices s es a s' d,
  new_buffer pol s0 slices s -> valid_events es s -> exec es s = Some (a, s') -> wf_arg s d ->
  (s_blk d <> s_blk (b_buf (bb s)) \/ s_off d + s_len d <= s_off (b_buf (bb s)) \/
   s_off (b_buf (bb s)) + s_cap (b_buf (bb s)) <= s_off d) ->
  (forall i, 0 <= i < s_len d -> caller_spares (s_blk d) (s_off d + i) es) ->
  slice_bytes (heap s') d = slice_bytes (heap s) d.
Proof.
  intros pol s0 slices s es a s' d N V E Hd Hx Hc. pose proof (fb_wf _ _ _ (new_buffer_fresh _ _ _ _ N)) as W.
  eapply exec_keeps_slice; eauto. intros i Hi. split; auto. unfold outside. lia.
Qed.
Print Assumptions C33_isolation.

Example C33_case :
  wf_arg ex (mkSlice 0 7 1 1) /\ s_off (b_buf (bb ex)) + s_cap (b_buf (bb ex)) <= 7 /\
  exists s', run V3Buffer.SetAllBits ex = Done tt s' /\ nth 0 (heap s') [] = [1; 255; 255; 255; 255; 77; 66; 2].
Proof.
  split; [unfold wf_arg, wf_slice; cbn; repeat split; try lia; vm_compute; discriminate|].
  split; [vm_compute; discriminate|]. eexists. split; [vm_compute; reflexivity|]. vm_compute; reflexivity.
Qed.

(** ** C34 *)

Theorem C34_histories_refine : forall pol s0 slices s es,
  new_buffer pol s0 slices s -> valid_events es s ->
  exists answers s', exec es s = Some (answers, s') /\
    abs_exec (view_events es s) (mkA (concat (map (slice_bytes (heap s0)) slices)) (spare s) 0 0) =
      (answers, mkA (content s') (spare s') (b_off (bb s')) (b_boff (bb s'))).
Proof.
  intros pol s0 slices s es N V. destruct (new_buffer_fresh _ _ _ _ N) as [F1 F2 F3 F4 _ _ _].
  destruct (exec_refines es s F1 V) as (a & s' & E & _ & _ & _ & R). exists a, s'. split; [exact E|].
  rewrite <- F3 at 1. rewrite <- F4. change (concat _) with (all_bytes (heap s0) slices). rewrite <- F2. exact R.
Qed.
Print Assumptions C34_histories_refine.

Example C34_case : exists s', exec ex_history ex_new =
    Some ([Returned RUnit; Returned RUnit; Raised BufferOverreadError; Returned RUnit; Returned RUnit;
       Returned (RInt 10); Raised slice_error; Raised slice_error; Returned RUnit; Returned RUnit], s') /\
  length (view_events ex_history ex_new) = 10%nat.
Proof. eexists. split; [vm_compute; reflexivity|]. vm_compute; reflexivity. Qed.
