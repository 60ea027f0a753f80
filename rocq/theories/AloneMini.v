(** * AloneMini: the calls of the three [MiniBuffer]s for AloneGen.v. *)
From Coq Require Import ZArith List Bool Lia Arith ZifyBool.
From Verif Require Import ConcLemmas GoSem Errors Spec GoLemmas Typed V3ByteLemmas Calls Abs Frame Sim History
  MiniAbs MiniLemmas MiniSim OldCalls V2Agree V1Lemmas V1Calls Abs2 Sim2 MiniAbs2 MiniSim2
  Conc ConcSched ConcInv ConcV1 Race RaceSpec RaceSpec3 RaceLemmas RaceOld Race3 RaceMiniSpec RaceMiniSpec2 RaceMini RaceMini2
  AllocSpec AllocLemmas CodecLemmas TypedLemmas V2Lemmas TypedReadLemmas TypedCanon AloneSpec AloneMiniSpec Alone AloneGen.
From Verif Require V3Mini V2Mini V1Mini.
Import ListNotations.
Open Scope Z_scope.
Open Scope list_scope.

(** ** Arguments *)

Lemma arg_fits s V d : same_args s V -> wf_arg s d -> s_blk d <> s_blk (b_buf (bb s)) ->
  wf_arg V d /\ slice_bytes (heap V) d = slice_bytes (heap s) d.
Proof.
  intros (B & L & H) (D1 & D2 & D3 & D4) D5. unfold wf_arg, wf_slice, slice_bytes. rewrite (H _ D1 D5).
  repeat split; auto; lia.
Qed.

(** Programs that allocate nothing, with a variable of their own. *)
Lemma still_own {A} (p : prog A) : still p -> forall out, quiet (own_out out p).
Proof. induction p; intros S out; cbn [still own_out quiet] in *; auto; contradiction. Qed.
Lemma wq_own {A} (p : prog A) out s (Q : A -> St -> Prop) (E : err -> St -> Prop) : still p ->
  match run p (set_outs s out) with
  | Done a s' => Q a (set_outs s' (outs s)) | Panicked e s' => E e (set_outs s' (outs s)) | _ => False
  end -> wq (own_out out p) s Q E.
Proof.
  intros S H. apply wq_quiet; [now apply still_own|]. pose proof (own_out_run p out s) as R.
  destruct (run p (set_outs s out)); try contradiction; rewrite R; exact H.
Qed.

(** ** v3 *)

Definition ok_mini (s : St) (u : mini_use) : Prop :=
  valid_mini s (fst u) (snd u) /\ separate s (fst u) /\ in_place_mini (fst u).

Lemma mini_args s V u : ok_mini s u -> same_args s V -> ok_mini V u /\ forall a, mini_one V u a = mini_one s u a.
Proof.
  intros ((V1 & V2 & V3) & SC & IP) SA. destruct u as [c out]. unfold ok_mini, mini_one, valid_mini. cbn [fst snd] in *.
  assert (BB : b_buf (bb V) = b_buf (bb s)) by apply SA.
  assert (X : valid_call V c /\ separate V c /\ view_call V c = view_call s c).
  { destruct c as [off o|o| | | |off r|off r|off|off| | |n|n|n| | | | | | |]; cbn [valid_call view_call separate] in *; auto.
    - destruct V2 as [V2 V2']. destruct o; cbn [valid_opn abs_opn separate] in *; auto.
      destruct (arg_fits s V d SA V2' SC) as [D1 D2]. rewrite D2, BB. auto.
    - destruct o; cbn [valid_opn abs_opn separate] in *; auto.
      destruct (arg_fits s V d SA V2 SC) as [D1 D2]. rewrite D2, BB. auto. }
  destruct X as (X1 & X2 & X3). rewrite X3. auto 7.
Qed.

Lemma no_slice {A} (p : prog A) (f : A -> rv slice) sl U : (forall x, match f x with RBytes _ => False | _ => True end) ->
  forall V, run (x <- p ;; Ret (f x)) V = Done (RBytes sl) U -> False.
Proof.
  intros F V'. rewrite run_bind. destruct (run p V') as [x ?| | |]; cbn [run]; try discriminate. intro X. injection X as X _.
  specialize (F x). now rewrite X in F.
Qed.
Lemma no_slice_out {A} (p : prog A) (f : list Z -> rv slice) sl U : (forall x, match f x with RBytes _ => False | _ => True end) ->
  forall V, run (p ;; GetOuts (fun o => Ret (f o))) V = Done (RBytes sl) U -> False.
Proof.
  intros F V'. rewrite run_bind. destruct (run p V') as [x s'| | |]; cbn [run]; try discriminate. intro X. injection X as X _.
  specialize (F (outs s')). now rewrite X in F.
Qed.
Lemma sum_in off n : is_i64 off -> is_i64 n -> 0 <= off <= off +! n -> off +! n = off + n.
Proof.
  intros H1 H2 H3. destruct (wrap64_cases (off + n)) as [k K]. pose proof (add64_range off n). unfold is_i64, add64 in *. rewrite K in *. lia.
Qed.
(** The slice that the unchecked [ReadBytes] returns. *)
Lemma resliced V off n : WF V -> is_i64 off -> is_i64 n -> forall sl U, run (V3Mini.ReadBytes off n) V = Done sl U ->
  s_blk sl = s_blk (b_buf (bb V)) /\ 0 <= s_off sl /\ 0 <= s_len sl /\ U = V /\
  forall j, s_off sl <= j < s_off sl + s_len sl -> off <= j - s_off (b_buf (bb V)) < off + n.
Proof.
  intros W Ho Hn sl U. pose proof (wf_off0 V W) as O. unfold V3Mini.ReadBytes, get_buf, reslice. cbn [bind run].
  destruct (_ && _) eqn:C; cbn [bind run]; [|discriminate]. intro R. injection R as <- <-. cbn [s_blk s_off s_len].
  assert (E : off +! n = off + n) by (apply sum_in; auto; lia). rewrite E.
  repeat split; try lia.
Qed.

Lemma next_slice V n sl U : run (V3Mini.ReadBytesNext n) V = Done sl U -> exists U', run (V3Mini.ReadBytes (get_fld (bb V) FOff) n) V = Done sl U'.
Proof.
  unfold V3Mini.ReadBytesNext. rewrite run_bind. unfold get. cbn [run]. rewrite run_bind.
  destruct (run (V3Mini.ReadBytes (get_fld (bb V) FOff) n) V) as [sl' U'| | |]; cbn [run]; try discriminate.
  rewrite run_bind. destruct (run (V3Mini.SeekByte n true) U') as [? ?| | |]; cbn [run]; try discriminate. intro R. injection R as <- <-. eauto.
Qed.

Lemma mini_shows V u sl U : WF V -> valid_call V (fst u) -> run (mini_call (fst u)) V = Done (RBytes sl) U ->
  shows (fun u : mini_use => sees_mini (fst u)) V u (RBytes sl).
Proof.
  destruct u as [c out]. cbn [fst]. intros W VC R. cbn [shows].
  destruct c as [off o|o| | | |off r|off r|off|off| | |n|n|n| | | | | | |]; cbn [mini_call] in R;
    unfold ret_unit, ret_int, ret_bytes, ret_nums in R; try (exfalso; eapply no_slice in R; [exact R|intro; exact I]).
  - destruct o; cbn [mini_at] in R; unfold ret_unit, ret_int, ret_bytes, ret_nums, out_int, out_nums in R;
      try (exfalso; first [eapply no_slice in R; [exact R|intro; exact I]|eapply no_slice_out in R; [exact R|intro; exact I]|discriminate R]).
    destruct VC as [V1 V2]. cbn [valid_opn] in V2. rewrite run_bind in R.
    destruct (run (V3Mini.ReadBytes off n) V) as [sl' U'| | |] eqn:E; cbn [run] in R; try discriminate. injection R as <- <-.
    destruct (resliced V off n W V1 V2 _ _ E) as (A1 & A2 & A3 & _ & A4). repeat split; auto.
    intros j Hj. specialize (A4 j Hj). unfold sees_mini. cbn [fst]. lia.
  - destruct o; cbn [mini_next] in R; unfold ret_unit, ret_int, ret_bytes, ret_nums, out_int, out_nums in R;
      try (exfalso; first [eapply no_slice in R; [exact R|intro; exact I]|eapply no_slice_out in R; [exact R|intro; exact I]|discriminate R]).
    cbn [valid_call valid_opn] in VC. rewrite run_bind in R.
    destruct (run (V3Mini.ReadBytesNext n) V) as [sl' U'| | |] eqn:E; cbn [run] in R; try discriminate. injection R as <- <-.
    destruct (next_slice V n _ _ E) as (U1 & E1).
    destruct (resliced V (get_fld (bb V) FOff) n W (wf_off V W) VC _ _ E1) as (A1 & A2 & A3 & _ & A4). repeat split; auto.
    intros j Hj. unfold sees_mini. cbn [fst]. apply orb_true_r.
  - cbn in R. injection R as <- <-. pose proof (wf_off0 V W). pose proof (wf_len0 V W). repeat split; auto.
Qed.

Lemma mini_run V u : WF V -> ok_mini V u ->
  wq (mini_body u) V (ends_well (fun u : mini_use => sees_mini (fst u)) mini_one V u) (ends_badly mini_one V u).
Proof.
  intros W (VM & SC & IP). destruct u as [c out]. cbn [fst snd] in *. unfold mini_body. cbn [fst snd].
  apply wq_own; [apply still_mini_call; destruct c; auto|].
  assert (WO : WF (set_outs V out)) by (destruct W; constructor; assumption).
  pose proof (mini_call_sim (set_outs V out) c WO VM) as S.
  unfold ends_well, ends_badly, mini_one. cbn [fst snd].
  change (view_call (set_outs V out) c) with (view_call V c) in S. change (abs (set_outs V out)) with (abs V) in S. change (outs (set_outs V out)) with out in S.
  destruct (run (mini_call c) (set_outs V out)) as [v U|e U|U|] eqn:R; cbn [msim] in S; try contradiction.
  - destruct S as [S1 S2]. rewrite S1. cbn [fst answer_of]. assert (WU : WF U) by (destruct (g_wf _ _ S2); constructor; assumption).
    split; [destruct WU; constructor; assumption|]. split; [reflexivity|].
    destruct v; try exact I. destruct VM as (_ & VC & _).
    exact (mini_shows (set_outs V out) (c, out) b U WO VC R).
  - destruct S as [S1 S2]. rewrite S1. cbn [fst answer_of]. assert (WU : WF U) by (destruct (g_wf _ _ S2); constructor; assumption).
    split; [destruct WU; constructor; assumption|]. reflexivity.
Qed.
Lemma short_slice s : WF s -> s_len (b_buf (bb s)) <= 2 ^ 48.
Proof. intro W. pose proof (wf_cap_max s W) as A. pose proof (wf_lencap s W) as B. change maxAlloc with (2 ^ 48) in A. lia. Qed.
Lemma mini_disc s pm t u : WF s -> ok_mini s u -> pm Slice = Frozen ->
  (forall x, sees_mini (fst u) x = true -> may_read (pm x) t false) -> (forall x, writes_mini (fst u) x = true -> may_write (pm x) t false) ->
  disc (modes3 (b_buf (bb s)) (length (heap s)) pm) (headers3 (b_buf (bb s)) (length (heap s)) pm) t RaceLemmas.none (initial (length (heap s))) false yes (fun _ => True) (mini_body u).
Proof.
  intros W ((V1 & V2 & V3) & SC & IP) F R X. destruct u as [c out]. cbn [fst snd] in *. unfold mini_body. cbn [fst snd].
  apply (odisc_call _ _ pm t (wf_blk s W) (short_slice s W) s); auto.
  intros x Hx. apply R. unfold sees_mini. now rewrite Hx.
Qed.
Lemma mini_slice s u : ok_mini s u -> writes_mini (fst u) Slice = false.
Proof. intros (_ & _ & IP). destruct u as [c out]. destruct c; try reflexivity; try contradiction. Qed.

(** ** v1 and v2 *)

Definition ok_old (v : version) (s : St) (u : old_use) : Prop :=
  valid_old_mini v s (fst u) (snd u) /\ separate_old s (fst u) /\ in_place_old (fst u).

Lemma old_args v pol s V u : ok_old v s u -> same_args s V -> ok_old v V u /\ forall a, old_one v pol V u a = old_one v pol s u a.
Proof.
  intros ((V1 & V2 & V3) & SC & IP) SA. destruct u as [c out]. unfold ok_old, old_one, valid_old_mini. cbn [fst snd] in *.
  assert (BB : b_buf (bb V) = b_buf (bb s)) by apply SA.
  assert (X : valid_call2 V c /\ separate_old V c /\ view_old V c = view_old s c).
  { destruct c as [off o|o| | | | | | | | | | | | | | | | | ]; cbn [valid_call2 view_old separate_old] in *; auto.
    - destruct V2 as [V2 V2']. destruct o; cbn [valid_op2 view_old_op separate_old] in *; auto. unfold view_source.
      destruct (arg_fits s V d SA V2' SC) as [D1 D2]. rewrite D2, BB. auto.
    - destruct o; cbn [valid_op2 view_old_op separate_old] in *; auto. unfold view_source.
      destruct (arg_fits s V d SA V2 SC) as [D1 D2]. rewrite D2, BB. auto. }
  destruct X as (X1 & X2 & X3). rewrite X3. auto 7.
Qed.

Lemma still_for {S} n (b : Z -> S -> prog S) a : (forall i a, still (b i a)) -> still (for_loop n b a).
Proof.
  intro H. unfold for_loop. generalize (Z.to_nat n), 0, a. intro f.
  induction f as [|f IH]; intros i x; cbn [fl]; destruct (_ <? _); try exact I. apply still_bind; auto.
Qed.
Ltac rest2 := repeat first
  [ assumption | exact I | progress intros
  | match goal with
    | |- context [if ?c then _ else _] => destruct c
    | |- still (Ret _) => exact I
    | |- still (Panic _) => exact I
    | |- still (goto_loop _ _ _) => apply still_goto
    | |- still (for_loop _ _ _) => apply still_for
    | |- still (buf_get _) => apply still_buf_get
    | |- still (buf_set _ _) => apply still_buf_set
    | |- still (reslice _ _ _) => apply still_reslice
    | |- still (MiniWriteT _ _ _) => apply still_mini_WriteT
    | |- still (MiniReadT _ _ _) => apply still_mini_ReadT
    | |- still (elem _ _) => apply still_elem
    | |- still (bind _ _) => apply still_bind
    end
  | progress unfold panic_if, get, set, get_buf, slice_get, set_elem, make_elems, elem | progress cbn [still bind] ].

(** The calls that allocate. *)
Definition builds (v : version) (c : call2 slice) : Prop :=
  match v, c with V1, (At2 _ (PWrite _ _) | Next2 (PWrite _ _)) => True | _, _ => False end.
Lemma still_v2 pol c : in_place_old c -> old_mini_method V2 c = true -> still (mini2_call pol c).
Proof.
  intros F MM. destruct c as [off o|o| | | | | | | | | | | | | | | | | ]; try contradiction F; cbn [mini2_call];
    unfold ret_unit, ret_int, ret_bytes, ret_nums, V2Mini.AfterBit, V2Mini.After, V2Mini.afterbit, V2Mini.after, V2Mini.AlignBit, V2Mini.AlignByte,
      V2Mini.alignbit, V2Mini.alignbyte, V2Mini.Refresh, V2Mini.refresh, V2Mini.Seek, V2Mini.seek, V2Mini.SeekBit, V2Mini.seekbit,
      V2Mini.Bytes, V2Mini.Capacity, V2Mini.BitCapacity, V2Mini.Offset, V2Mini.BitOffset,
      V2Mini.ClearAllBits, V2Mini.SetAllBits, V2Mini.FlipAllBits, V2Mini.clearallbits, V2Mini.setallbits, V2Mini.flipallbits;
    try solve [try destruct off; rest2].
  - destruct o; try discriminate MM; cbn [mini2_at]; rewrite ?MiniWriteU_v3, ?MiniReadU_v3;
      unfold ret_unit, ret_int, ret_bytes, ret_nums, out_int, out_nums,
      V2Mini.ReadBit, V2Mini.ReadBits, V2Mini.SetBit, V2Mini.SetBits, V2Mini.FlipBit, V2Mini.WriteBytes, V2Mini.ReadBytes,
      V2Mini.readbits, V2Mini.readbit, V2Mini.setbits, V2Mini.setbit, V2Mini.flipbit, V2Mini.write, V2Mini.read; solve [rest2].
  - destruct o; try discriminate MM; cbn [mini2_next]; rewrite ?MiniWriteUNext_v3, ?MiniReadUNext_v3, ?MiniWriteTNext_canon, ?MiniReadTNext_canon;
      unfold ret_unit, ret_int, ret_bytes, ret_nums, out_int, out_nums,
      V2Mini.ReadBitNext, V2Mini.ReadBitsNext, V2Mini.SetBitNext, V2Mini.SetBitsNext, V2Mini.FlipBitNext, V2Mini.WriteBytesNext, V2Mini.ReadBytesNext,
      V2Mini.readbits, V2Mini.readbit, V2Mini.setbits, V2Mini.setbit, V2Mini.flipbit, V2Mini.write, V2Mini.read, V2Mini.seek, V2Mini.seekbit, V3Mini.SeekByte; solve [rest2].
Qed.
Lemma still_uints t s : still (uints t s).
Proof.
  assert (G : forall i, still (slice_get s i)) by (intro; unfold slice_get; rest2).
  destruct t; cbn [uints]; unfold GoBinary.uint16, GoBinary.uint32, GoBinary.uint64; repeat (apply still_bind; [apply G|intro]); exact I.
Qed.
Lemma still_v1 pol c : in_place_old c -> old_mini_method V1 c = true -> ~ builds V1 c -> still (mini1_call pol c).
Proof.
  intros F MM NB. destruct c as [off o|o| | | | | | | | | | | | | | | | | ]; try contradiction F; cbn [mini1_call];
    unfold ret_unit, ret_int, ret_bytes, ret_nums, V1Mini.AfterBit, V1Mini.After, V1Mini.afterbit, V1Mini.after, V1Mini.AlignBit, V1Mini.AlignByte,
      V1Mini.alignbit, V1Mini.alignbyte, V1Mini.Refresh, V1Mini.refresh, V1Mini.Seek, V1Mini.seek, V1Mini.SeekBit, V1Mini.seekbit,
      V1Mini.Bytes, V1Mini.Capacity, V1Mini.BitCapacity, V1Mini.Offset, V1Mini.BitOffset,
      V1Mini.ClearAllBits, V1Mini.SetAllBits, V1Mini.FlipAllBits, V1Mini.clearallbits, V1Mini.setallbits, V1Mini.flipallbits;
    try solve [try destruct off; rest2].
  - destruct o; try discriminate MM; try (exfalso; apply NB; exact I); cbn [mini1_at];
      unfold ret_unit, ret_int, ret_bytes, ret_nums, ret_idata, out_int, out_nums; rewrite ?mini1_readComplex_canon; unfold
      V1Mini.ReadBit, V1Mini.ReadBits, V1Mini.SetBit, V1Mini.SetBits, V1Mini.FlipBit, V1Mini.WriteBytes, V1Mini.ReadBytes,
      V1Mini.readbits, V1Mini.readbit, V1Mini.setbits, V1Mini.setbit, V1Mini.flipbit, V1Mini.write, V1Mini.read, V1Buffer.decode_loop;
      solve [rest2; try apply still_uints; destruct (nums_of _ _); exact I].
  - destruct o; try discriminate MM; try (exfalso; apply NB; exact I); cbn [mini1_next];
      unfold ret_unit, ret_int, ret_bytes, ret_nums, ret_idata, out_int, out_nums; unfold V1Mini.ReadComplexNext;
      change V1Mini.readComplex with V1Mini.ReadComplex; unfold
      V1Mini.ReadBitNext, V1Mini.ReadBitsNext, V1Mini.SetBitNext, V1Mini.SetBitsNext, V1Mini.FlipBitNext, V1Mini.WriteBytesNext, V1Mini.ReadBytesNext,
      V1Mini.readbits, V1Mini.readbit, V1Mini.setbits, V1Mini.setbit, V1Mini.flipbit, V1Mini.write, V1Mini.read, V1Mini.seek, V1Mini.seekbit;
      try solve [rest2].
    apply still_bind; [apply still_bind; [unfold get; cbn; auto|]|intro; destruct (nums_of _ _); exact I]. intro off. rewrite mini1_readComplex_canon.
    unfold V1Mini.read, V1Buffer.decode_loop. rest2; apply still_uints.
Qed.

(** *** v1 builds the bytes of an integer write in memory of its own *)

(** Memory has grown, and nothing else. *)
Definition grown (s s' : St) : Prop :=
  bb s' = bb s /\ (length (heap s) <= length (heap s'))%nat /\
  forall b, (b < length (heap s))%nat -> nth b (heap s') [] = nth b (heap s) [].
Lemma grown_refl s : grown s s.
Proof. repeat split; auto. Qed.
Lemma grown_trans s s1 s2 : grown s s1 -> grown s1 s2 -> grown s s2.
Proof. intros (A1 & A2 & A3) (B1 & B2 & B3). repeat split; try congruence; try lia. intros b L. rewrite B3 by lia. auto. Qed.
Lemma grown_abs s s' : WF s -> grown s s' -> abs s' = abs s.
Proof.
  intros W (A1 & A2 & A3). unfold abs, content, spare, slice_bytes. rewrite A1, A3 by (now apply wf_blk). reflexivity.
Qed.

(** The blocks [K] are newer than [s] and hold what [K] says. *)
Definition holds (s : St) (K : priv_mem) (s' : St) : Prop :=
  Forall (fun nl => (length (heap s) <= fst nl)%nat /\ nth_error (heap s') (fst nl) = Some (snd nl)) K.
Lemma pad_grown s j : grown s (pad s j).
Proof.
  unfold pad. repeat split; cbn [heap set_heap]; [rewrite app_length; lia|]. intros b L. now rewrite app_nth1.
Qed.
Lemma wq_priv {A B} (p : prog A) (f : A -> prog B) out s (Rp : priv_mem -> A -> Prop) (Q : B -> St -> Prop) (E : err -> St -> Prop) : WF s ->
  (forall K a s', Rp K a -> WF s' -> grown s s' -> holds s K s' -> wq (own_out out (f a)) s' Q E) ->
  forall K, priv_to Rp K p -> forall s', WF s' -> grown s s' -> holds s K s' -> wq (own_out out (bind p f)) s' Q E.
Proof.
  intros W0 F K P. induction P as [K a HR|K l k Hb Hl _ IH|K n l i v k Hin Hi Hv _ IH|K n l i k Hin Hi _ IH]; intros s' W G H; cbn [bind own_out wq].
  - eapply F; eauto.
  - intro j. assert (W1 : WF (pad s' j)) by (now destruct (pad_WF s' j W)).
    assert (H1 : holds s K (pad s' j)).
    { eapply Forall_impl; [|exact H]. cbn. intros x (X1 & X2). split; auto. rewrite nth_error_app1; auto. apply nth_error_Some. congruence. }
    pose proof (grown_trans _ _ _ G (pad_grown s' j)) as G1.
    assert (LE : (length (heap s) <= length (heap (pad s' j)))%nat) by apply G1.
    apply IH.
    + intro X. apply in_map_iff in X as (y & Y1 & Y2). pose proof (proj1 (Forall_forall _ _) H1 y Y2) as (Z1 & Z2).
      assert (fst y < length (heap (pad s' j)))%nat by (apply nth_error_Some; congruence). lia.
    + apply alloc_WF; auto.
    + eapply grown_trans; [exact G1|]. repeat split; cbn [heap set_heap]; [rewrite app_length; lia|]. intros b L. now rewrite app_nth1.
    + constructor; cbn [fst snd heap set_heap].
      * split; auto. rewrite nth_error_app2, Nat.sub_diag by lia. reflexivity.
      * eapply Forall_impl; [|exact H1]. cbn. intros x (X1 & X2). split; auto. rewrite nth_error_app1; auto. apply nth_error_Some. congruence.
  - pose proof (proj1 (Forall_forall _ _) H _ Hin) as (Z1 & Z2). cbn [fst snd] in *.
    assert (Ln : (n < length (heap s'))%nat) by (apply nth_error_Some; congruence).
    set (l' := splice l (Z.to_nat i) [v]) in *.
    assert (Wl : Forall is_byte l /\ zlen l <= maxAlloc) by (apply (proj1 (Forall_forall _ _) (wf_h _ W)); now apply (nth_error_In _ n)).
    assert (Zl : zlen l' = zlen l).
    { unfold l', splice, zlen in *. rewrite !app_length, firstn_length, skipn_length. cbn [length]. lia. }
    assert (Bl : Forall is_byte l').
    { unfold l', splice. apply Forall_app. split; [|apply Forall_app; split].
      - apply Forall_forall. intros x X. apply firstn_In' in X. now apply (proj1 (Forall_forall _ _) (proj1 Wl)).
      - constructor; [exact Hv|constructor].
      - apply Forall_forall. intros x X. apply skipn_In' in X. now apply (proj1 (Forall_forall _ _) (proj1 Wl)). }
    rewrite (heap_write_set _ _ _ _ l Z2) by (change (zlen [v]) with 1; lia). fold l'. apply IH.
    + apply rewrite_WF; auto; try lia. destruct G as (-> & _). pose proof (wf_blk s W0). lia.
    + destruct G as (G1 & G2 & G3). repeat split; cbn [heap set_heap bb]; auto; [now rewrite length_set_nth|].
      intros b L. rewrite <- G3 by auto. rewrite !nth_nth_error, nth_error_set_nth by auto. now replace (Nat.eqb b n) with false by (symmetry; apply Nat.eqb_neq; lia).
    + apply Forall_forall. intros x X. apply in_map_iff in X as (y & <- & X).
      pose proof (proj1 (Forall_forall _ _) H y X) as (Y1 & Y2). cbn [heap set_heap].
      destruct (Nat.eqb_spec (fst y) n) as [En|N]; cbn [fst snd]; rewrite nth_error_set_nth by exact Ln.
      * rewrite Nat.eqb_refl. auto.
      * destruct (Nat.eqb_spec (fst y) n); [congruence|auto].
  - pose proof (proj1 (Forall_forall _ _) H _ Hin) as (Z1 & Z2). cbn [fst snd] in *.
    assert (HR : heap_read (heap s') n i 1 = Some [nth (Z.to_nat i) l 0]).
    { unfold heap_read. rewrite Z2. replace (_ && _) with true by lia. f_equal.
      change (Z.to_nat 1) with 1%nat. unfold zlen in Hi. rewrite (nth_split_at l (Z.to_nat i)) at 1 by lia. reflexivity. }
    rewrite HR. now apply IH.
Qed.

Lemma old_shows v pol V u sl U : WF V -> valid_call2 V (fst u) -> old_mini_method v (fst u) = true -> run (old_mini v pol (fst u)) V = Done (RBytes sl) U ->
  shows (fun u : old_use => sees_old v (fst u)) V u (RBytes sl).
Proof.
  destruct u as [c out]. cbn [fst]. intros W VC MM R. cbn [shows].
  assert (AT : forall off n, is_i64 off -> is_i64 n -> forall sl U, run (ret_bytes (V3Mini.ReadBytes off n)) V = Done (RBytes sl) U ->
    s_blk sl = s_blk (b_buf (bb V)) /\ 0 <= s_off sl /\ 0 <= s_len sl /\
    forall j, s_off sl <= j < s_off sl + s_len sl -> off <= j - s_off (b_buf (bb V)) < off + n).
  { intros off n H1 H2 sl1 U1 E. unfold ret_bytes in E. rewrite run_bind in E.
    destruct (run (V3Mini.ReadBytes off n) V) as [sl' U'| | |] eqn:E1; cbn [run] in E; try discriminate. injection E as <- <-.
    destruct (resliced V off n W H1 H2 _ _ E1) as (A1 & A2 & A3 & _ & A4). auto. }
  assert (NX : forall n, is_i64 n -> forall sl U, run (ret_bytes (V3Mini.ReadBytesNext n)) V = Done (RBytes sl) U ->
    s_blk sl = s_blk (b_buf (bb V)) /\ 0 <= s_off sl /\ 0 <= s_len sl).
  { intros n H2 sl1 U1 E. unfold ret_bytes in E. rewrite run_bind in E.
    destruct (run (V3Mini.ReadBytesNext n) V) as [sl' U'| | |] eqn:E1; cbn [run] in E; try discriminate. injection E as <- <-.
    destruct (next_slice V n _ _ E1) as (U2 & E2).
    destruct (resliced V _ n W (wf_off V W) H2 _ _ E2) as (A1 & A2 & A3 & _). auto. }
  assert (NI : forall (p : prog V1Buffer.idata) t sl U, run (ret_idata t p) V = Done (RBytes sl) U -> False).
  { intros p t sl1 U1. unfold ret_idata. rewrite run_bind. destruct (run p V) as [x ?| | |]; cbn [run]; try discriminate.
    destruct (nums_of t x); cbn [run]; discriminate. }
  destruct c as [off o|o| | | | | | | | | | | | | | | | | ]; cbn [valid_call2 old_mini_method] in *.
  { destruct VC as [H1 H2]. destruct o; try discriminate MM; destruct v; cbn [old_mini mini1_call mini2_call mini1_at mini2_at] in R;
      try (exfalso; unfold ret_unit, ret_int, ret_nums, out_int, out_nums in R;
        first [eapply NI in R; exact R|eapply no_slice in R; [exact R|intro; exact I]|eapply no_slice_out in R; [exact R|intro; exact I]]).
    all: cbn [valid_op2] in H2; destruct (AT off n H1 H2 _ _ R) as (A1 & A2 & A3 & A4); repeat split; auto;
      intros j Hj; specialize (A4 j Hj); unfold sees_old; cbn [fst]; lia. }
  { destruct o; try discriminate MM; destruct v; cbn [old_mini mini1_call mini2_call mini1_next mini2_next] in R;
      try (exfalso; unfold ret_unit, ret_int, ret_nums, out_int, out_nums in R;
        first [eapply NI in R; exact R|eapply no_slice in R; [exact R|intro; exact I]|eapply no_slice_out in R; [exact R|intro; exact I]]).
    all: cbn [valid_op2] in VC; destruct (NX n VC _ _ R) as (A1 & A2 & A3); repeat split; auto;
      intros j Hj; unfold sees_old; cbn [fst]; apply orb_true_r. }
  all: destruct v; try discriminate MM; cbn [old_mini mini1_call mini2_call] in R;
    try (exfalso; unfold ret_unit, ret_int, ret_nums in R; eapply no_slice in R; [exact R|intro; exact I]).
  all: cbn in R; injection R as <- <-; pose proof (wf_off0 V W); pose proof (wf_len0 V W); repeat split; auto;
    intros j Hj; unfold sees_old; cbn [fst]; apply orb_true_r.
Qed.

Lemma wq_assoc {A B C} (p : prog A) (f : A -> prog B) (g : B -> prog C) : forall out s (Q : C -> St -> Prop) (E : err -> St -> Prop),
  wq (own_out out (bind p (fun a => bind (f a) g))) s Q E -> wq (own_out out (bind (bind p f) g)) s Q E.
Proof.
  induction p; intros out st Q E; cbn [bind own_out wq]; eauto.
  - destruct (heap_read _ _ _ _) as [[|v [|]]|]; eauto.
  - destruct (heap_write _ _ _ _); eauto.
  - destruct (heap_read _ _ _ _); eauto. destruct (heap_write _ _ _ _); eauto.
Qed.

(** From the run of a call [c'] that allocates nothing. *)
Lemma old_seen_wq v pol V s' c c' out (p : prog (rv slice)) : WF s' -> still p ->
  run p (set_outs s' out) = run (old_mini v pol c') (set_outs s' out) -> valid_old_mini v s' c' out ->
  forall v0, old_mini_abs v0 pol (view_old V c) (abs V) out = old_mini_abs v pol (view_old s' c') (abs s') out ->
  (forall sl U, run (old_mini v pol c') (set_outs s' out) = Done (RBytes sl) U -> shows (fun u : old_use => sees_old v0 (fst u)) V (c, out) (RBytes sl)) ->
  wq (own_out out p) s' (ends_well (fun u : old_use => sees_old v0 (fst u)) (old_one v0 pol) V (c, out)) (ends_badly (old_one v0 pol) V (c, out)).
Proof.
  intros W S R VM v0 EQ SH. apply wq_own; auto. rewrite R.
  assert (WO : WF (set_outs s' out)) by (destruct W; constructor; assumption).
  destruct (old_mini_seen v pol (set_outs s' out) c' WO VM) as (o & Eo & So).
  change (view_old (set_outs s' out) c') with (view_old s' c') in Eo. change (abs (set_outs s' out)) with (abs s') in Eo. change (outs (set_outs s' out)) with out in *.
  unfold ends_well, ends_badly, old_one. cbn [fst snd]. rewrite EQ, Eo.
  destruct (run (old_mini v pol c') (set_outs s' out)) as [w U|e U|U|] eqn:RR; cbn [mseen] in So; try contradiction.
  - destruct So as (-> & _ & KP). cbn [answer_of]. assert (WU : WF U) by (destruct (k_wf _ _ KP); constructor; assumption).
    split; [destruct WU; constructor; assumption|]. split; [reflexivity|]. destruct w; try exact I. eapply SH; eauto.
  - destruct So as (-> & _ & KP). cbn [answer_of]. assert (WU : WF U) by (destruct (k_wf _ _ KP); constructor; assumption).
    split; [destruct WU; constructor; assumption|]. reflexivity.
Qed.

(** The bytes of an integer write, in a block of their own. *)
Lemma built V s' t d n K (L := zlen d * tsize (fmt t)) : WF V -> WF s' -> grown V s' -> holds V K s' -> In (n, encode_all (fmt t) d) K -> wf_data (tsize (fmt t)) d ->
  wf_arg s' (V1Lemmas.block n L) /\ view_source s' (V1Lemmas.block n L) = mkSource (encode_all (fmt t) d) None.
Proof.
  intros W W' G H I Wd. pose proof (proj1 (Forall_forall _ _) H _ I) as (N1 & N2). cbn [fst snd] in *.
  assert (EZ : zlen (encode_all (fmt t) d) = L) by apply encode_all_zlen.
  assert (Nn : nth n (heap s') [] = encode_all (fmt t) d) by (now apply nth_error_nth).
  pose proof (zlen_nonneg (encode_all (fmt t) d)).
  split.
  - unfold wf_arg, wf_slice, V1Lemmas.block; cbn [s_blk s_off s_len s_cap]. rewrite Nn, EZ. split; [apply nth_error_Some; congruence|]. lia.
  - unfold view_source, slice_bytes, V1Lemmas.block; cbn [s_blk s_off s_len s_cap]. rewrite Nn. f_equal.
    + apply sub_all. lia.
    + destruct G as (-> & _). pose proof (wf_blk V W). destruct (Nat.eqb_spec n (s_blk (b_buf (bb V)))); auto. lia.
Qed.

Lemma old_run v pol V u : WF V -> ok_old v V u ->
  wq (old_use_body v pol u) V (ends_well (fun u : old_use => sees_old v (fst u)) (old_one v pol) V u) (ends_badly (old_one v pol) V u).
Proof.
  intros W (VM & SC & IP). destruct u as [c out]. cbn [fst snd] in *. unfold old_use_body. cbn [fst snd].
  assert (D : builds v c \/ still (old_mini v pol c)).
  { destruct v; [|right; apply still_v2; auto; apply VM].
    assert (D : builds V1 c \/ ~ builds V1 c) by (destruct c as [off o|o| | | | | | | | | | | | | | | | | ]; try destruct o; cbn; auto).
    destruct D; auto. right. apply still_v1; auto. apply VM. }
  destruct D as [D|D].
  - destruct v; [|contradiction]. destruct VM as (MM & VC & _).
    destruct c as [off o|o| | | | | | | | | | | | | | | | | ]; try contradiction; destruct o; try contradiction; cbn [valid_call2 valid_op2] in VC;
      cbn [old_mini mini1_call mini1_at mini1_next]; unfold ret_unit.
    + destruct VC as [Ho Wd]. unfold V1Mini.WriteComplex, V1Mini.writeComplex. apply wq_assoc.
      eapply (wq_priv _ _ out V); [exact W| |now apply (priv_complex_bytes t d [])|exact W|apply grown_refl|constructor].
      cbv beta. intros K x s' (n & -> & In') W' G H. destruct (built V s' t d n K W W' G H In' Wd) as (B1 & B2).
      apply (old_seen_wq V2 pol V s' _ (At2 off (PWriteBytes (V1Lemmas.block n (zlen d * tsize (fmt t)))))); auto.
      * exact (still_v2 pol (At2 off (PWriteBytes _)) I eq_refl).
      * split; [reflexivity|]. split; [cbn [valid_call2 valid_op2]; auto|exact I].
      * cbn [view_old view_old_op old_mini_abs old_mini_abs_at]. rewrite B2, (grown_abs V s' W G). unfold copied. cbn [src_pos src_bytes]. now rewrite smear_clean by auto.
      * intros sl U R. exfalso. cbn [old_mini mini2_call mini2_at] in R. unfold ret_unit in R. eapply no_slice in R; [exact R|intro; exact I].
    + rename VC into Wd. rewrite mini1_writeComplexNext_canon. unfold get. cbn [bind own_out wq].
      unfold V1Mini.WriteComplex, V1Mini.writeComplex. apply wq_assoc, wq_assoc.
      eapply (wq_priv _ _ out V); [exact W| |now apply (priv_complex_bytes t d [])|exact W|apply grown_refl|constructor].
      cbv beta. intros K x s' (n & -> & In') W' G H. destruct (built V s' t d n K W W' G H In' Wd) as (B1 & B2).
      assert (BB : bb s' = bb V) by apply G.
      assert (LZ : zlen d *! tsize (fmt t) = zlen d * tsize (fmt t)).
      { unfold wf_data in Wd. pose proof (tsize_pos (fmt t)). pose proof (zlen_nonneg d). change maxAlloc with (2 ^ 48) in Wd. apply mul64_id. unfold is_i64. nia. }
      rewrite LZ.
      apply (old_seen_wq V2 pol V s' _ (Next2 (PWriteBytes (V1Lemmas.block n (zlen d * tsize (fmt t)))))); auto.
      * apply still_bind; [unfold V1Mini.write; rest2|]. intro. apply still_bind; [unfold V2Mini.seek; rest2|intro; exact I].
      * cbn [old_mini mini2_call mini2_next]. unfold ret_unit, V2Mini.WriteBytesNext, get. cbn [bind run].
        change (bb (set_outs s' out)) with (bb s'). rewrite BB. rewrite !run_bind. change V1Mini.write with V2Mini.write.
        destruct (run (V2Mini.write _ _) (set_outs s' out)); auto.
      * split; [reflexivity|]. split; [cbn [valid_call2 valid_op2]; auto|exact I].
      * cbn [view_old view_old_op old_mini_abs old_mini_abs_at]. rewrite B2, (grown_abs V s' W G). unfold old_mini_abs_next.
        cbn [bit_addressed2 advance_of2 src_bytes old_mini_abs_at]. unfold copied. cbn [src_pos src_bytes]. now rewrite smear_clean, encode_all_zlen by auto.
      * intros sl U R. exfalso. cbn [old_mini mini2_call mini2_next] in R. unfold ret_unit in R. eapply no_slice in R; [exact R|intro; exact I].
  - apply (old_seen_wq v pol V V c c out); auto. intros sl U R. destruct VM as (MM & VC & _).
    assert (WO : WF (set_outs V out)) by (destruct W; constructor; assumption).
    exact (old_shows v pol (set_outs V out) (c, out) sl U WO VC MM R).
Qed.
Lemma old_disc v pol s pm t u : WF s -> ok_old v s u -> pm Slice = Frozen ->
  (forall x, sees_old v (fst u) x = true -> may_read (pm x) t false) -> (forall x, writes_old v (fst u) x = true -> may_write (pm x) t false) ->
  disc (modes3 (b_buf (bb s)) (length (heap s)) pm) (headers3 (b_buf (bb s)) (length (heap s)) pm) t RaceLemmas.none (initial (length (heap s))) false yes (fun _ => True) (old_use_body v pol u).
Proof.
  intros W ((V1 & V2 & V3) & SC & IP) F R X. destruct u as [c out]. cbn [fst snd] in *. unfold old_use_body. cbn [fst snd].
  apply (odisc_old_call _ _ pm t (wf_blk s W) (short_slice s W) v pol s); auto.
  - apply W.
  - intros x Hx. apply R. unfold sees_old. now rewrite Hx.
Qed.
Lemma old_slice v s u : ok_old v s u -> writes_old v (fst u) Slice = false.
Proof. intros (_ & _ & IP). destruct u as [c out]. destruct c; try reflexivity; try contradiction. Qed.
