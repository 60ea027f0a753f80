(** * Props_Mini2: what the user of a v1 or v2 [MiniBuffer] can rely on (C70), and
    the same about the Go text (C71).

    The specification is the abstract MiniBuffer of MiniAbs2.v: a byte string, the
    bytes behind it and two offsets. *)
From Coq Require Import ZArith List Bool String Lia ZifyBool.
From Verif Require Import GoSem Errors GoParse SrcV1 SrcV2 AstV1 AstV2 Conv GoEval Front Tables FrontCalls.
From Verif Require Import Spec GoLemmas V3BitLemmas V3ByteLemmas Typed Calls Abs Frame Sim History NewBuf MiniAbs MiniHistory
  OldCalls V2Lemmas V2Agree V1Calls Abs2 Sim2 MiniAbs2 MiniSim2 MiniHist2 FrontOldCalls FrontOldMini.
From Verif Require Import LockLemmas.
From Verif Require V1Mini V2Mini FrontM1 FrontM2 Props_Front Props_Old Props_Abs2.
Import ListNotations.
Open Scope Z_scope.
Open Scope list_scope.

Import Props_Front.

(** ** C70 *)

Definition old_NewMiniBuffer (v : version) : (Z -> Z -> Z) -> list slice -> prog unit :=
  match v with V1 => V1Mini.NewMiniBuffer | V2 => V2Mini.NewMiniBuffer end.

(** [s] is the state after [NewMiniBuffer(&b, slices...)] of version [v], where the slices exist. *)
Definition mini_made (v : version) (pol : Z -> Z -> Z) (s0 : St) (slices : list slice) (s : St) : Prop :=
  wf_heap (heap s0) /\ zlen slices < 2 ^ 63 /\ Forall (wf_slice (heap s0)) slices /\
  run (old_NewMiniBuffer v pol slices) s0 = Done tt s.

Lemma old_NewMiniBuffer_is v pol slices s0 : zlen slices < 2 ^ 63 ->
  run (old_NewMiniBuffer v pol slices) s0 = run (V3Buffer.NewBuffer pol slices) s0.
Proof.
  intros Hz. replace (old_NewMiniBuffer v) with V2Mini.NewMiniBuffer by (destruct v; reflexivity).
  unfold V2Mini.NewMiniBuffer, V3Buffer.NewBuffer. cbn [empty_slice bind run set_buf set]. rewrite !run_bind.
  destruct slices as [|s1 [|s2 r]]; try reflexivity.
  rewrite for_loop_goto by (split; [|exact Hz]; unfold zlen; simpl List.length; lia). reflexivity.
Qed.

Lemma mini_made_fresh v pol s0 slices s : mini_made v pol s0 slices s -> fresh_buffer s0 s (all_bytes (heap s0) slices).
Proof.
  intros (H1 & H2 & H3 & E). rewrite old_NewMiniBuffer_is in E by auto.
  pose proof (NewBuffer_any pol s0 slices H1 H2 H3) as N.
  destruct (_ <=? _); destruct N as (s' & E' & N); [|congruence].
  assert (s' = s) by congruence. now subst s'.
Qed.

(** C70: a MiniBuffer made by NewMiniBuffer from slices holds their bytes, with
    offsets 0; whatever is then called, in whatever order and with whatever
    arguments, and whatever the caller does to memory in between, every call
    returns or panics, and the caller sees what the abstract MiniBuffer answers,
    including what is left behind the out pointer after a panic. *)
Theorem C70_histories_refine : forall v pol s0 slices s es,
  mini_made v pol s0 slices s -> valid_omevents v pol es s ->
  exists answers s', omexec v pol es s = Some (answers, s') /\
    abs_omexec v pol (view_omevents v pol es s) (mkA (List.concat (map (slice_bytes (heap s0)) slices)) (spare s) 0 0) =
      Some (answers, mkA (content s') (spare s') (b_off (bb s')) (b_boff (bb s'))).
Proof.
  intros v pol s0 slices s es N V. destruct (mini_made_fresh _ _ _ _ _ N) as [F1 F2 F3 F4 _ _ _].
  destruct (omexec_refines v pol es s F1 V) as (a & s' & E & _ & _ & R). exists a, s'. split; [exact E|].
  rewrite <- F3 at 1. rewrite <- F4. change (List.concat _) with (all_bytes (heap s0) slices). rewrite <- F2. exact R.
Qed.
Print Assumptions C70_histories_refine.

(** C70: none of this touches memory that is not behind the MiniBuffer. *)
Theorem C70_isolation : forall v pol s0 slices s es answers s' b i,
  mini_made v pol s0 slices s -> valid_omevents v pol es s -> omexec v pol es s = Some (answers, s') ->
  (b < List.length (heap s0))%nat -> 0 <= i ->
  (b <> s_blk (b_buf (bb s)) \/ i < s_off (b_buf (bb s)) \/ s_off (b_buf (bb s)) + s_cap (b_buf (bb s)) <= i) ->
  (forall b' i' x, In (OMStore b' i' x) es -> b' <> b \/ i' <> i) ->
  mem (heap s') b i = mem (heap s0) b i.
Proof.
  intros v pol s0 slices s es answers s' b i N V E Hb Hi O C.
  destruct (mini_made_fresh _ _ _ _ _ N) as [F1 F2 F3 F4 [new F5] _ _].
  assert (Hb' : (b < List.length (heap s))%nat) by (rewrite F5, app_length; lia).
  assert (C' : om_spares b i es). { apply Forall_forall. intros [c|b' i' x|l] Hin; auto. now apply (C _ _ x). }
  destruct (omexec_outside v pol es s answers s' b i F1 V E Hb' Hi O C') as (_ & _ & Q & _). rewrite Q.
  unfold mem. rewrite F5, app_nth1 by exact Hb. reflexivity.
Qed.
Print Assumptions C70_isolation.

(** C70: NewMiniBuffer succeeds exactly if the bytes fit in memory. *)
Theorem C70_NewMiniBuffer : forall v pol s0 slices,
  wf_heap (heap s0) -> zlen slices < 2 ^ 63 -> Forall (wf_slice (heap s0)) slices ->
  if zlen (List.concat (map (slice_bytes (heap s0)) slices)) <=? maxAlloc
  then exists s, mini_made v pol s0 slices s
  else exists s, run (old_NewMiniBuffer v pol slices) s0 = Panicked (RuntimeError MakeLenOutOfRange) s.
Proof.
  intros v pol s0 slices H1 H2 H3. pose proof (NewBuffer_any pol s0 slices H1 H2 H3) as N.
  change (List.concat _) with (all_bytes (heap s0) slices).
  destruct (_ <=? _); destruct N as (s' & E & _); exists s'; [|now rewrite old_NewMiniBuffer_is].
  repeat (split; [assumption|]). now rewrite old_NewMiniBuffer_is.
Qed.
Print Assumptions C70_NewMiniBuffer.

(** Non-vacuity: an overrunning write leaves a prefix; ReadBits starts from the
    value of the variable; v1 reads two integers where it has checked for two bytes. *)
Definition mini_plays : list omevent :=
  [OMCall (KGrow 2) []; OMCall (Next2 (PWrite NU16BE [0x1234])) []; OMStore 3 4 99;
   OMCall (At2 4 (PWrite NU16LE [0x0102])) []; OMCall (At2 4 (PReadBits 8)) [1]; OMCall (At2 0 (PWriteBytes (mkSlice 3 0 0 6))) [];
   OMCall (At2 0 (PSetBit 3)) []; OMCall (At2 0 (PRead NU16BE 2)) [7; 8]; OMCall (At2 1 (PRead NU32LE 2)) [7; 8];
   OMCall (Next2 (PReadBytes 3)) []; OMCall KBytes []; OMCall KOffset []; OMCall (At2 100 PReadBit) []].
Definition ex_made0 : St := Props_Abs2.ex_made0.
Lemma ex_mini_made v : mini_made v Props_Old.pol_twice ex_made0 [mkSlice 0 0 3 3] Props_Old.ex_state2.
Proof.
  destruct (Props_Abs2.ex_made V2) as (H1 & _ & H2 & H3 & _). repeat (split; [assumption|]).
  destruct v; vm_compute; reflexivity.
Qed.
Example C70_case_v2 : exists s', omexec V2 Props_Old.pol_twice mini_plays Props_Old.ex_state2 =
  Some ([MReturned RUnit []; MReturned RUnit []; MRaised index_error []; MReturned (RInt 291) [291]; MRaised index_error [];
         MRaised BufferInvalidBitError []; MReturned (RNums [0x1234; 0x0300]) [0x1234; 0x0300]; MRaised index_error [0x02000334; 8];
         MReturned (RBytes [3; 0; 2]) []; MReturned (RBytes [0x12; 0x34; 3; 0; 2]) []; MReturned (RInt 5) []; MRaised index_error []], s').
Proof. eexists. vm_compute. reflexivity. Qed.
Example C70_case_v1 : exists s', omexec V1 Props_Old.pol_twice mini_plays Props_Old.ex_state2 =
  Some ([MReturned RUnit []; MReturned RUnit []; MRaised index_error []; MReturned (RInt 291) [291]; MRaised index_error [];
         MRaised BufferInvalidBitError []; MReturned (RNums [0x1234; 0x0300]) [7; 8]; MRaised slice_error [7; 8];
         MReturned (RBytes [3; 0; 2]) []; MReturned (RBytes [0x12; 0x34; 3; 0; 2]) []; MReturned (RInt 5) []; MRaised index_error []], s').
Proof. eexists. vm_compute. reflexivity. Qed.
Example C70_case_valid v : valid_omevents v Props_Old.pol_twice mini_plays Props_Old.ex_state2.
Proof. destruct v; vm_compute; repeat split; try discriminate; repeat constructor; try discriminate. Qed.

(** ** C71: what the Go text of v1 and v2 does *)

Definition old_mini_program (v : version) : list gdecl :=
  match v with
  | V1 => match parse v1_minibuf, parse v1_errors, parse v1_utils, parse v1_crunch with
          | Some a, Some b, Some c, Some d => a ++ b ++ c ++ d | _, _, _, _ => [] end
  | V2 => match parse v2_minibuf, parse v2_errors, parse v2_utils with Some a, Some b, Some c => a ++ b ++ c | _, _, _ => [] end
  end.
Lemma old_mini_program_text v : old_mini_program v = sources (old_mini_package v).
Proof.
  destruct v; unfold old_mini_program.
  - rewrite v1_minibuf_ast_parsed, v1_errors_ast_parsed, v1_utils_ast_parsed, v1_crunch_ast_parsed. reflexivity.
  - rewrite v2_minibuf_ast_parsed, v2_errors_ast_parsed, v2_utils_ast_parsed. reflexivity.
Qed.

(** One event.  A call starts with the value [out] in the variable behind its
    [out] pointer; the caller sees the answer and the variable. *)
Inductive om_step (v : version) (pol : Z -> Z -> Z) : omevent -> St -> list manswer -> St -> Prop :=
| om_returns c out s x a s' :
    runs_to (old_mini_program v) pol (old_mini_go_call v c) (set_outs s out) (Done ([], Return x) s') -> answer_of x = Some a ->
    om_step v pol (OMCall c out) s [MReturned (view_rv s' (old_mini_answer v c a (outs s'))) (outs s')] s'
| om_panics c out s er s' :
    runs_to (old_mini_program v) pol (old_mini_go_call v c) (set_outs s out) (Panicked er s') ->
    om_step v pol (OMCall c out) s [MRaised er (outs s')] s'
| om_store b i x s h :
    heap_write (heap s) b i [x] = Some h -> om_step v pol (OMStore b i x) s [] (set_heap s h)
| om_alloc l s : om_step v pol (OMAlloc l) s [] (alloc s l).

(** A history, what it amounts to for the abstract MiniBuffer, and what the caller sees. *)
Inductive om_history (v : version) (pol : Z -> Z -> Z) : list omevent -> St -> list aomevent -> list manswer -> St -> Prop :=
| om_history_nil s : om_history v pol [] s [] [] s
| om_history_cons e es s a s' vs os s'' :
    valid_omevent v s e -> om_step v pol e s a s' -> om_history v pol es s' vs os s'' ->
    om_history v pol (e :: es) s (view_omevent s e ++ vs) (a ++ os) s''.

Lemma om_step_unique v pol e s a s' b s'' : om_step v pol e s a s' -> om_step v pol e s b s'' -> a = b /\ s' = s''.
Proof.
  intros H1 H2.
  destruct H1 as [c out s y x s' H1 A1|c out s er s' H1|bk i y s h E1|l s];
    inversion H2 as [c2 out2 s2 v2 x2 s2' H3 A3|c2 out2 s2 er2 s2' H3|bk2 i2 v2 s2 h2 E3|l2 s2]; subst;
    try (pose proof (runs_to_unique _ _ _ _ _ _ H1 H3) as U; inversion U; subst);
    split; congruence.
Qed.

Lemma om_step_omexec1 v pol e s : WF s -> valid_omevent v s e ->
  exists a s', om_step v pol e s a s' /\ omexec1 v pol e s = Some (a, s').
Proof.
  intros W V. destruct (omexec1_refines v pol e s W V) as (a & s' & E & _). exists a, s'. split; [|exact E].
  destruct e as [c out|b i x|l]; cbn [omexec1] in E.
  - pose proof (means_outcome _ pol _ _ (set_outs s out) (old_mini_text v pol c (proj1 V))) as O.
    rewrite <- old_mini_program_text in O. rewrite old_mini_raw_call in E.
    destruct (run (old_mini_raw v pol c) (set_outs s out)) as [x s1|er s1|s1|]; cbn [text_outcome] in O; inversion E; subst.
    + destruct O as [y [O1 O2]]. eapply om_returns; eassumption.
    + apply om_panics. exact O.
  - destruct (heap_write (heap s) b i [x]) as [h|] eqn:Eh; inversion E; subst. now constructor.
  - inversion E; subst. constructor.
Qed.

(** [s1] is the state after [NewMiniBuffer(&b, slices...)] of the text. *)
Definition om_new (v : version) (pol : Z -> Z -> Z) (s0 : St) (slices : list slice) (s1 : St) : Prop :=
  wf_heap (heap s0) /\ zlen slices < 2 ^ 63 /\ Forall (wf_slice (heap s0)) slices
  /\ runs_to (old_mini_program v) pol ("NewMiniBuffer"%string, [VCell; VSlices slices]) s0 (Done ([], Return VSelf) s1).

Lemma old_NewMiniBuffer_outcome v pol s0 slices : zlen slices < 2 ^ 63 -> run (old_NewMiniBuffer v pol slices) s0 <> Stuck ->
  runs_to (old_mini_program v) pol ("NewMiniBuffer"%string, [VCell; VSlices slices]) s0
    match run (old_NewMiniBuffer v pol slices) s0 with
    | Done _ s' => Done ([], Return VSelf) s' | Panicked e s' => Panicked e s' | Deadlock s' => Deadlock s'
    | Stuck => Stuck end.
Proof.
  intros Z S. assert (I : is_i64 (zlen slices)) by (unfold is_i64, zlen in *; lia).
  assert (T : text_of (old_mini_package v) pol "NewMiniBuffer" [VCell; VSlices slices] self_ (old_NewMiniBuffer v pol slices)).
  { destruct v; [exact (FrontM1.NewMiniBuffer_text pol slices I)|exact (FrontM2.NewMiniBuffer_text pol slices I)]. }
  destruct (conv_limit _ _ _ s0 T S) as [r [Hr HN]].
  Transparent D. unfold D in HN. Opaque D. rewrite <- old_mini_program_text in HN.
  destruct Hr as [a b s' Hv|er s'|s']; try exact HN. rewrite Hv in HN. exact HN.
Qed.

Lemma om_new_made v pol s0 slices s1 : om_new v pol s0 slices s1 -> mini_made v pol s0 slices s1.
Proof.
  intros (H1 & H2 & H3 & H4). repeat (split; [assumption|]).
  pose proof (NewBuffer_any pol s0 slices H1 H2 H3) as N. pose proof (old_NewMiniBuffer_outcome v pol s0 slices H2) as O.
  rewrite old_NewMiniBuffer_is in * by auto.
  destruct (_ <=? _); destruct N as (s' & E & _); rewrite E in *; specialize (O ltac:(discriminate));
    pose proof (runs_to_unique _ _ _ _ _ _ H4 O) as U; congruence.
Qed.

Lemma om_history_refines v pol es s vs os s' :
  WF s -> om_history v pol es s vs os s' -> WF s' /\ abs_omexec v pol vs (abs s) = Some (os, abs s').
Proof.
  intros W H. revert W. induction H as [s|e es s a s1 vs os s2 V St Hh IH]; intros W; [auto|].
  destruct (om_step_omexec1 v pol e s W V) as (b & s3 & St' & E).
  destruct (om_step_unique _ _ _ _ _ _ _ _ St St') as [<- <-].
  destruct (omexec1_refines v pol e s W V) as (b & s3 & E' & W' & _ & R).
  rewrite E in E'. inversion E'; subst b s3. destruct (IH W') as [W2 R2]. split; [exact W2|].
  rewrite abs_omexec_app, R, R2. reflexivity.
Qed.

(** C71: C70 of the text. *)
Theorem C71_histories v pol s0 slices s1 es vs os s :
  om_new v pol s0 slices s1 -> om_history v pol es s1 vs os s ->
  a_bytes (abs s1) = all_bytes (heap s0) slices /\ a_off (abs s1) = 0 /\ a_boff (abs s1) = 0
  /\ abs_omexec v pol vs (abs s1) = Some (os, abs s).
Proof.
  intros N H. apply om_new_made, mini_made_fresh in N. destruct N as [W C O B _ _ _].
  split; [exact C|]. split; [exact O|]. split; [exact B|]. now apply (om_history_refines v pol es).
Qed.
Print Assumptions C71_histories.

(** C71: every call with arguments that exist in Go returns or panics, in one way only. *)
Theorem C71_every_call_ends v pol s0 slices s1 es vs os s e :
  om_new v pol s0 slices s1 -> om_history v pol es s1 vs os s -> valid_omevent v s e ->
  exists a s', om_step v pol e s a s' /\ forall a' s'', om_step v pol e s a' s'' -> a' = a /\ s'' = s'.
Proof.
  intros N H V. apply om_new_made, mini_made_fresh in N. destruct N as [W _ _ _ _ _ _].
  apply om_history_refines in H as [W' _]; [|exact W].
  destruct (om_step_omexec1 v pol e s W' V) as (a & s' & St & _). exists a, s'. split; [exact St|].
  intros a' s'' St'. exact (om_step_unique _ _ _ _ _ _ _ _ St' St).
Qed.
Print Assumptions C71_every_call_ends.

(** C71: NewMiniBuffer returns a MiniBuffer if the bytes fit in memory and panics if not. *)
Theorem C71_NewMiniBuffer v pol s0 slices :
  wf_heap (heap s0) -> zlen slices < 2 ^ 63 -> Forall (wf_slice (heap s0)) slices ->
  if zlen (all_bytes (heap s0) slices) <=? maxAlloc
  then exists s1, om_new v pol s0 slices s1
  else exists s1, runs_to (old_mini_program v) pol ("NewMiniBuffer"%string, [VCell; VSlices slices]) s0 (Panicked make_error s1).
Proof.
  intros H1 H2 H3. pose proof (NewBuffer_any pol s0 slices H1 H2 H3) as N.
  pose proof (old_NewMiniBuffer_outcome v pol s0 slices H2) as O. rewrite old_NewMiniBuffer_is in O by auto.
  destruct (_ <=? _); destruct N as (s' & E & _); exists s'; rewrite E in O; specialize (O ltac:(discriminate)).
  - repeat split; assumption.
  - exact O.
Qed.
Print Assumptions C71_NewMiniBuffer.

(** Every history of the model is one of the text. *)
Lemma om_history_of_exec v pol es : forall s, WF s -> valid_omevents v pol es s ->
  exists os s', omexec v pol es s = Some (os, s') /\ om_history v pol es s (view_omevents v pol es s) os s'.
Proof.
  induction es as [|e es IH]; intros s W V; cbn [omexec view_omevents valid_omevents] in *.
  - do 2 eexists. split; [reflexivity|constructor].
  - destruct V as [V1 V2]. destruct (om_step_omexec1 v pol e s W V1) as (a & s1 & St & E).
    destruct (omexec1_refines v pol e s W V1) as (b & s3 & E' & W' & _). rewrite E in E'. inversion E'; subst b s3.
    rewrite E in *. destruct (IH s1 W' V2) as (os & s' & E2 & H). rewrite E2. do 2 eexists.
    split; [reflexivity|]. econstructor; eassumption.
Qed.

(** Non-vacuity: the history of C70 is one of the text of v1. *)
Example C71_case : exists vs s,
    om_new V1 Props_Old.pol_twice ex_made0 [mkSlice 0 0 3 3] Props_Old.ex_state2
    /\ om_history V1 Props_Old.pol_twice mini_plays Props_Old.ex_state2 vs
        [MReturned RUnit []; MReturned RUnit []; MRaised index_error []; MReturned (RInt 291) [291]; MRaised index_error [];
         MRaised BufferInvalidBitError []; MReturned (RNums [0x1234; 0x0300]) [7; 8]; MRaised slice_error [7; 8];
         MReturned (RBytes [3; 0; 2]) []; MReturned (RBytes [0x12; 0x34; 3; 0; 2]) []; MReturned (RInt 5) []; MRaised index_error []] s.
Proof.
  pose proof (ex_mini_made V1) as EM. destruct EM as (H1 & H2 & H3 & E).
  pose proof (old_NewMiniBuffer_outcome V1 Props_Old.pol_twice ex_made0 _ H2) as O. rewrite E in O. specialize (O ltac:(discriminate)).
  destruct (mini_made_fresh _ _ _ _ _ (ex_mini_made V1)) as [W _ _ _ _ _ _].
  destruct (om_history_of_exec V1 Props_Old.pol_twice _ _ W (C70_case_valid V1)) as (os & s & E' & H).
  destruct C70_case_v1 as (s2 & E2). rewrite E' in E2. injection E2 as -> ->.
  exists (view_omevents V1 Props_Old.pol_twice mini_plays Props_Old.ex_state2), s2. split; [|exact H].
  repeat split; assumption.
Qed.
