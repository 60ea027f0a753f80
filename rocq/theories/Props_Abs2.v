(** * Props_Abs2: what one goroutine can rely on in v1 and v2 (C68), and the same
    about the Go text (C69).

    The specification is the machine of Abs2.v: a byte string, the bytes behind it,
    two offsets, and whether the buffer is dead. *)
From Coq Require Import ZArith List Bool String Lia ZifyBool.
From Verif Require Import GoSem Errors GoParse SrcV1 SrcV2 AstV1 AstV2 Conv GoEval Front Tables FrontCalls.
From Verif Require Import Spec GoLemmas V3BitLemmas V3ByteLemmas Typed Calls Abs Frame Sim History NewBuf OldCalls V2Agree V1Calls
  ConcSpec Abs2 Sim2 Hist2 FrontOldCalls.
From Verif Require V1Buffer V2Buffer V2Lemmas Props_Front Props_Old.
Import ListNotations.
Open Scope Z_scope.
Open Scope list_scope.

Import Props_Front.

(** ** C68 *)

Definition old_NewBuffer (v : version) : (Z -> Z -> Z) -> list slice -> prog unit :=
  match v with V1 => V1Buffer.NewBuffer | V2 => V2Buffer.NewBuffer end.

(** [s] is the state after [NewBuffer(slices...)] of version [v], where the slices exist. *)
Definition made (v : version) (pol : Z -> Z -> Z) (s0 : St) (slices : list slice) (s : St) : Prop :=
  wf_heap (heap s0) /\ mu s0 = false /\ zlen slices < 2 ^ 63 /\ Forall (wf_slice (heap s0)) slices /\
  run (old_NewBuffer v pol slices) s0 = Done tt s.

Lemma old_NewBuffer_is v pol slices s0 :
  mu s0 = false -> zlen slices < 2 ^ 63 ->
  run (old_NewBuffer v pol slices) s0 = run (V3Buffer.NewBuffer pol slices) s0.
Proof.
  intros. replace (old_NewBuffer v) with V2Buffer.NewBuffer by (destruct v; reflexivity). apply (V2Safe.v2_NewBuffer pol slices s0); assumption.
Qed.

Lemma made_fresh v pol s0 slices s : made v pol s0 slices s -> fresh_buffer s0 s (all_bytes (heap s0) slices) /\ mu s = false.
Proof.
  intros (H1 & M & H2 & H3 & E). rewrite old_NewBuffer_is in E by auto.
  pose proof (NewBuffer_any pol s0 slices H1 H2 H3) as N.
  destruct (_ <=? _); destruct N as (s' & E' & N); [|congruence].
  assert (s' = s) by congruence. subst s'. split; auto. rewrite (fb_mu _ _ _ N). exact M.
Qed.

(** C68: a buffer made by NewBuffer from slices holds their bytes, with offsets 0,
    and is not dead; whatever is then called, in whatever order and with whatever
    arguments, and whatever the caller does to memory in between, the caller sees
    what the machine answers, up to and including the call that never returns. *)
Theorem C68_histories_refine : forall v pol s0 slices s es,
  made v pol s0 slices s -> valid_play v pol es s ->
  exists replies s', play v pol es s = Some (replies, s') /\
    aplay v pol (view_play v pol es s) (mkA (List.concat (map (slice_bytes (heap s0)) slices)) (spare s) 0 0) false =
      Some (replies, mkA (content s') (spare s') (b_off (bb s')) (b_boff (bb s')), mu s').
Proof.
  intros v pol s0 slices s es N V. destruct (made_fresh _ _ _ _ _ N) as [[F1 F2 F3 F4 _ _ _] M].
  destruct (play_refines v pol es s F1 V) as (a & s' & E & _ & _ & R). exists a, s'. split; [exact E|].
  rewrite <- F3 at 1. rewrite <- F4. change (List.concat _) with (all_bytes (heap s0) slices). rewrite <- F2, <- M. exact R.
Qed.
Print Assumptions C68_histories_refine.

(** C68: none of this touches memory that is not behind the buffer: a byte of an
    array that existed before NewBuffer keeps its value unless the caller writes it
    themself.  NewBuffer of one slice keeps that slice; of more it copies them. *)
Theorem C68_isolation : forall v pol s0 slices s es replies s' b i,
  made v pol s0 slices s -> valid_play v pol es s -> play v pol es s = Some (replies, s') ->
  (b < List.length (heap s0))%nat -> 0 <= i ->
  (b <> s_blk (b_buf (bb s)) \/ i < s_off (b_buf (bb s)) \/ s_off (b_buf (bb s)) + s_cap (b_buf (bb s)) <= i) ->
  (forall b' i' x, In (OStore b' i' x) es -> b' <> b \/ i' <> i) ->
  mem (heap s') b i = mem (heap s0) b i.
Proof.
  intros v pol s0 slices s es replies s' b i N V E Hb Hi O C.
  destruct (made_fresh _ _ _ _ _ N) as [[F1 F2 F3 F4 [new F5] _ _] M].
  assert (Hb' : (b < List.length (heap s))%nat) by (rewrite F5, app_length; lia).
  assert (C' : old_spares b i es). { apply Forall_forall. intros [c|b' i' x|l] Hin; auto. now apply (C _ _ x). }
  destruct (play_outside v pol es s replies s' b i F1 V E Hb' Hi O C') as (_ & _ & Q & _). rewrite Q.
  unfold mem. rewrite F5, app_nth1 by exact Hb. reflexivity.
Qed.
Print Assumptions C68_isolation.

(** C68: a buffer dies only by a byte or integer write or a Grow that raises a
    runtime error. *)
Theorem C68_death : forall v pol s0 slices s es replies s1 c p r,
  made v pol s0 slices s -> valid_play v pol es s -> play v pol es s = Some (replies, s1) ->
  mu s1 = false -> valid_call2 s1 c -> old_do v pol c = Some p -> run p s1 = r ->
  (exists a s', r = Done a s' /\ mu s' = false) \/
  (exists e s', r = Panicked e s' /\ (mu s' = true -> exists m, e = RuntimeError m)
     /\ (mu s' = true -> (exists n, c = KGrow n) \/ (exists off d, c = At2 off (PWriteBytes d)) \/ (exists d, c = Next2 (PWriteBytes d))
          \/ (exists off x, c = At2 off (PWriteByte x)) \/ (exists x, c = Next2 (PWriteByte x))
          \/ (exists off t d, c = At2 off (PWrite t d)) \/ (exists t d, c = Next2 (PWrite t d)))).
Proof.
  intros v pol s0 slices s es replies s1 c p r N V E M Vc Ep Er.
  destruct (made_fresh _ _ _ _ _ N) as [[F1 _ _ _ _ _ _] _].
  destruct (play_refines v pol es s F1 V) as (a & s' & E' & W & _ & _). rewrite E in E'. injection E' as <- <-.
  destruct (old_step_agrees v pol s1 c p W Vc Ep) as ([[q a'] d'] & A1 & A2). rewrite M in A1. rewrite Er in A2.
  unfold old_step in A1. cbn [negb orb] in A1.
  destruct (old_call v pol (view_old s1 c) (abs s1)) as [[rv1 a1|e1 a1]|]; [| |discriminate]; injection A1 as <- <- <-.
  - destruct r as [w s'|e s'|s'|]; cbn [agrees] in A2; try contradiction. left. do 2 eexists. split; [reflexivity|]. destruct A2 as (_ & _ & D & _). now symmetry.
  - destruct r as [w s'|e s'|s'|]; cbn [agrees] in A2; try contradiction. right. do 2 eexists. split; [reflexivity|].
    destruct A2 as (-> & _ & D & _). cbn [orb] in D. split; intro Mt; rewrite <- D in Mt; apply andb_prop in Mt as [S R].
    + destruct e; try discriminate. eauto.
    + destruct c as [off []|[]| | | | | | | | | | | | | | | | |]; try discriminate S; eauto 10.
Qed.
Print Assumptions C68_death.

(** C68: a dead buffer stays dead and never changes again, except through the
    caller's own stores. *)
Theorem C68_dead_is_frozen : forall v pol s0 slices s es replies s1 c p,
  made v pol s0 slices s -> valid_play v pol es s -> play v pol es s = Some (replies, s1) ->
  mu s1 = true -> valid_call2 s1 c -> old_do v pol c = Some p ->
  exists s', (run p s1 = Deadlock s' \/ (exists e, run p s1 = Panicked e s') \/ (exists a, run p s1 = Done a s'))
    /\ mu s' = true /\ content s' = content s1 /\ spare s' = spare s1
    /\ b_off (bb s') = b_off (bb s1) /\ b_boff (bb s') = b_boff (bb s1).
Proof.
  intros v pol s0 slices s es replies s1 c p N V E M Vc Ep.
  destruct (made_fresh _ _ _ _ _ N) as [[F1 _ _ _ _ _ _] _].
  destruct (play_refines v pol es s F1 V) as (a & s' & E' & W & _ & _). rewrite E in E'. injection E' as <- <-.
  destruct (old_step_agrees v pol s1 c p W Vc Ep) as ([[q a'] d'] & A1 & A2). rewrite M in A1.
  assert (F : a' = abs s1 /\ d' = true).
  { clear A2. assert (I : forall off o, idle v o = true -> exists r, old_at v off o (abs s1) = Ok r (abs s1)).
    { intros off o I. destruct v, o; try discriminate I; cbn [idle old_at] in *; rewrite I; eauto. }
    unfold old_step in A1. cbn [negb orb] in A1.
    assert (NE : v = V1 -> c <> KReset) by (intros -> ->; discriminate Ep).
    destruct c as [off o|o| | | | | | | | | | | | | | | | |]; cbn [view_old query old_call] in A1; try (injection A1 as <- <- <-; auto; fail).
    - destruct (idle v (view_old_op s1 o)) eqn:EI.
      + destruct (I off _ EI) as [r Er]. rewrite Er in A1. injection A1 as <- <- <-. auto.
      + destruct (early_at _ _ _ _); injection A1 as <- <- <-; auto.
    - destruct (idle v (view_old_op s1 o)) eqn:EI; [injection A1 as <- <- <-; auto|].
      destruct (early_at _ _ _ _); injection A1 as <- <- <-; auto.
    - destruct v; [now destruct NE|]. injection A1 as <- <- <-. auto. }
  destruct F as [-> ->]. destruct (run p s1) as [w s'|e s'|s'|]; cbn [agrees] in A2; destruct q; try contradiction; exists s'.
  - destruct A2 as (_ & A & D & _). injection A as B1 B2 B3 B4. split; eauto 10.
  - destruct A2 as (_ & A & D & _). injection A as B1 B2 B3 B4. split; eauto 10.
  - destruct A2 as (A & D & _). injection A as B1 B2 B3 B4. split; eauto 10.
Qed.
Print Assumptions C68_dead_is_frozen.

(** Non-vacuity: the history of C60, on both versions: an empty integer write kills the buffer. *)
Definition plays (with_reset : bool) : list old_event :=
  [OCall (KGrow 2); OCall (Next2 (PWrite NU16BE [0x1234])); OStore 3 4 99; OCall (At2 1 (PWriteBytes (mkSlice 3 0 2 6)));
   OCall (At2 100 PReadBit); OCall (At2 0 (PSetBit 3)); OCall (At2 0 (PRead NU16BE 2)); OCall KBytes; OCall (At2 0 (PWrite NU32LE []));
   OCall (At2 9 PReadByte); OCall KCapacity; OCall (At2 0 (PReadBits 0)); OCall KAlignBit]
  ++ if with_reset then [OCall KReset] else [].
Definition ex_made0 : St := mkSt [[1; 2; 3]] (mkBuf (mkSlice 0 0 0 0) 0 0 0 0) false [].
Lemma ex_made v : made v Props_Old.pol_twice ex_made0 [mkSlice 0 0 3 3] Props_Old.ex_state2.
Proof.
  split; [|split; [|split; [|split]]].
  - repeat (constructor; [split; [repeat (constructor; [unfold is_byte; lia|]); constructor | vm_compute; discriminate]|]).
    constructor.
  - reflexivity.
  - reflexivity.
  - repeat (constructor; [unfold wf_slice; cbn; repeat split; try lia; vm_compute; discriminate|]). constructor.
  - destruct v; vm_compute; reflexivity.
Qed.
Example C68_case_v2 : exists s', play V2 Props_Old.pol_twice (plays true) Props_Old.ex_state2 =
  Some ([Replied RUnit; Replied RUnit; Replied RUnit; Threw BufferOverreadError; Threw BufferInvalidBitError;
         Replied (RNums [0x1212; 0x1200]); Replied (RBytes [0x12; 0x12; 0x12; 0; 99]);
         Threw (RuntimeError IndexOutOfRange); Threw BufferOverreadError; Replied (RInt 5); Blocked], s') /\ mu s' = true.
Proof. eexists. split; vm_compute; reflexivity. Qed.
Example C68_case_v2_valid : valid_play V2 Props_Old.pol_twice (plays true) Props_Old.ex_state2.
Proof. vm_compute. repeat split; try discriminate; repeat constructor; try discriminate. Qed.
(** In v1 the same calls, with a ReadBits of no bits that still answers; the last call, AlignBit, blocks. *)
Example C68_case_v1 : exists s', play V1 Props_Old.pol_twice (plays false) Props_Old.ex_state2 =
  Some ([Replied RUnit; Replied RUnit; Replied RUnit; Threw BufferOverreadError; Threw BufferInvalidBitError;
         Replied (RNums [0x1212; 0x1200]); Replied (RBytes [0x12; 0x12; 0x12; 0; 99]);
         Threw (RuntimeError IndexOutOfRange); Threw BufferOverreadError; Replied (RInt 5); Replied (RInt 0); Blocked], s') /\ mu s' = true.
Proof. eexists. split; vm_compute; reflexivity. Qed.

(** ** C69: what the Go text of v1 and v2 does *)

Definition old_program (v : version) : list gdecl :=
  match v with
  | V1 => match parse v1_buffer, parse v1_errors, parse v1_utils, parse v1_crunch with
          | Some a, Some b, Some c, Some d => a ++ b ++ c ++ d | _, _, _, _ => [] end
  | V2 => match parse v2_buffer, parse v2_errors, parse v2_utils with Some a, Some b, Some c => a ++ b ++ c | _, _, _ => [] end
  end.
Definition old_package (v : version) : part := match v with V1 => B1 | V2 => B2 end.
Lemma old_program_text v : old_program v = sources (old_package v).
Proof.
  destruct v; unfold old_program.
  - rewrite v1_buffer_ast_parsed, v1_errors_ast_parsed, v1_utils_ast_parsed, v1_crunch_ast_parsed. reflexivity.
  - rewrite v2_buffer_ast_parsed, v2_errors_ast_parsed, v2_utils_ast_parsed. reflexivity.
Qed.

(** The call in the text: v1 has one method for each of the integer reads and
    writes, taking the size and the byte order; v2 one for each of the formats. *)
Definition old_go_call (v : version) : call2 slice -> string * list val :=
  match v with V1 => go_call1 | V2 => go_call2 end.

(** One event of a history.  A call that never returns ends it. *)
Inductive old_text_step (v : version) (pol : Z -> Z -> Z) : old_event -> St -> list reply -> St -> Prop :=
| old_returns c s x a s' :
    runs_to (old_program v) pol (old_go_call v c) s (Done ([], Return x) s') -> answer_of x = Some a ->
    old_text_step v pol (OCall c) s [Replied (view_rv s' a)] s'
| old_panics c s er s' :
    runs_to (old_program v) pol (old_go_call v c) s (Panicked er s') -> old_text_step v pol (OCall c) s [Threw er] s'
| old_blocks c s s' :
    runs_to (old_program v) pol (old_go_call v c) s (Deadlock s') -> old_text_step v pol (OCall c) s [Blocked] s'
| old_store b i x s h :
    heap_write (heap s) b i [x] = Some h -> old_text_step v pol (OStore b i x) s [] (set_heap s h)
| old_alloc l s : old_text_step v pol (OAlloc l) s [] (alloc s l).

(** A history, what it amounts to for the machine, and what the caller sees. *)
Inductive old_text_history (v : version) (pol : Z -> Z -> Z) : list old_event -> St -> list old_aevent -> list reply -> St -> Prop :=
| old_history_nil s : old_text_history v pol [] s [] [] s
| old_history_cons e es s a s' vs os s'' :
    valid_old v s e -> old_text_step v pol e s a s' -> ~ In Blocked a -> old_text_history v pol es s' vs os s'' ->
    old_text_history v pol (e :: es) s (view_old_event s e ++ vs) (a ++ os) s''
| old_history_ends e es s s' :
    valid_old v s e -> old_text_step v pol e s [Blocked] s' ->
    old_text_history v pol (e :: es) s (view_old_event s e) [Blocked] s'.

Lemma old_text_step_unique v pol e s a s' b s'' : old_text_step v pol e s a s' -> old_text_step v pol e s b s'' -> a = b /\ s' = s''.
Proof.
  intros H1 H2.
  destruct H1 as [c s y x s' H1 A1|c s er s' H1|c s s' H1|bk i y s h E1|l s];
    inversion H2 as [c2 s2 v2 x2 s2' H3 A3|c2 s2 er2 s2' H3|c2 s2 s2' H3|bk2 i2 v2 s2 h2 E3|l2 s2]; subst;
    try (pose proof (runs_to_unique _ _ _ _ _ _ H1 H3) as U; inversion U; subst);
    split; congruence.
Qed.

Lemma old_call_outcome v pol c p s : old_do v pol c = Some p ->
  text_outcome (old_program v) pol (old_go_call v c) s (run p s).
Proof.
  intro E. rewrite old_program_text. apply means_outcome. destruct v; cbn [old_do old_package old_go_call] in *.
  - now apply do1_call_text.
  - injection E as <-. apply do2_call_text.
Qed.

Lemma old_text_step_play1 v pol e s : WF s -> valid_old v s e ->
  exists a s', old_text_step v pol e s a s' /\ play1 v pol e s = Some (a, s').
Proof.
  intros W V. destruct (play1_refines v pol e s W V) as (a & s' & E & _). exists a, s'. split; [|exact E].
  destruct e as [c|b i x|l]; cbn [play1] in E.
  - destruct (old_do v pol c) as [p|] eqn:Ep; [|discriminate]. pose proof (old_call_outcome v pol c p s Ep) as O.
    destruct (run p s) as [x s1|er s1|s1|]; cbn [text_outcome] in O; inversion E; subst.
    + destruct O as [y [O1 O2]]. eapply old_returns; eassumption.
    + apply old_panics. exact O.
    + apply old_blocks. exact O.
  - destruct (heap_write (heap s) b i [x]) as [h|] eqn:Eh; inversion E; subst. now constructor.
  - inversion E; subst. constructor.
Qed.

(** [s1] is the state after [NewBuffer(slices...)] of the text. *)
Definition old_text_new (v : version) (pol : Z -> Z -> Z) (s0 : St) (slices : list slice) (s1 : St) : Prop :=
  wf_heap (heap s0) /\ mu s0 = false /\ zlen slices < 2 ^ 63 /\ Forall (wf_slice (heap s0)) slices
  /\ runs_to (old_program v) pol ("NewBuffer"%string, [VSlices slices]) s0 (Done ([], Return VSelf) s1).

Lemma old_NewBuffer_outcome v pol s0 slices : zlen slices < 2 ^ 63 -> run (old_NewBuffer v pol slices) s0 <> Stuck ->
  runs_to (old_program v) pol ("NewBuffer"%string, [VSlices slices]) s0
    match run (old_NewBuffer v pol slices) s0 with
    | Done _ s' => Done ([], Return VSelf) s' | Panicked e s' => Panicked e s' | Deadlock s' => Deadlock s'
    | Stuck => Stuck end.
Proof.
  intros Z S. assert (I : is_i64 (zlen slices)) by (unfold is_i64, zlen in *; lia).
  assert (T : text_of (old_package v) pol "NewBuffer" [VSlices slices] self_ (old_NewBuffer v pol slices)).
  { destruct v; [exact (FrontV1.NewBuffer_text pol slices I)|exact (FrontV2.NewBuffer_text pol slices I)]. }
  destruct (conv_limit _ _ _ s0 T S) as [r [Hr HN]].
  Transparent D. unfold D in HN. Opaque D. rewrite <- old_program_text in HN.
  destruct Hr as [a b s' Hv|er s'|s']; try exact HN. rewrite Hv in HN. exact HN.
Qed.

Lemma old_text_new_made v pol s0 slices s1 : old_text_new v pol s0 slices s1 -> made v pol s0 slices s1.
Proof.
  intros (H1 & M & H2 & H3 & H4). repeat (split; [assumption|]).
  pose proof (NewBuffer_any pol s0 slices H1 H2 H3) as N. pose proof (old_NewBuffer_outcome v pol s0 slices H2) as O.
  rewrite old_NewBuffer_is in * by auto.
  destruct (_ <=? _); destruct N as (s' & E & _); rewrite E in *; specialize (O ltac:(discriminate));
    pose proof (runs_to_unique _ _ _ _ _ _ H4 O) as U; congruence.
Qed.

Lemma old_text_history_refines v pol es s vs os s' :
  WF s -> old_text_history v pol es s vs os s' ->
  WF s' /\ aplay v pol vs (abs s) (mu s) = Some (os, abs s', mu s') /\ play v pol es s = Some (os, s').
Proof.
  intros W H. revert W. induction H as [s|e es s a s1 vs os s2 V St NB Hh IH|e es s s1 V St]; intros W; [auto| |].
  - destruct (old_text_step_play1 v pol e s W V) as (b & s3 & St' & E).
    destruct (old_text_step_unique _ _ _ _ _ _ _ _ St St') as [<- <-].
    destruct (play1_refines v pol e s W V) as (b & s3 & E' & W' & _ & R & _).
    rewrite E in E'. inversion E'; subst b s3. destruct (IH W') as (W2 & R2 & P2). split; [exact W2|].
    pose proof (over_spec _ _ _ _ _ _ E) as OV.
    assert (F : existsb (fun r => match r with Blocked => true | _ => false end) a = false).
    { apply Bool.not_true_is_false. intro X. apply existsb_exists in X as (r & Hr & Er). destruct r; try discriminate. auto. }
    rewrite aplay_app, R, F, R2. cbn [play]. rewrite E, OV, F, P2. auto.
  - destruct (old_text_step_play1 v pol e s W V) as (b & s3 & St' & E).
    destruct (old_text_step_unique _ _ _ _ _ _ _ _ St St') as [<- <-].
    destruct (play1_refines v pol e s W V) as (b & s3 & E' & W' & _ & R & _).
    rewrite E in E'. inversion E'; subst b s3. split; [exact W'|]. split; [exact R|]. cbn [play]. rewrite E. reflexivity.
Qed.

(** C69: C68 of the text. *)
Theorem C69_histories v pol s0 slices s1 es vs os s :
  old_text_new v pol s0 slices s1 -> old_text_history v pol es s1 vs os s ->
  a_bytes (abs s1) = all_bytes (heap s0) slices /\ a_off (abs s1) = 0 /\ a_boff (abs s1) = 0 /\ mu s1 = false
  /\ aplay v pol vs (abs s1) false = Some (os, abs s, mu s).
Proof.
  intros N H. apply old_text_new_made, made_fresh in N. destruct N as [[W C O B _ _ _] M].
  split; [exact C|]. split; [exact O|]. split; [exact B|]. split; [exact M|].
  rewrite <- M. now apply (old_text_history_refines v pol es).
Qed.
Print Assumptions C69_histories.

(** C69: every call with arguments that exist in Go returns, panics or blocks, in
    one way only; it blocks only if the buffer is dead. *)
Theorem C69_every_call_ends_or_blocks v pol s0 slices s1 es vs os s e :
  old_text_new v pol s0 slices s1 -> old_text_history v pol es s1 vs os s -> valid_old v s e ->
  exists a s', old_text_step v pol e s a s' /\ (forall a' s'', old_text_step v pol e s a' s'' -> a' = a /\ s'' = s')
    /\ (mu s = false -> ~ In Blocked a).
Proof.
  intros N H V. apply old_text_new_made, made_fresh in N. destruct N as [[W _ _ _ _ _ _] _].
  apply old_text_history_refines in H as [W' _]; [|exact W].
  destruct (old_text_step_play1 v pol e s W' V) as (a & s' & St & E). exists a, s'. split; [exact St|]. split.
  - intros a' s'' St'. exact (old_text_step_unique _ _ _ _ _ _ _ _ St' St).
  - intros M. destruct (play1_refines v pol e s W' V) as (b & s3 & E' & _ & _ & R & _). rewrite E in E'. injection E' as <- <-.
    rewrite M in R. destruct e as [c|b i x|l]; cbn [view_old_event] in R.
    + cbn [aplay aplay1] in R. destruct (old_step v pol (view_old s c) (abs s) false) as [[[q a1] d1]|] eqn:Es; [|discriminate].
      unfold old_step in Es. cbn [negb orb] in Es.
      assert (q <> Blocked). { destruct (old_call _ _ _ _) as [[? ?|? ?]|]; inversion Es; discriminate. }
      destruct q; [| |contradiction]; cbn [over app] in R; injection R as <- _ _; intros [?|[]]; discriminate.
    + cbn [play1] in E. destruct (heap_write _ _ _ _); [|discriminate]. injection E as <- <-. auto.
    + injection E as <- <-. auto.
Qed.
Print Assumptions C69_every_call_ends_or_blocks.

(** C69: NewBuffer returns a buffer if the bytes fit in memory and panics if not. *)
Theorem C69_NewBuffer v pol s0 slices :
  wf_heap (heap s0) -> mu s0 = false -> zlen slices < 2 ^ 63 -> Forall (wf_slice (heap s0)) slices ->
  if zlen (all_bytes (heap s0) slices) <=? maxAlloc
  then exists s1, old_text_new v pol s0 slices s1
  else exists s1, runs_to (old_program v) pol ("NewBuffer"%string, [VSlices slices]) s0 (Panicked make_error s1).
Proof.
  intros H1 M H2 H3. pose proof (NewBuffer_any pol s0 slices H1 H2 H3) as N.
  pose proof (old_NewBuffer_outcome v pol s0 slices H2) as O. rewrite old_NewBuffer_is in O by auto.
  destruct (_ <=? _); destruct N as (s' & E & _); exists s'; rewrite E in O; specialize (O ltac:(discriminate)).
  - repeat split; assumption.
  - exact O.
Qed.
Print Assumptions C69_NewBuffer.

(** Every history of the model is one of the text. *)
Lemma old_text_history_of_play v pol es : forall s, WF s -> valid_play v pol es s ->
  exists os s', play v pol es s = Some (os, s') /\ old_text_history v pol es s (view_play v pol es s) os s'.
Proof.
  induction es as [|e es IH]; intros s W V; cbn [play view_play valid_play] in *.
  - do 2 eexists. split; [reflexivity|constructor].
  - destruct V as [V1 V2]. destruct (old_text_step_play1 v pol e s W V1) as (a & s1 & St & E).
    destruct (play1_refines v pol e s W V1) as (b & s3 & E' & W' & _). rewrite E in E'. inversion E'; subst b s3.
    pose proof (over_spec _ _ _ _ _ _ E) as OV. rewrite E in *. destruct (over a) eqn:Ea.
    + assert (a = [Blocked]) by (destruct a as [|[] []]; discriminate || reflexivity). subst a.
      do 2 eexists. split; [reflexivity|]. rewrite app_nil_r. now constructor.
    + destruct (IH s1 W' V2) as (os & s' & E2 & H). rewrite E2. do 2 eexists.
      split; [reflexivity|]. econstructor; eauto. intro B.
      assert (existsb (fun r => match r with Blocked => true | _ => false end) a = true)
        by (apply existsb_exists; exists Blocked; auto). congruence.
Qed.

(** Non-vacuity: the history of C68 is one of the text, and its last call blocks. *)
Example C69_case : exists vs s,
    old_text_new V2 Props_Old.pol_twice ex_made0 [mkSlice 0 0 3 3] Props_Old.ex_state2
    /\ old_text_history V2 Props_Old.pol_twice (plays true) Props_Old.ex_state2 vs
        [Replied RUnit; Replied RUnit; Replied RUnit; Threw BufferOverreadError; Threw BufferInvalidBitError;
         Replied (RNums [0x1212; 0x1200]); Replied (RBytes [0x12; 0x12; 0x12; 0; 99]);
         Threw (RuntimeError IndexOutOfRange); Threw BufferOverreadError; Replied (RInt 5); Blocked] s.
Proof.
  pose proof (ex_made V2) as EM. destruct EM as (H1 & M & H2 & H3 & E).
  pose proof (old_NewBuffer_outcome V2 Props_Old.pol_twice ex_made0 _ H2) as O. rewrite E in O. specialize (O ltac:(discriminate)).
  destruct (made_fresh _ _ _ _ _ (ex_made V2)) as [[W _ _ _ _ _ _] _].
  destruct (old_text_history_of_play V2 Props_Old.pol_twice _ _ W C68_case_v2_valid) as (os & s & E' & H).
  destruct C68_case_v2 as (s2 & E2 & _). rewrite E' in E2. injection E2 as -> ->.
  exists (view_play V2 Props_Old.pol_twice (plays true) Props_Old.ex_state2), s2. split; [|exact H].
  repeat split; assumption.
Qed.
