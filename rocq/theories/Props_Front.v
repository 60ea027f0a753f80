(** * Props_Front: the models and the Go text (C64, C65).

    SrcV1.v - SrcV3.v hold the text of the Go files, GoParse.v parses it and
    GoEval.v interprets what was parsed.  [den ds pol n (QCall f args)] is the
    call [f(args)] in the program with the declarations [ds]; [n] bounds the
    nesting of calls and loop rounds, and the statements are about every [n] that
    is large enough. *)
From Coq Require Import ZArith List Bool String Lia.
From Verif Require Import GoSem Errors GoParse SrcV1 SrcV2 SrcV3 AstV1 AstV2 AstV3 Conv GoEval Front Tables TableProofs Enough.
From Verif Require Import Spec GoLemmas V3BitLemmas V3ByteLemmas Typed Calls FrontCalls Abs Sim History NewBuf Witness
  MiniAbs MiniSim MiniHistory FrontMiniCalls.
From Verif Require V3Buffer V3Mini Props_State Props_Mini.
Import ListNotations.
Open Scope Z_scope.

(** ** C64: the models are what the Go text means *)

(** The functions and methods a file declares, in order. *)
Definition functions (ds : list gdecl) : list string :=
  flat_map (fun d => match d with DFunc f => [f_name f] | _ => [] end) ds.

(** The call does the accesses of the model, in the same order and with the same
    values, whatever the memory answers, and ends in the same way. *)
Definition same_accesses (ds : list gdecl) (pol : Z -> Z -> Z) (e : entry) : Prop :=
  forall x, e_ok e x ->
  conv (fun v r => r = ([], Return (e_res e v))) (e_model e x)
       (fun n => den ds pol n (QCall (e_name e) (e_args e x))).

(** In every state that the model can handle, the call has the outcome of the
    model: its result, panic value, and final memory. *)
Definition same_runs (ds : list gdecl) (pol : Z -> Z -> Z) (e : entry) : Prop :=
  forall x s, e_ok e x -> run (e_model e x) s <> Stuck ->
  exists N, forall n, (N <= n)%nat ->
  run (den ds pol n (QCall (e_name e) (e_args e x))) s =
  match run (e_model e x) s with
  | Done v s' => Done ([], Return (e_res e v)) s'
  | Panicked er s' => Panicked er s'
  | Deadlock s' => Deadlock s'
  | Stuck => Stuck
  end.

Lemma same_of p pol l : Forall (correct p pol) l ->
  Forall (same_accesses (sources p) pol) l /\ Forall (same_runs (sources p) pol) l.
Proof.
  intros H. split.
  - refine (Forall_impl _ _ H). intros e C x Hx. exact (C x Hx).
  - refine (Forall_impl _ _ H). intros e C x s Hx HS.
    destruct (conv_run _ _ _ s (C x Hx) HS) as [N HN]. exists N. intros n Hn.
    specialize (HN n Hn). Transparent D. unfold D in HN. Opaque D. inversion HN as [a b s' Hr E1 E2|er s' E1 E2|s' E1 E2].
    + now rewrite Hr.
    + reflexivity.
    + reflexivity.
Qed.

Fixpoint distinct (l : list string) : bool :=
  match l with [] => true | x :: r => negb (existsb (String.eqb x) r) && distinct r end.
Lemma distinct_NoDup l : distinct l = true -> NoDup l.
Proof.
  induction l as [|x r IH]; cbn; intros H; [constructor|].
  apply andb_prop in H as [H1 H2]. constructor; [|auto]. intros I.
  rewrite (proj2 (existsb_exists (String.eqb x) r)) in H1; [discriminate|].
  exists x. split; [exact I|apply String.eqb_refl].
Qed.
Ltac no_dup := apply distinct_NoDup; vm_compute; reflexivity.

(** C64: every function of the v3 [Buffer] file. *)
Theorem C64_v3_Buffer pol :
  exists ds es, parse v3_buffer = Some ds /\ parse v3_errors = Some es
  /\ functions ds = map e_name (v3_buffer_table pol) /\ NoDup (functions (ds ++ es))
  /\ Forall (same_accesses (ds ++ es) pol) (v3_buffer_table pol)
  /\ Forall (same_runs (ds ++ es) pol) (v3_buffer_table pol).
Proof.
  exists buffer_ast, errors_ast. split; [exact buffer_ast_parsed|]. split; [exact errors_ast_parsed|].
  split; [reflexivity|]. split; [no_dup|]. exact (same_of B3 pol _ (v3_buffer_correct pol)).
Qed.
Print Assumptions C64_v3_Buffer.

(** C64: every function of the v3 [MiniBuffer] file. *)
Theorem C64_v3_MiniBuffer pol :
  exists ds es, parse v3_minibuf = Some ds /\ parse v3_errors = Some es
  /\ functions ds = map e_name (v3_minibuf_table pol) /\ NoDup (functions (ds ++ es))
  /\ Forall (same_accesses (ds ++ es) pol) (v3_minibuf_table pol)
  /\ Forall (same_runs (ds ++ es) pol) (v3_minibuf_table pol).
Proof.
  exists minibuf_ast, errors_ast. split; [exact minibuf_ast_parsed|]. split; [exact errors_ast_parsed|].
  split; [reflexivity|]. split; [no_dup|]. exact (same_of M3 pol _ (v3_minibuf_correct pol)).
Qed.
Print Assumptions C64_v3_MiniBuffer.

(** C64: every function of the v2 [Buffer] file. *)
Theorem C64_v2_Buffer pol :
  exists ds es us, parse v2_buffer = Some ds /\ parse v2_errors = Some es /\ parse v2_utils = Some us
  /\ functions ds = map e_name (v2_buffer_table pol) /\ NoDup (functions (ds ++ es ++ us))
  /\ Forall (same_accesses (ds ++ es ++ us) pol) (v2_buffer_table pol)
  /\ Forall (same_runs (ds ++ es ++ us) pol) (v2_buffer_table pol).
Proof.
  exists v2_buffer_ast, v2_errors_ast, v2_utils_ast. split; [exact v2_buffer_ast_parsed|].
  split; [exact v2_errors_ast_parsed|]. split; [exact v2_utils_ast_parsed|].
  split; [reflexivity|]. split; [no_dup|]. exact (same_of B2 pol _ (v2_buffer_correct pol)).
Qed.
Print Assumptions C64_v2_Buffer.

(** C64: every function of the v2 [MiniBuffer] file. *)
Theorem C64_v2_MiniBuffer pol :
  exists ds es us, parse v2_minibuf = Some ds /\ parse v2_errors = Some es /\ parse v2_utils = Some us
  /\ functions ds = map e_name (v2_minibuf_table pol) /\ NoDup (functions (ds ++ es ++ us))
  /\ Forall (same_accesses (ds ++ es ++ us) pol) (v2_minibuf_table pol)
  /\ Forall (same_runs (ds ++ es ++ us) pol) (v2_minibuf_table pol).
Proof.
  exists v2_minibuf_ast, v2_errors_ast, v2_utils_ast. split; [exact v2_minibuf_ast_parsed|].
  split; [exact v2_errors_ast_parsed|]. split; [exact v2_utils_ast_parsed|].
  split; [reflexivity|]. split; [no_dup|]. exact (same_of M2 pol _ (v2_minibuf_correct pol)).
Qed.
Print Assumptions C64_v2_MiniBuffer.

(** C64: every function of the v1 [Buffer] file. *)
Theorem C64_v1_Buffer pol :
  exists ds es us cs, parse v1_buffer = Some ds /\ parse v1_errors = Some es /\ parse v1_utils = Some us
  /\ parse v1_crunch = Some cs
  /\ functions ds = map e_name (v1_buffer_table pol) /\ NoDup (functions (ds ++ es ++ us ++ cs))
  /\ Forall (same_accesses (ds ++ es ++ us ++ cs) pol) (v1_buffer_table pol)
  /\ Forall (same_runs (ds ++ es ++ us ++ cs) pol) (v1_buffer_table pol).
Proof.
  exists v1_buffer_ast, v1_errors_ast, v1_utils_ast, v1_crunch_ast. split; [exact v1_buffer_ast_parsed|].
  split; [exact v1_errors_ast_parsed|]. split; [exact v1_utils_ast_parsed|]. split; [exact v1_crunch_ast_parsed|].
  split; [reflexivity|]. split; [no_dup|]. exact (same_of B1 pol _ (v1_buffer_correct pol)).
Qed.
Print Assumptions C64_v1_Buffer.

(** C64: every function of the v1 [MiniBuffer] file. *)
Theorem C64_v1_MiniBuffer pol :
  exists ds es us cs, parse v1_minibuf = Some ds /\ parse v1_errors = Some es /\ parse v1_utils = Some us
  /\ parse v1_crunch = Some cs
  /\ functions ds = map e_name (v1_minibuf_table pol) /\ NoDup (functions (ds ++ es ++ us ++ cs))
  /\ Forall (same_accesses (ds ++ es ++ us ++ cs) pol) (v1_minibuf_table pol)
  /\ Forall (same_runs (ds ++ es ++ us ++ cs) pol) (v1_minibuf_table pol).
Proof.
  exists v1_minibuf_ast, v1_errors_ast, v1_utils_ast, v1_crunch_ast. split; [exact v1_minibuf_ast_parsed|].
  split; [exact v1_errors_ast_parsed|]. split; [exact v1_utils_ast_parsed|]. split; [exact v1_crunch_ast_parsed|].
  split; [reflexivity|]. split; [no_dup|]. exact (same_of M1 pol _ (v1_minibuf_correct pol)).
Qed.
Print Assumptions C64_v1_MiniBuffer.

(** C64: the byte orders the package exports are those of [encoding/binary]. *)
Theorem C64_v1_byte_orders :
  exists cs, parse v1_crunch = Some cs
  /\ find_global "LittleEndian" cs = Some (VEndian Spec.LE) /\ find_global "BigEndian" cs = Some (VEndian Spec.BE).
Proof. exists v1_crunch_ast. split; [exact v1_crunch_ast_parsed|]. split; reflexivity. Qed.
Print Assumptions C64_v1_byte_orders.

(** Non-vacuity: the text itself, run on a buffer of four bytes. *)
Example C64_case :
  In "WriteU16BE"%string (map e_name (v3_buffer_table Props_State.pol0))
  /\ exists s', run (den (buffer_ast ++ errors_ast) Props_State.pol0 20
            (QCall "WriteU16BE" [VInt I64 1; VInts U16 [513]])) ex = Done ([], Return VUnit) s'
     /\ content s' = [165; 2; 1; 8].
Proof. split; [cbn; tauto|]. vm_all. Qed.
Example C64_v1_case :
  exists s', run (den (sources B1) Props_State.pol0 30
            (QCall "WriteComplex" [VInt I64 1; VAny (VInts U16 [513]); VInt IInt 2; VEndian Spec.BE])) ex
          = Done ([], Return VUnit) s'
     /\ content s' = [165; 2; 1; 8].
Proof. vm_all. Qed.

(** The models bound their own loops.  For arguments that exist in Go - integers
    of 64 bits, slices with a length and capacity of 63 bits - no model reaches its
    bound, whatever the memory answers, as long as the slice header in the buffer
    exists in Go too.  So the statements above are never empty for such calls. *)
Theorem C64_bounds_never_reached pol :
  Forall complete (v3_buffer_table pol ++ v3_minibuf_table pol ++ v2_buffer_table pol ++ v2_minibuf_table pol
                   ++ v1_buffer_table pol ++ v1_minibuf_table pol).
Proof.
  repeat (apply Forall_app; split).
  - apply v3_buffer_complete.
  - apply v3_minibuf_complete.
  - apply v2_buffer_complete.
  - apply v2_minibuf_complete.
  - apply v1_buffer_complete.
  - apply v1_minibuf_complete.
Qed.
Print Assumptions C64_bounds_never_reached.
Example C64_bounds_case :
  Forall exists_in_go [VInt I64 (2 ^ 63 - 1); VAny (VInts U16 [513]); VBytes (mkSlice 0 0 4 8)]
  /\ short (b_buf (bb ex)).
Proof. repeat constructor; vm_compute; congruence. Qed.

(** ** C65: what the Go text of v3 does, told without the models *)

(** The program: the text of the package that concerns [Buffer]. *)
Definition v3_program : list gdecl :=
  match parse v3_buffer, parse v3_errors with Some ds, Some es => ds ++ es | _, _ => [] end.

(** The call [q] in the state [s] ends as [r]. *)
Definition runs_to (ds : list gdecl) (pol : Z -> Z -> Z) (q : string * list val) (s : St) (r : res (env * signal)) : Prop :=
  exists N, forall n, (N <= n)%nat -> run (den ds pol n (QCall (fst q) (snd q))) s = r.

(** One event of a history: a call of the API, or something the caller does to
    memory on its own. *)
Inductive text_step (pol : Z -> Z -> Z) : event -> St -> list answer -> St -> Prop :=
| step_returns c s v a s' :
    runs_to v3_program pol (go_call c) s (Done ([], Return v) s') -> answer_of v = Some a ->
    text_step pol (ECall c) s [Returned (view_rv s' a)] s'
| step_panics c s er s' :
    runs_to v3_program pol (go_call c) s (Panicked er s') -> text_step pol (ECall c) s [Raised er] s'
| step_store b i v s h :
    heap_write (heap s) b i [v] = Some h -> text_step pol (EStore b i v) s [] (set_heap s h)
| step_alloc l s : text_step pol (EAlloc l) s [] (alloc s l).

(** A history, with what it means for the abstract buffer and what the caller
    sees.  The caller passes only values that exist in Go. *)
Inductive text_history (pol : Z -> Z -> Z) : list event -> St -> list aevent -> list answer -> St -> Prop :=
| history_nil s : text_history pol [] s [] [] s
| history_cons e es s a s' vs os s'' :
    valid_event s e -> text_step pol e s a s' -> text_history pol es s' vs os s'' ->
    text_history pol (e :: es) s (view_event s e ++ vs) (a ++ os) s''.

Lemma v3_program_text : v3_program = sources B3.
Proof. unfold v3_program. rewrite buffer_ast_parsed, errors_ast_parsed. reflexivity. Qed.

Lemma runs_to_unique ds pol q s r r' : runs_to ds pol q s r -> runs_to ds pol q s r' -> r = r'.
Proof.
  intros [N H] [N' H']. rewrite <- (H (N + N')%nat) by lia. apply H'. lia.
Qed.

(** The text runs a call as the model does. *)
Definition text_outcome (ds : list gdecl) (pol : Z -> Z -> Z) (q : string * list val) (s : St) (r : res (rv slice)) : Prop :=
  match r with
  | Done a s' => exists v, runs_to ds pol q s (Done ([], Return v) s') /\ answer_of v = Some a
  | Panicked e s' => runs_to ds pol q s (Panicked e s')
  | Deadlock s' => runs_to ds pol q s (Deadlock s')
  | Stuck => True
  end.
Lemma means_outcome p pol q T s : means p pol q T -> text_outcome (sources p) pol q s (run T s).
Proof.
  intros H.
  assert (S : run T s = Stuck \/ run T s <> Stuck) by (destruct (run T s); (left; reflexivity) || (right; discriminate)).
  destruct S as [S|S]; [now rewrite S|].
  destruct (conv_limit _ _ _ s H S) as [r [Hr HN]].
  Transparent D. unfold D in HN. Opaque D.
  destruct Hr as [a b s' [v [-> Hv]]|er s'|s']; cbn [text_outcome]; try exact HN.
  exists v. split; [exact HN|exact Hv].
Qed.
Lemma do_call_outcome pol c s : text_outcome v3_program pol (go_call c) s (run (do_call c) s).
Proof. rewrite v3_program_text. apply means_outcome, do_call_text. Qed.

Lemma text_step_unique pol e s a s' b s'' : text_step pol e s a s' -> text_step pol e s b s'' -> a = b /\ s' = s''.
Proof.
  intros H1 H2.
  destruct H1 as [c s v x s' H1 A1|c s er s' H1|bk i v s h E1|l s];
    inversion H2 as [c2 s2 v2 x2 s2' H3 A3|c2 s2 er2 s2' H3|bk2 i2 v2 s2 h2 E3|l2 s2]; subst;
    try (pose proof (runs_to_unique _ _ _ _ _ _ H1 H3) as U; inversion U; subst);
    split; congruence.
Qed.

(** One event of the text is one event of the model. *)
Lemma text_step_exec1 pol e s : WF s -> valid_event s e ->
  exists a s', text_step pol e s a s' /\ exec1 e s = Some (a, s').
Proof.
  intros W V. destruct (exec1_refines e s W V) as (a & s' & E & _). exists a, s'. split; [|exact E].
  destruct e as [c|b i v|l]; cbn [exec1] in E.
  - pose proof (do_call_outcome pol c s) as O.
    destruct (run (do_call c) s) as [x s1|er s1|s1|]; cbn [text_outcome] in O; inversion E; subst.
    + destruct O as [v [O1 O2]]. eapply step_returns; eassumption.
    + apply step_panics. exact O.
  - destruct (heap_write (heap s) b i [v]) as [h|] eqn:Eh; inversion E; subst. now constructor.
  - inversion E; subst. constructor.
Qed.

(** [s1] is the state after [NewBuffer(slices...)], run by the text in a state in
    which the slices exist. *)
Definition text_new (pol : Z -> Z -> Z) (s0 : St) (slices : list slice) (s1 : St) : Prop :=
  wf_heap (heap s0) /\ zlen slices < 2 ^ 63 /\ Forall (wf_slice (heap s0)) slices
  /\ runs_to v3_program pol ("NewBuffer"%string, [VSlices slices]) s0 (Done ([], Return VSelf) s1).

Lemma NewBuffer_outcome pol s0 slices : zlen slices < 2 ^ 63 -> run (V3Buffer.NewBuffer pol slices) s0 <> Stuck ->
  runs_to v3_program pol ("NewBuffer"%string, [VSlices slices]) s0
    match run (V3Buffer.NewBuffer pol slices) s0 with
    | Done _ s' => Done ([], Return VSelf) s' | Panicked e s' => Panicked e s' | Deadlock s' => Deadlock s'
    | Stuck => Stuck end.
Proof.
  intros Z S. assert (I : is_i64 (zlen slices)) by (unfold is_i64, zlen in *; lia).
  destruct (conv_limit _ _ _ s0 (FrontV3.NewBuffer_text pol slices I) S) as [r [Hr HN]].
  Transparent D. unfold D in HN. Opaque D. rewrite <- v3_program_text in HN.
  destruct Hr as [a b s' Hv|er s'|s']; try exact HN. rewrite Hv in HN. exact HN.
Qed.

Lemma text_new_model pol s0 slices s1 : text_new pol s0 slices s1 -> Props_State.new_buffer pol s0 slices s1.
Proof.
  intros (H1 & H2 & H3 & H4). split; [exact H1|]. split; [exact H2|]. split; [exact H3|].
  pose proof (NewBuffer_any pol s0 slices H1 H2 H3) as N.
  destruct (_ <=? _); destruct N as (s' & E & _).
  - pose proof (NewBuffer_outcome pol s0 slices H2) as O. rewrite E in O.
    pose proof (runs_to_unique _ _ _ _ _ _ H4 (O ltac:(discriminate))) as U. congruence.
  - pose proof (NewBuffer_outcome pol s0 slices H2) as O. rewrite E in O.
    pose proof (runs_to_unique _ _ _ _ _ _ H4 (O ltac:(discriminate))) as U. discriminate.
Qed.

Lemma text_history_refines pol es s vs os s' :
  WF s -> text_history pol es s vs os s' -> WF s' /\ abs_exec vs (abs s) = (os, abs s').
Proof.
  intros W H. revert W. induction H as [s|e es s a s1 vs os s2 V St Hh IH]; intros W; [auto|].
  destruct (text_step_exec1 pol e s W V) as (b & s3 & St' & E).
  destruct (text_step_unique _ _ _ _ _ _ _ St St') as [<- <-].
  destruct (exec1_refines e s W V) as (b & s3 & E' & W' & _ & _ & R).
  rewrite E in E'. inversion E'; subst b s3. destruct (IH W') as [W2 R2]. split; [exact W2|].
  rewrite abs_exec_app, R, R2. reflexivity.
Qed.

(** C65: NewBuffer gives a buffer with the bytes of the slices and offsets 0, and
    whatever is then called, in whatever order, with whatever arguments, and
    whatever the caller does to memory in between, the caller sees what the
    abstract buffer of Abs.v would answer, and the buffer ends with the bytes,
    spare bytes and offsets of the abstract buffer. *)
Theorem C65_histories pol s0 slices s1 es vs os s :
  text_new pol s0 slices s1 -> text_history pol es s1 vs os s ->
  a_bytes (abs s1) = all_bytes (heap s0) slices /\ a_off (abs s1) = 0 /\ a_boff (abs s1) = 0
  /\ abs_exec vs (abs s1) = (os, abs s).
Proof.
  intros N H. apply text_new_model, Props_State.new_buffer_fresh in N. destruct N as [W C O B _ _ _].
  split; [exact C|]. split; [exact O|]. split; [exact B|]. now apply (text_history_refines pol es).
Qed.
Print Assumptions C65_histories.

(** C65: the text never faults and never blocks: every call with arguments that
    exist in Go returns or panics, in one way only. *)
Theorem C65_every_call_ends pol s0 slices s1 es vs os s e :
  text_new pol s0 slices s1 -> text_history pol es s1 vs os s -> valid_event s e ->
  exists a s', text_step pol e s a s' /\ forall a' s'', text_step pol e s a' s'' -> a' = a /\ s'' = s'.
Proof.
  intros N H V. apply text_new_model, Props_State.new_buffer_fresh in N. destruct N as [W _ _ _ _ _ _].
  apply text_history_refines in H as [W' _]; [|exact W].
  destruct (text_step_exec1 pol e s W' V) as (a & s' & St & _). exists a, s'. split; [exact St|].
  intros a' s'' St'. exact (text_step_unique _ _ _ _ _ _ _ St' St).
Qed.
Print Assumptions C65_every_call_ends.

(** C65: NewBuffer returns a buffer if the bytes fit in memory and panics if not. *)
Theorem C65_NewBuffer pol s0 slices :
  wf_heap (heap s0) -> zlen slices < 2 ^ 63 -> Forall (wf_slice (heap s0)) slices ->
  if zlen (all_bytes (heap s0) slices) <=? maxAlloc
  then exists s1, text_new pol s0 slices s1
  else exists s1, runs_to v3_program pol ("NewBuffer"%string, [VSlices slices]) s0 (Panicked make_error s1).
Proof.
  intros H1 H2 H3. pose proof (NewBuffer_any pol s0 slices H1 H2 H3) as N.
  pose proof (NewBuffer_outcome pol s0 slices H2) as O.
  destruct (_ <=? _); destruct N as (s' & E & _); exists s'; rewrite E in O; specialize (O ltac:(discriminate)).
  - repeat split; assumption.
  - exact O.
Qed.
Print Assumptions C65_NewBuffer.

(** Every history of the model is one of the text. *)
Lemma text_history_of_exec pol es : forall s, WF s -> valid_events es s ->
  exists os s', exec es s = Some (os, s') /\ text_history pol es s (view_events es s) os s'.
Proof.
  induction es as [|e es IH]; intros s W V; cbn [exec view_events valid_events] in *.
  - do 2 eexists. split; [reflexivity|constructor].
  - destruct V as [V1 V2]. destruct (text_step_exec1 pol e s W V1) as (a & s1 & St & E).
    destruct (exec1_refines e s W V1) as (b & s3 & E' & W' & _). rewrite E in E'. inversion E'; subst b s3.
    rewrite E in *. destruct (IH s1 W' V2) as (os & s' & E2 & H). rewrite E2. do 2 eexists.
    split; [reflexivity|]. econstructor; eassumption.
Qed.

(** Non-vacuity: a buffer of five bytes made by the text, then a history of calls
    and stores, with what the caller sees. *)
Example C65_case :
  exists s1 vs s,
    text_new Props_State.pol0 Props_State.ex0 [mkSlice 0 0 3 3; mkSlice 1 0 2 2] s1
    /\ text_history Props_State.pol0 Props_State.ex_history s1 vs
         [Returned RUnit; Returned RUnit; Raised BufferOverreadError; Returned RUnit; Returned RUnit;
          Returned (RInt 10); Raised slice_error; Raised slice_error; Returned RUnit; Returned RUnit] s
    /\ content s = [52; 4].
Proof.
  destruct Props_State.ex_new_new as (H1 & H2 & H3 & E).
  pose proof (NewBuffer_outcome Props_State.pol0 Props_State.ex0 _ H2) as O. rewrite E in O.
  specialize (O ltac:(discriminate)).
  assert (W : WF Props_State.ex_new) by exact (fb_wf _ _ _ (Props_State.new_buffer_fresh _ _ _ _ Props_State.ex_new_new)).
  destruct (text_history_of_exec Props_State.pol0 _ _ W Props_State.C21_case_valid) as (os & s & E' & H).
  destruct Props_State.C21_case as (a & s' & E2 & C & A). rewrite E' in E2. inversion E2; subst os s'. rewrite A in H.
  exists Props_State.ex_new, (view_events Props_State.ex_history Props_State.ex_new), s.
  split; [repeat split; assumption|]. split; [exact H|exact C].
Qed.

(** ** C66: what the Go text of the v3 [MiniBuffer] does *)

Definition v3_mini_program : list gdecl :=
  match parse v3_minibuf, parse v3_errors with Some ds, Some es => ds ++ es | _, _ => [] end.
Lemma v3_mini_program_text : v3_mini_program = sources M3.
Proof. unfold v3_mini_program. rewrite minibuf_ast_parsed, errors_ast_parsed. reflexivity. Qed.

(** One event.  A call starts with the value [out] in the variable behind its
    [out] pointer; the caller sees the answer and the variable. *)
Inductive mini_step (pol : Z -> Z -> Z) : mevent -> St -> list manswer -> St -> Prop :=
| mstep_returns c out s v a s' :
    runs_to v3_mini_program pol (mini_go_call c) (set_outs s out) (Done ([], Return v) s') -> answer_of v = Some a ->
    mini_step pol (MCall c out) s [MReturned (view_rv s' (mini_answer c a (outs s'))) (outs s')] s'
| mstep_panics c out s er s' :
    runs_to v3_mini_program pol (mini_go_call c) (set_outs s out) (Panicked er s') ->
    mini_step pol (MCall c out) s [MRaised er (outs s')] s'
| mstep_store b i v s h :
    heap_write (heap s) b i [v] = Some h -> mini_step pol (MStore b i v) s [] (set_heap s h)
| mstep_alloc l s : mini_step pol (MAlloc l) s [] (alloc s l).

Inductive mini_history (pol : Z -> Z -> Z) : list mevent -> St -> list amevent -> list manswer -> St -> Prop :=
| mhistory_nil s : mini_history pol [] s [] [] s
| mhistory_cons e es s a s' vs os s'' :
    valid_mevent s e -> mini_step pol e s a s' -> mini_history pol es s' vs os s'' ->
    mini_history pol (e :: es) s (view_mevent s e ++ vs) (a ++ os) s''.

Lemma mini_step_unique pol e s a s' b s'' : mini_step pol e s a s' -> mini_step pol e s b s'' -> a = b /\ s' = s''.
Proof.
  intros H1 H2.
  destruct H1 as [c out s v x s' H1 A1|c out s er s' H1|bk i v s h E1|l s];
    inversion H2 as [c2 out2 s2 v2 x2 s2' H3 A3|c2 out2 s2 er2 s2' H3|bk2 i2 v2 s2 h2 E3|l2 s2]; subst;
    try (pose proof (runs_to_unique _ _ _ _ _ _ H1 H3) as U; inversion U; subst);
    split; congruence.
Qed.

Lemma mini_step_mexec1 pol e s : WF s -> valid_mevent s e ->
  exists a s', mini_step pol e s a s' /\ mexec1 e s = Some (a, s').
Proof.
  intros W V. destruct (mexec1_refines e s W V) as (a & s' & E & _). exists a, s'. split; [|exact E].
  destruct e as [c out|b i v|l]; cbn [mexec1] in E.
  - pose proof (means_outcome M3 pol _ _ (set_outs s out) (mini_call_text pol c (proj1 V))) as O.
    rewrite <- v3_mini_program_text in O. rewrite mini_call_raw in E.
    destruct (run (mini_raw c) (set_outs s out)) as [x s1|er s1|s1|]; cbn [text_outcome] in O; inversion E; subst.
    + destruct O as [v [O1 O2]]. eapply mstep_returns; eassumption.
    + apply mstep_panics. exact O.
  - destruct (heap_write (heap s) b i [v]) as [h|] eqn:Eh; inversion E; subst. now constructor.
  - inversion E; subst. constructor.
Qed.

Definition mini_new (pol : Z -> Z -> Z) (s0 : St) (slices : list slice) (s1 : St) : Prop :=
  wf_heap (heap s0) /\ zlen slices < 2 ^ 63 /\ Forall (wf_slice (heap s0)) slices
  /\ runs_to v3_mini_program pol ("NewMiniBuffer"%string, [VCell; VSlices slices]) s0 (Done ([], Return VSelf) s1).

Lemma NewMiniBuffer_outcome pol s0 slices : zlen slices < 2 ^ 63 -> run (V3Mini.NewMiniBuffer pol slices) s0 <> Stuck ->
  runs_to v3_mini_program pol ("NewMiniBuffer"%string, [VCell; VSlices slices]) s0
    match run (V3Mini.NewMiniBuffer pol slices) s0 with
    | Done _ s' => Done ([], Return VSelf) s' | Panicked e s' => Panicked e s' | Deadlock s' => Deadlock s'
    | Stuck => Stuck end.
Proof.
  intros Z S. assert (I : is_i64 (zlen slices)) by (unfold is_i64, zlen in *; lia).
  destruct (conv_limit _ _ _ s0 (FrontM3.NewMiniBuffer_text pol slices I) S) as [r [Hr HN]].
  Transparent D. unfold D in HN. Opaque D. rewrite <- v3_mini_program_text in HN.
  destruct Hr as [a b s' Hv|er s'|s']; try exact HN. rewrite Hv in HN. exact HN.
Qed.

Lemma mini_new_fresh pol s0 slices s1 : mini_new pol s0 slices s1 -> fresh_buffer s0 s1 (all_bytes (heap s0) slices).
Proof.
  intros (H1 & H2 & H3 & H4).
  pose proof (NewBuffer_any pol s0 slices H1 H2 H3) as N. rewrite <- Props_Mini.C35_same_constructor in N.
  pose proof (NewMiniBuffer_outcome pol s0 slices H2) as O.
  destruct (_ <=? _); destruct N as (s' & E & F); rewrite E in O;
    pose proof (runs_to_unique _ _ _ _ _ _ H4 (O ltac:(discriminate))) as U; inversion U; subst. exact F.
Qed.

Lemma mini_history_refines pol es s vs os s' :
  WF s -> mini_history pol es s vs os s' -> WF s' /\ abs_mexec vs (abs s) = (os, abs s').
Proof.
  intros W H. revert W. induction H as [s|e es s a s1 vs os s2 V St Hh IH]; intros W; [auto|].
  destruct (mini_step_mexec1 pol e s W V) as (b & s3 & St' & E).
  destruct (mini_step_unique _ _ _ _ _ _ _ St St') as [<- <-].
  destruct (mexec1_refines e s W V) as (b & s3 & E' & W' & _ & R).
  rewrite E in E'. inversion E'; subst b s3. destruct (IH W') as [W2 R2]. split; [exact W2|].
  rewrite abs_mexec_app, R, R2. reflexivity.
Qed.

(** C66: the same for the MiniBuffer and the abstract MiniBuffer of MiniAbs.v,
    including what is left in the variable behind [out] after a panic. *)
Theorem C66_histories pol s0 slices s1 es vs os s :
  mini_new pol s0 slices s1 -> mini_history pol es s1 vs os s ->
  a_bytes (abs s1) = all_bytes (heap s0) slices /\ a_off (abs s1) = 0 /\ a_boff (abs s1) = 0
  /\ abs_mexec vs (abs s1) = (os, abs s).
Proof.
  intros N H. apply mini_new_fresh in N. destruct N as [W C O B _ _ _].
  split; [exact C|]. split; [exact O|]. split; [exact B|]. now apply (mini_history_refines pol es).
Qed.
Print Assumptions C66_histories.

Theorem C66_every_call_ends pol s0 slices s1 es vs os s e :
  mini_new pol s0 slices s1 -> mini_history pol es s1 vs os s -> valid_mevent s e ->
  exists a s', mini_step pol e s a s' /\ forall a' s'', mini_step pol e s a' s'' -> a' = a /\ s'' = s'.
Proof.
  intros N H V. apply mini_new_fresh in N. destruct N as [W _ _ _ _ _ _].
  apply mini_history_refines in H as [W' _]; [|exact W].
  destruct (mini_step_mexec1 pol e s W' V) as (a & s' & St & _). exists a, s'. split; [exact St|].
  intros a' s'' St'. exact (mini_step_unique _ _ _ _ _ _ _ St' St).
Qed.
Print Assumptions C66_every_call_ends.

Theorem C66_NewMiniBuffer pol s0 slices :
  wf_heap (heap s0) -> zlen slices < 2 ^ 63 -> Forall (wf_slice (heap s0)) slices ->
  if zlen (all_bytes (heap s0) slices) <=? maxAlloc
  then exists s1, mini_new pol s0 slices s1
  else exists s1, runs_to v3_mini_program pol ("NewMiniBuffer"%string, [VCell; VSlices slices]) s0 (Panicked make_error s1).
Proof.
  intros H1 H2 H3. pose proof (NewBuffer_any pol s0 slices H1 H2 H3) as N. rewrite <- Props_Mini.C35_same_constructor in N.
  pose proof (NewMiniBuffer_outcome pol s0 slices H2) as O.
  destruct (_ <=? _); destruct N as (s' & E & _); exists s'; rewrite E in O; specialize (O ltac:(discriminate)).
  - repeat split; assumption.
  - exact O.
Qed.
Print Assumptions C66_NewMiniBuffer.

Lemma mini_history_of_exec pol es : forall s, WF s -> valid_mevents es s ->
  exists os s', mexec es s = Some (os, s') /\ mini_history pol es s (view_mevents es s) os s'.
Proof.
  induction es as [|e es IH]; intros s W V; cbn [mexec view_mevents valid_mevents] in *.
  - do 2 eexists. split; [reflexivity|constructor].
  - destruct V as [V1 V2]. destruct (mini_step_mexec1 pol e s W V1) as (a & s1 & St & E).
    destruct (mexec1_refines e s W V1) as (b & s3 & E' & W' & _). rewrite E in E'. inversion E'; subst b s3.
    rewrite E in *. destruct (IH s1 W' V2) as (os & s' & E2 & H). rewrite E2. do 2 eexists.
    split; [reflexivity|]. econstructor; eassumption.
Qed.

(** Non-vacuity. *)
Example C66_case :
  (exists s1, mini_new Props_State.pol0 Props_State.ex0 [mkSlice 0 0 3 3; mkSlice 1 0 2 2] s1)
  /\ exists vs s, mini_history Props_State.pol0 Props_Mini.ex_mhistory ex vs
        [MReturned RUnit []; MReturned (RInt 18) [18]; MRaised index_error []; MReturned RUnit [];
         MRaised index_error []; MRaised slice_error []; MReturned (RNums [8755; 7]) [8755; 7]; MReturned RUnit [];
         MRaised index_error []; MRaised make_error []; MReturned (RBytes [0; 0; 250]) []] s.
Proof.
  split.
  - destruct Props_State.ex_new_new as (H1 & H2 & H3 & _).
    exact (C66_NewMiniBuffer Props_State.pol0 _ _ H1 H2 H3).
  - destruct (mini_history_of_exec Props_State.pol0 _ _ ex_WF Props_Mini.C36_case_valid) as (os & s & E & H).
    destruct Props_Mini.C36_case as [s' E']. rewrite E in E'. inversion E'; subst. eauto.
Qed.
