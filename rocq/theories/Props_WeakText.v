(** * Props_WeakText: C89 for the Go text.

    What Props_Weak.v says of the models, for goroutines that run what the interpreter
    of GoEval.v makes of the Go text.  It holds at every bound on the nesting of calls
    and loop rounds: raising the bound changes nothing that was not cut short (Bound.v).
    And nothing is cut short for good: every execution of the model is one of the text
    at every bound that is large enough. *)
From Coq Require Import ZArith List Bool String Lia Arith ZifyBool.
From Verif Require Import GoSem Errors Spec GoLemmas Typed Calls FrontCalls Abs MiniAbs OldCalls V1Calls Abs2 MiniAbs2 History Witness Conc ConcSpec ConcLemmas ConcSched.
From Verif Require Import FrontOldCalls Front Conv Enough FrontConc IsolateText Race RaceLemmas RaceOld RaceSpec3 Race3 RaceMiniSpec RaceMini RaceSpec RaceMiniSpec2 RaceMini2.
From Verif Require Props_Race.
From Verif Require Import Props_Front Props_Race3 Props_Alone Props_RaceMini Props_RaceMini2 Props_AloneMini.
From Verif Require Import AloneSpec AloneMiniSpec Alone AloneGen AloneMini WeakSpec Weak Props_Weak Bound TextWeak.
Import ListNotations.
Open Scope Z_scope.
Open Scope list_scope.

Lemma shape_family {C} (P : C -> Prop) gs Gs n : Forall2 (glim P) gs Gs -> map shape (map (at_bound n) Gs) = map shape gs.
Proof.
  intro F. induction F as [|g G l l' (A & _ & B) F IH]; [reflexivity|]. cbn [map]. f_equal; [|exact IH].
  unfold shape, at_bound. cbn [todo cur]. rewrite A. f_equal.
  destruct (cur g) as [[o p]|], (snd G) as [[o' Q]|]; try contradiction; [|reflexivity]. destruct B as [-> _]. reflexivity.
Qed.
Lemma shape_finished {C} (c w : wconfig C) : map shape (wgs c) = map shape (wgs w) -> wfinished w -> wfinished c.
Proof.
  unfold wfinished. generalize (wgs c). induction (wgs w) as [|g l IH]; intros [|g' l'] E F; try discriminate E; constructor; inversion F; subst.
  - injection E as E1 E2 _. destruct g' as [td cu]. cbn in E1, E2. subst td. destruct cu; [discriminate E2|reflexivity].
  - apply IH; auto. now injection E.
Qed.
Lemma below_own {A} (p q : prog A) : below p q -> forall out, below (own_out out p) (own_out out q).
Proof. intro H. induction H; intro out; cbn [own_out]; auto with bound. Qed.

(** ** The v3 [Buffer]: v3/buffer.generated.go *)

Definition buffer_text_weak (pol : Z -> Z -> Z) (n : nat) : St -> list (list (call slice)) -> list (Conc.event (call slice)) -> wconfig (call slice) -> Prop :=
  fun s programs h c => wexec (v3_text pol n) writes3 s programs (wstart s programs) h c.

Lemma buffer_text_ok pol s c : WF s -> ok_buffer s c ->
  conv eq (do_call c) (fun n => v3_text pol n c) /\ enough any (do_call c) /\ forall n, under (v3_text pol n c) (do_call c).
Proof.
  intros W (V & _ & _).
  assert (A : conv eq (do_call c) (fun n => v3_text pol n c)) by (unfold v3_text; rewrite v3_program_text; apply body_conv, do_call_text).
  assert (B : enough any (do_call c)) by (apply do_call_enough; eapply valid_exists; [|exact V]; apply W).
  split; [exact A|]. split; [exact B|]. intro n. now apply body_under.
Qed.

Lemma buffer_short s programs h w V : shareable s programs -> buffer_weak s programs h w -> In V (views w) -> short (b_buf (bb V)).
Proof.
  intros S E J. pose proof (shareable_ok _ _ S) as O. pose proof (shareable_indep _ _ S) as (W & I).
  assert (X : b_buf (bb V) = b_buf (bb s)) by weak_buffer @w_header. rewrite X. apply (wf_slice_short (heap s)); apply W.
Qed.
Lemma buffer_text_sim pol n s programs h c : shareable s programs -> buffer_text_weak pol n s programs h c ->
  exists w, buffer_weak s programs h w /\ wsim (ok_buffer s) c w.
Proof.
  intros S E. pose proof (shareable_ok _ _ S) as O. pose proof (shareable_indep _ _ S) as (W & _).
  apply (wsim_exec do_call (v3_text pol n) writes3 s programs (ok_buffer s)); auto.
  - intros d X. now apply (buffer_text_ok pol s d W X).
  - intros. eapply buffer_short; eauto.
Qed.

(** At every moment the calls of goroutine [t] that have returned are its first ones,
    and their answers are those of the goroutine alone. *)
Theorem C89_text_answers pol n s programs h c t cs :
  shareable s programs -> buffer_text_weak pol n s programs h c -> nth_error programs t = Some cs ->
  prefix (map fst (returns_of t h)) cs /\
  map snd (returns_of t h) = fst (alone s (map fst (returns_of t h))).
Proof. intros S E N. destruct (buffer_text_sim pol n _ _ _ _ S E) as (w & X & _). eapply C89_answers; eauto. Qed.
Print Assumptions C89_text_answers.
Theorem C89_text_finished pol n s programs h c t cs :
  shareable s programs -> buffer_text_weak pol n s programs h c -> wfinished c -> nth_error programs t = Some cs ->
  map fst (returns_of t h) = cs /\ map snd (returns_of t h) = fst (alone s cs).
Proof.
  intros S E F N. destruct (buffer_text_sim pol n _ _ _ _ S E) as (w & X & Y). eapply C89_finished; eauto. eapply sim_finished; eauto.
Qed.
Print Assumptions C89_text_finished.

(** What is in memory once the goroutines have been waited for. *)
Theorem C89_text_memory pol n s programs h c m :
  shareable s programs -> buffer_text_weak pol n s programs h c -> wresting c -> buffer_joined s programs c m ->
  WF m /\ b_buf (bb m) = b_buf (bb s) /\
  (forall t cs d x, nth_error programs t = Some cs -> In d cs -> writes3 d x = true ->
     part x (abs m) = part x (snd (alone s (map fst (returns_of t h))))) /\
  (forall x, (forall cs d, In cs programs -> In d cs -> writes3 d x = false) -> part x (abs m) = part x (abs s)).
Proof.
  intros S E R J. destruct (buffer_text_sim pol n _ _ _ _ S E) as (w & X & Y). eapply C89_memory; eauto using sim_resting.
  apply (sim_joined writes3 s programs (ok_buffer s) c w m Y). exact J.
Qed.
Print Assumptions C89_text_memory.
Theorem C89_text_joins pol n s programs h c :
  shareable s programs -> buffer_text_weak pol n s programs h c -> exists m, buffer_joined s programs c m.
Proof.
  intros S E. destruct (buffer_text_sim pol n _ _ _ _ S E) as (w & X & Y). destruct (C89_joins _ _ _ _ S X) as [m J].
  exists m. apply (sim_joined writes3 s programs (ok_buffer s) c w m Y). exact J.
Qed.
Print Assumptions C89_text_joins.

(** A goroutine changes its view, and writes, only where it is at liberty to; it reads
    nothing that another one is at liberty to write. *)
Theorem C89_text_stays_inside pol n s programs h c t e c' V V' :
  shareable s programs -> buffer_text_weak pol n s programs h c -> own_wstep (v3_text pol n) t c e c' ->
  nth_error (views c) t = Some V -> nth_error (views c') t = Some V' ->
  forall l, same_at l V V' \/ buffer_writer s programs c' t l.
Proof.
  intros S E St A B l. destruct (buffer_text_sim pol n _ _ _ _ S E) as (w & X & Y). pose proof (shareable_indep _ _ S) as (W & _).
  destruct (wsim_step do_call (v3_text pol n) (ok_buffer s) (fun d K => proj2 (proj2 (buffer_text_ok pol s d W K)) n) t c e c' w Y (fun V J => buffer_short s programs h w V S X J) St) as (w' & St' & Y').
  rewrite (proj1 Y) in A. rewrite (proj1 Y') in B.
  destruct (C89_stays_inside _ _ _ _ _ _ _ _ _ S X St' A B l) as [Z|Z]; [auto|]. right.
  apply (sim_liberty writes3 s programs (ok_buffer s) c' w' t l Y'). exact Z.
Qed.
Print Assumptions C89_text_stays_inside.
Theorem C89_text_writes_inside pol n s programs h c t o os p V a l :
  shareable s programs -> buffer_text_weak pol n s programs h c -> nth_error (wgs c) t = Some (mkG os (Some (o, p))) -> nth_error (views c) t = Some V ->
  access_of p V = Some a -> writes a l -> buffer_writer s programs c t l \/ (exists d k, p = Alloc d k).
Proof.
  intros S E Eg Ev Ea Wr. destruct (buffer_text_sim pol n _ _ _ _ S E) as (w & X & Y).
  destruct (sim_access (ok_buffer s) c w t os o p V a Y Eg Ev Ea) as (q & A1 & A2 & A3 & U).
  destruct (C89_writes_inside _ _ _ _ _ _ _ _ _ _ _ S X A1 A2 A3 Wr) as [Z|(d & k & ->)].
  - left. apply (sim_liberty writes3 s programs (ok_buffer s) c w t l Y). exact Z.
  - inversion U; subst; [discriminate Ea|]. eauto.
Qed.
Print Assumptions C89_text_writes_inside.
Theorem C89_text_reads_apart pol n s programs h c t o os p V a l u :
  shareable s programs -> buffer_text_weak pol n s programs h c -> nth_error (wgs c) t = Some (mkG os (Some (o, p))) -> nth_error (views c) t = Some V ->
  access_of p V = Some a -> reads a l -> u <> t -> ~ buffer_writer s programs c u l.
Proof.
  intros S E Eg Ev Ea Re N Z. destruct (buffer_text_sim pol n _ _ _ _ S E) as (w & X & Y).
  destruct (sim_access (ok_buffer s) c w t os o p V a Y Eg Ev Ea) as (q & A1 & A2 & A3 & _).
  eapply (C89_reads_apart _ _ _ _ _ _ _ _ _ _ _ _ S X A1 A2 A3 Re N).
  apply (sim_liberty writes3 s programs (ok_buffer s) c w u l Y). exact Z.
Qed.
Print Assumptions C89_text_reads_apart.

(** Every execution of the model is one of the text, at every bound that is large
    enough. *)
Theorem C89_text_complete pol s programs h w :
  shareable s programs -> buffer_weak s programs h w ->
  exists N, forall n, (N <= n)%nat -> exists c, buffer_text_weak pol n s programs h c /\
    views c = views w /\ owners c = owners w /\ map shape (wgs c) = map shape (wgs w).
Proof.
  intros S E. pose proof (shareable_ok _ _ S) as O. pose proof (shareable_indep _ _ S) as (W & _).
  destruct (wlim_exec do_call (v3_text pol) writes3 s programs (ok_buffer s)
    (fun d K => proj1 (buffer_text_ok pol s d W K)) (fun d K => proj1 (proj2 (buffer_text_ok pol s d W K))) O
    (fun h w V X J => buffer_short s programs h w V S X J) h w E) as (Gs & N & F & H).
  exists N. intros n Hn. eexists. split; [exact (H n Hn)|]. split; [reflexivity|]. split; [reflexivity|].
  cbn [wgs]. exact (shape_family _ _ _ n F).
Qed.
Print Assumptions C89_text_complete.

(** ** The v3 [MiniBuffer]: v3/minibuf.generated.go *)

Definition mini_text_weak (pol : Z -> Z -> Z) (n : nat) : St -> list (list mini_use) -> list (Conc.event mini_use) -> wconfig mini_use -> Prop :=
  fun s programs h c => wexec (mini_text pol n) (fun u : mini_use => writes_mini (fst u)) s programs (wstart s programs) h c.

Lemma mini_text_ok pol s u : WF s -> ok_mini s u ->
  conv eq (mini_body u) (fun n => mini_text pol n u) /\ enough any (mini_body u) /\ forall n, under (mini_text pol n u) (mini_body u).
Proof.
  intros W ((V1 & V2 & V3) & _ & _).
  assert (A : conv eq (mini_body u) (fun n => mini_text pol n u)) by now apply mini_text_conv.
  assert (B : enough any (mini_body u)).
  { apply enough_own. apply mini_call_enough; auto. eapply valid_exists; [|exact V2]. apply W. }
  split; [exact A|]. split; [exact B|]. intro n. eapply under_limit; eauto. exists n. intros m L. unfold mini_text.
  apply below_own, below_bind; [now apply body_mono|]. intro. apply below_refl.
Qed.

Lemma mini_short s programs h w V : shareable_mini s programs -> mini_weak s programs h w -> In V (views w) -> short (b_buf (bb V)).
Proof.
  intros S E J. pose proof (shareable_mini_ok _ _ S) as O. pose proof (shareable_mini_indep _ _ S) as (W & I).
  assert (X : b_buf (bb V) = b_buf (bb s)) by weak_mini @w_header. rewrite X. apply (wf_slice_short (heap s)); apply W.
Qed.
Lemma mini_text_sim pol n s programs h c : shareable_mini s programs -> mini_text_weak pol n s programs h c ->
  exists w, mini_weak s programs h w /\ wsim (ok_mini s) c w.
Proof.
  intros S E. pose proof (shareable_mini_ok _ _ S) as O. pose proof (shareable_mini_indep _ _ S) as (W & _).
  apply (wsim_exec mini_body (mini_text pol n) (fun u : mini_use => writes_mini (fst u)) s programs (ok_mini s)); auto.
  - intros d X. now apply (mini_text_ok pol s d W X).
  - intros. eapply mini_short; eauto.
Qed.

(** At every moment the calls of goroutine [t] that have returned are its first ones,
    and their answers are those of the goroutine alone. *)
Theorem C89_mini_text_answers pol n s programs h c t cs :
  shareable_mini s programs -> mini_text_weak pol n s programs h c -> nth_error programs t = Some cs ->
  prefix (map fst (returns_of t h)) cs /\
  map snd (returns_of t h) = fst (mini_alone s (map fst (returns_of t h))).
Proof. intros S E N. destruct (mini_text_sim pol n _ _ _ _ S E) as (w & X & _). eapply C89_mini_answers; eauto. Qed.
Print Assumptions C89_mini_text_answers.
Theorem C89_mini_text_finished pol n s programs h c t cs :
  shareable_mini s programs -> mini_text_weak pol n s programs h c -> wfinished c -> nth_error programs t = Some cs ->
  map fst (returns_of t h) = cs /\ map snd (returns_of t h) = fst (mini_alone s cs).
Proof.
  intros S E F N. destruct (mini_text_sim pol n _ _ _ _ S E) as (w & X & Y). eapply C89_mini_finished; eauto. eapply sim_finished; eauto.
Qed.
Print Assumptions C89_mini_text_finished.

(** What is in memory once the goroutines have been waited for. *)
Theorem C89_mini_text_memory pol n s programs h c m :
  shareable_mini s programs -> mini_text_weak pol n s programs h c -> wresting c -> mini_joined s programs c m ->
  WF m /\ b_buf (bb m) = b_buf (bb s) /\
  (forall t cs d x, nth_error programs t = Some cs -> In d cs -> writes_mini (fst d) x = true ->
     part x (abs m) = part x (snd (mini_alone s (map fst (returns_of t h))))) /\
  (forall x, (forall cs d, In cs programs -> In d cs -> writes_mini (fst d) x = false) -> part x (abs m) = part x (abs s)).
Proof.
  intros S E R J. destruct (mini_text_sim pol n _ _ _ _ S E) as (w & X & Y). eapply C89_mini_memory; eauto using sim_resting.
  apply (sim_joined (fun u : mini_use => writes_mini (fst u)) s programs (ok_mini s) c w m Y). exact J.
Qed.
Print Assumptions C89_mini_text_memory.
Theorem C89_mini_text_joins pol n s programs h c :
  shareable_mini s programs -> mini_text_weak pol n s programs h c -> exists m, mini_joined s programs c m.
Proof.
  intros S E. destruct (mini_text_sim pol n _ _ _ _ S E) as (w & X & Y). destruct (C89_mini_joins _ _ _ _ S X) as [m J].
  exists m. apply (sim_joined (fun u : mini_use => writes_mini (fst u)) s programs (ok_mini s) c w m Y). exact J.
Qed.
Print Assumptions C89_mini_text_joins.

(** A goroutine changes its view, and writes, only where it is at liberty to; it reads
    nothing that another one is at liberty to write. *)
Theorem C89_mini_text_stays_inside pol n s programs h c t e c' V V' :
  shareable_mini s programs -> mini_text_weak pol n s programs h c -> own_wstep (mini_text pol n) t c e c' ->
  nth_error (views c) t = Some V -> nth_error (views c') t = Some V' ->
  forall l, same_at l V V' \/ mini_writer s programs c' t l.
Proof.
  intros S E St A B l. destruct (mini_text_sim pol n _ _ _ _ S E) as (w & X & Y). pose proof (shareable_mini_indep _ _ S) as (W & _).
  destruct (wsim_step mini_body (mini_text pol n) (ok_mini s) (fun d K => proj2 (proj2 (mini_text_ok pol s d W K)) n) t c e c' w Y (fun V J => mini_short s programs h w V S X J) St) as (w' & St' & Y').
  rewrite (proj1 Y) in A. rewrite (proj1 Y') in B.
  destruct (C89_mini_stays_inside _ _ _ _ _ _ _ _ _ S X St' A B l) as [Z|Z]; [auto|]. right.
  apply (sim_liberty (fun u : mini_use => writes_mini (fst u)) s programs (ok_mini s) c' w' t l Y'). exact Z.
Qed.
Print Assumptions C89_mini_text_stays_inside.
Theorem C89_mini_text_writes_inside pol n s programs h c t o os p V a l :
  shareable_mini s programs -> mini_text_weak pol n s programs h c -> nth_error (wgs c) t = Some (mkG os (Some (o, p))) -> nth_error (views c) t = Some V ->
  access_of p V = Some a -> writes a l -> mini_writer s programs c t l \/ (exists d k, p = Alloc d k).
Proof.
  intros S E Eg Ev Ea Wr. destruct (mini_text_sim pol n _ _ _ _ S E) as (w & X & Y).
  destruct (sim_access (ok_mini s) c w t os o p V a Y Eg Ev Ea) as (q & A1 & A2 & A3 & U).
  destruct (C89_mini_writes_inside _ _ _ _ _ _ _ _ _ _ _ S X A1 A2 A3 Wr) as [Z|(d & k & ->)].
  - left. apply (sim_liberty (fun u : mini_use => writes_mini (fst u)) s programs (ok_mini s) c w t l Y). exact Z.
  - inversion U; subst; [discriminate Ea|]. eauto.
Qed.
Print Assumptions C89_mini_text_writes_inside.
Theorem C89_mini_text_reads_apart pol n s programs h c t o os p V a l u :
  shareable_mini s programs -> mini_text_weak pol n s programs h c -> nth_error (wgs c) t = Some (mkG os (Some (o, p))) -> nth_error (views c) t = Some V ->
  access_of p V = Some a -> reads a l -> u <> t -> ~ mini_writer s programs c u l.
Proof.
  intros S E Eg Ev Ea Re N Z. destruct (mini_text_sim pol n _ _ _ _ S E) as (w & X & Y).
  destruct (sim_access (ok_mini s) c w t os o p V a Y Eg Ev Ea) as (q & A1 & A2 & A3 & _).
  eapply (C89_mini_reads_apart _ _ _ _ _ _ _ _ _ _ _ _ S X A1 A2 A3 Re N).
  apply (sim_liberty (fun u : mini_use => writes_mini (fst u)) s programs (ok_mini s) c w u l Y). exact Z.
Qed.
Print Assumptions C89_mini_text_reads_apart.

(** Every execution of the model is one of the text, at every bound that is large
    enough. *)
Theorem C89_mini_text_complete pol s programs h w :
  shareable_mini s programs -> mini_weak s programs h w ->
  exists N, forall n, (N <= n)%nat -> exists c, mini_text_weak pol n s programs h c /\
    views c = views w /\ owners c = owners w /\ map shape (wgs c) = map shape (wgs w).
Proof.
  intros S E. pose proof (shareable_mini_ok _ _ S) as O. pose proof (shareable_mini_indep _ _ S) as (W & _).
  destruct (wlim_exec mini_body (mini_text pol) (fun u : mini_use => writes_mini (fst u)) s programs (ok_mini s)
    (fun d K => proj1 (mini_text_ok pol s d W K)) (fun d K => proj1 (proj2 (mini_text_ok pol s d W K))) O
    (fun h w V X J => mini_short s programs h w V S X J) h w E) as (Gs & N & F & H).
  exists N. intros n Hn. eexists. split; [exact (H n Hn)|]. split; [reflexivity|]. split; [reflexivity|].
  cbn [wgs]. exact (shape_family _ _ _ n F).
Qed.
Print Assumptions C89_mini_text_complete.

(** ** The [MiniBuffer]s of v1 and v2: v1/minibuf.go and v2/minibuf.go *)

Definition old_text_weak (v : version) (pol : Z -> Z -> Z) (n : nat) : St -> list (list old_use) -> list (Conc.event old_use) -> wconfig old_use -> Prop :=
  fun s programs h c => wexec (old_use_text v pol n) (fun u : old_use => writes_old v (fst u)) s programs (wstart s programs) h c.

Lemma old_text_ok v pol s u : WF s -> ok_old v s u ->
  conv eq (old_use_body v pol u) (fun n => old_use_text v pol n u) /\ enough any (old_use_body v pol u) /\
  forall n, under (old_use_text v pol n u) (old_use_body v pol u).
Proof.
  intros W ((V1 & V2 & V3) & _ & _).
  assert (A : conv eq (old_use_body v pol u) (fun n => old_use_text v pol n u)) by now apply old_use_text_conv.
  assert (B : enough any (old_use_body v pol u)).
  { apply enough_own. apply old_mini_enough; auto. eapply valid2_exists; [|exact V2]. apply W. }
  split; [exact A|]. split; [exact B|]. intro n. eapply under_limit; eauto. exists n. intros m L. unfold old_use_text.
  apply below_own. unfold then_find. destruct (finds_old v (fst u)); [|now apply body_mono].
  apply below_bind; [now apply body_mono|]. intro. apply below_refl.
Qed.

Lemma old_short v pol s programs h w V : shareable_old v s programs -> old_weak v pol s programs h w -> In V (views w) -> short (b_buf (bb V)).
Proof.
  intros S E J. pose proof (shareable_old_ok v _ _ S) as O. pose proof (shareable_old_indep v _ _ S) as (W & I).
  assert (X : b_buf (bb V) = b_buf (bb s)) by weak_old v pol @w_header. rewrite X. apply (wf_slice_short (heap s)); apply W.
Qed.
Lemma old_text_sim v pol n s programs h c : shareable_old v s programs -> old_text_weak v pol n s programs h c ->
  exists w, old_weak v pol s programs h w /\ wsim (ok_old v s) c w.
Proof.
  intros S E. pose proof (shareable_old_ok v _ _ S) as O. pose proof (shareable_old_indep v _ _ S) as (W & _).
  apply (wsim_exec (old_use_body v pol) (old_use_text v pol n) (fun u : old_use => writes_old v (fst u)) s programs (ok_old v s)); auto.
  - intros d X. now apply (old_text_ok v pol s d W X).
  - intros. eapply old_short; eauto.
Qed.

(** At every moment the calls of goroutine [t] that have returned are its first ones,
    and their answers are those of the goroutine alone. *)
Theorem C89_old_text_answers v pol n s programs h c t cs :
  shareable_old v s programs -> old_text_weak v pol n s programs h c -> nth_error programs t = Some cs ->
  prefix (map fst (returns_of t h)) cs /\
  map snd (returns_of t h) = fst (old_alone v pol s (map fst (returns_of t h))).
Proof. intros S E N. destruct (old_text_sim v pol n _ _ _ _ S E) as (w & X & _). eapply C89_old_answers; eauto. Qed.
Print Assumptions C89_old_text_answers.
Theorem C89_old_text_finished v pol n s programs h c t cs :
  shareable_old v s programs -> old_text_weak v pol n s programs h c -> wfinished c -> nth_error programs t = Some cs ->
  map fst (returns_of t h) = cs /\ map snd (returns_of t h) = fst (old_alone v pol s cs).
Proof.
  intros S E F N. destruct (old_text_sim v pol n _ _ _ _ S E) as (w & X & Y). eapply C89_old_finished; eauto. eapply sim_finished; eauto.
Qed.
Print Assumptions C89_old_text_finished.

(** What is in memory once the goroutines have been waited for. *)
Theorem C89_old_text_memory v pol n s programs h c m :
  shareable_old v s programs -> old_text_weak v pol n s programs h c -> wresting c -> old_joined v s programs c m ->
  WF m /\ b_buf (bb m) = b_buf (bb s) /\
  (forall t cs d x, nth_error programs t = Some cs -> In d cs -> writes_old v (fst d) x = true ->
     part x (abs m) = part x (snd (old_alone v pol s (map fst (returns_of t h))))) /\
  (forall x, (forall cs d, In cs programs -> In d cs -> writes_old v (fst d) x = false) -> part x (abs m) = part x (abs s)).
Proof.
  intros S E R J. destruct (old_text_sim v pol n _ _ _ _ S E) as (w & X & Y). eapply C89_old_memory; eauto using sim_resting.
  apply (sim_joined (fun u : old_use => writes_old v (fst u)) s programs (ok_old v s) c w m Y). exact J.
Qed.
Print Assumptions C89_old_text_memory.
Theorem C89_old_text_joins v pol n s programs h c :
  shareable_old v s programs -> old_text_weak v pol n s programs h c -> exists m, old_joined v s programs c m.
Proof.
  intros S E. destruct (old_text_sim v pol n _ _ _ _ S E) as (w & X & Y). destruct (C89_old_joins v pol _ _ _ _ S X) as [m J].
  exists m. apply (sim_joined (fun u : old_use => writes_old v (fst u)) s programs (ok_old v s) c w m Y). exact J.
Qed.
Print Assumptions C89_old_text_joins.

(** A goroutine changes its view, and writes, only where it is at liberty to; it reads
    nothing that another one is at liberty to write. *)
Theorem C89_old_text_stays_inside v pol n s programs h c t e c' V V' :
  shareable_old v s programs -> old_text_weak v pol n s programs h c -> own_wstep (old_use_text v pol n) t c e c' ->
  nth_error (views c) t = Some V -> nth_error (views c') t = Some V' ->
  forall l, same_at l V V' \/ old_writer v s programs c' t l.
Proof.
  intros S E St A B l. destruct (old_text_sim v pol n _ _ _ _ S E) as (w & X & Y). pose proof (shareable_old_indep v _ _ S) as (W & _).
  destruct (wsim_step (old_use_body v pol) (old_use_text v pol n) (ok_old v s) (fun d K => proj2 (proj2 (old_text_ok v pol s d W K)) n) t c e c' w Y (fun V J => old_short v pol s programs h w V S X J) St) as (w' & St' & Y').
  rewrite (proj1 Y) in A. rewrite (proj1 Y') in B.
  destruct (C89_old_stays_inside v pol _ _ _ _ _ _ _ _ _ S X St' A B l) as [Z|Z]; [auto|]. right.
  apply (sim_liberty (fun u : old_use => writes_old v (fst u)) s programs (ok_old v s) c' w' t l Y'). exact Z.
Qed.
Print Assumptions C89_old_text_stays_inside.
Theorem C89_old_text_writes_inside v pol n s programs h c t o os p V a l :
  shareable_old v s programs -> old_text_weak v pol n s programs h c -> nth_error (wgs c) t = Some (mkG os (Some (o, p))) -> nth_error (views c) t = Some V ->
  access_of p V = Some a -> writes a l -> old_writer v s programs c t l \/ (exists d k, p = Alloc d k).
Proof.
  intros S E Eg Ev Ea Wr. destruct (old_text_sim v pol n _ _ _ _ S E) as (w & X & Y).
  destruct (sim_access (ok_old v s) c w t os o p V a Y Eg Ev Ea) as (q & A1 & A2 & A3 & U).
  destruct (C89_old_writes_inside v pol _ _ _ _ _ _ _ _ _ _ _ S X A1 A2 A3 Wr) as [Z|(d & k & ->)].
  - left. apply (sim_liberty (fun u : old_use => writes_old v (fst u)) s programs (ok_old v s) c w t l Y). exact Z.
  - inversion U; subst; [discriminate Ea|]. eauto.
Qed.
Print Assumptions C89_old_text_writes_inside.
Theorem C89_old_text_reads_apart v pol n s programs h c t o os p V a l u :
  shareable_old v s programs -> old_text_weak v pol n s programs h c -> nth_error (wgs c) t = Some (mkG os (Some (o, p))) -> nth_error (views c) t = Some V ->
  access_of p V = Some a -> reads a l -> u <> t -> ~ old_writer v s programs c u l.
Proof.
  intros S E Eg Ev Ea Re N Z. destruct (old_text_sim v pol n _ _ _ _ S E) as (w & X & Y).
  destruct (sim_access (ok_old v s) c w t os o p V a Y Eg Ev Ea) as (q & A1 & A2 & A3 & _).
  eapply (C89_old_reads_apart v pol _ _ _ _ _ _ _ _ _ _ _ _ S X A1 A2 A3 Re N).
  apply (sim_liberty (fun u : old_use => writes_old v (fst u)) s programs (ok_old v s) c w u l Y). exact Z.
Qed.
Print Assumptions C89_old_text_reads_apart.

(** Every execution of the model is one of the text, at every bound that is large
    enough. *)
Theorem C89_old_text_complete v pol s programs h w :
  shareable_old v s programs -> old_weak v pol s programs h w ->
  exists N, forall n, (N <= n)%nat -> exists c, old_text_weak v pol n s programs h c /\
    views c = views w /\ owners c = owners w /\ map shape (wgs c) = map shape (wgs w).
Proof.
  intros S E. pose proof (shareable_old_ok v _ _ S) as O. pose proof (shareable_old_indep v _ _ S) as (W & _).
  destruct (wlim_exec (old_use_body v pol) (old_use_text v pol) (fun u : old_use => writes_old v (fst u)) s programs (ok_old v s)
    (fun d K => proj1 (old_text_ok v pol s d W K)) (fun d K => proj1 (proj2 (old_text_ok v pol s d W K))) O
    (fun h w V X J => old_short v pol s programs h w V S X J) h w E) as (Gs & N & F & H).
  exists N. intros n Hn. eexists. split; [exact (H n Hn)|]. split; [reflexivity|]. split; [reflexivity|].
  cbn [wgs]. exact (shape_family _ _ _ n F).
Qed.
Print Assumptions C89_old_text_complete.

(** ** A concrete case *)

(** Two goroutines of the text, each with a byte of its own, as in [C89_case]. *)
Example C89_text_case pol :
  shareable shared3 two_bytes /\
  exists N, forall n, (N <= n)%nat -> exists h c m,
    buffer_text_weak pol n shared3 two_bytes h c /\ wfinished c /\ buffer_joined shared3 two_bytes c m /\
    map snd (returns_of 0 h) = [Returned RUnit; Returned (RInt 7)] /\ map snd (returns_of 1 h) = [Returned RUnit; Returned (RInt 9)] /\
    map content (views c) = [[7; 77; 3; 4; 5; 6; 7; 8]; [1; 9; 3; 4; 5; 6; 7; 8]].
Proof.
  destruct C89_case as (S & h & w & m & X & F & J & A1 & A2 & A3 & _). split; [exact S|].
  destruct (C89_text_complete pol _ _ _ _ S X) as [N H]. exists N. intros n Hn. destruct (H n Hn) as (c & T & E1 & E2 & E3).
  destruct (C89_text_joins pol n _ _ _ _ S T) as [m' J']. exists h, c, m'.
  split; [exact T|]. split; [exact (shape_finished c w E3 F)|]. split; [exact J'|]. rewrite E1. auto.
Qed.
Example C89_mini_text_case pol :
  shareable_mini shared3 mini_parts /\
  exists h N, forall n, (N <= n)%nat -> exists c m, mini_text_weak pol n shared3 mini_parts h c /\ wfinished c /\ mini_joined shared3 mini_parts c m.
Proof.
  destruct C89_mini_case as (S & h & w & m & X & F & _). split; [exact S|]. exists h.
  destruct (C89_mini_text_complete pol _ _ _ _ S X) as [N H]. exists N. intros n Hn. destruct (H n Hn) as (c & T & _ & _ & E3).
  destruct (C89_mini_text_joins pol n _ _ _ _ S T) as [m' J']. exists c, m'. eauto using shape_finished.
Qed.
Example C89_old_text_case v pol :
  shareable_old v Props_Race.shared old_parts /\
  exists h N, forall n, (N <= n)%nat -> exists c m, old_text_weak v pol n Props_Race.shared old_parts h c /\ wfinished c /\ old_joined v Props_Race.shared old_parts c m.
Proof.
  destruct (C89_old_case v pol) as (S & h & w & m & X & F & _). split; [exact S|]. exists h.
  destruct (C89_old_text_complete v pol _ _ _ _ S X) as [N H]. exists N. intros n Hn. destruct (H n Hn) as (c & T & _ & _ & E3).
  destruct (C89_old_text_joins v pol n _ _ _ _ S T) as [m' J']. exists c, m'. eauto using shape_finished.
Qed.
