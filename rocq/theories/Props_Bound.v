(** * Props_Bound: the bound of the interpreter does not matter (C64, C65 and the text
    theorems on goroutines, at every bound).

    The meaning of Go text (GoEval.v) has a bound on the nesting of calls and loop
    rounds.  The text theorems elsewhere hold for all bounds that are large enough.
    Here: raising the bound never changes an outcome, and what goroutines that run the
    text can rely on holds at every bound, also where some calls are cut short. *)
From Coq Require Import ZArith List Bool String Lia Arith ZifyBool.
From Verif Require Import GoSem Errors GoParse SrcV1 SrcV2 SrcV3 Conv Spec GoLemmas Typed Calls FrontCalls Abs MiniAbs OldCalls V1Lemmas V1Calls Abs2 MiniAbs2 History Witness Conc ConcSpec ConcSpec1 ConcLemmas ConcSched.
From Verif Require Import FrontOldCalls Front Tables Enough FrontConc IsolateText Race RaceLemmas RaceOld RaceSpec3 Race3 RaceMiniSpec RaceMini RaceSpec RaceMiniSpec2 RaceMini2.
From Verif Require GoEval ConcV2 Props_Race Props_Conc Props_ConcV1 Props_FrontConc Props_FrontConcV1 Props_FrontRace.
From Verif Require Import Props_Abs2 Props_Front Props_Race3 Props_Alone Props_RaceMini Props_RaceMini2 Props_AloneMini.
From Verif Require Import AloneSpec AloneMiniSpec Alone AloneMini Weak Props_Weak Bound TextWeak Props_WeakText TextConc.
Import ListNotations.
Open Scope Z_scope.
Open Scope list_scope.

(** ** One call *)

(** For any Go text: a call that ends at some bound ends in the same way at every
    larger one. *)
Theorem C64_bound_irrelevant ds pol q s n m : (n <= m)%nat ->
  run (GoEval.den ds pol n q) s <> Stuck -> run (GoEval.den ds pol m q) s = run (GoEval.den ds pol n q) s.
Proof. intros L H. destruct (below_run _ _ (den_mono ds pol n m q L) s) as [E|E]; congruence. Qed.
Print Assumptions C64_bound_irrelevant.
(** So it has one outcome. *)
Theorem C64_one_outcome ds pol q s n m :
  run (GoEval.den ds pol n q) s <> Stuck -> run (GoEval.den ds pol m q) s <> Stuck ->
  run (GoEval.den ds pol m q) s = run (GoEval.den ds pol n q) s.
Proof.
  intros N M. destruct (Nat.le_ge_cases n m) as [L|L]; [|symmetry]; now apply C64_bound_irrelevant.
Qed.
Print Assumptions C64_one_outcome.
(** The outcome that C65 and C66 speak of is the one at any bound at which the call ends. *)
Theorem C65_one_bound_suffices ds pol q s r : r <> Stuck ->
  runs_to ds pol q s r <-> exists n, run (GoEval.den ds pol n (GoEval.QCall (fst q) (snd q))) s = r.
Proof.
  intro H. split.
  - intros [N E]. exists N. apply E. lia.
  - intros [n E]. exists n. intros m L. rewrite <- E. apply C64_bound_irrelevant; congruence.
Qed.
Print Assumptions C65_one_bound_suffices.
(** At every bound a call of the text has the outcome of the model, or is cut short. *)
Definition never_differs (ds : list gdecl) (pol : Z -> Z -> Z) (e : entry) : Prop :=
  forall x s n, e_ok e x -> run (e_model e x) s <> Stuck ->
  run (GoEval.den ds pol n (GoEval.QCall (e_name e) (e_args e x))) s = Stuck \/
  run (GoEval.den ds pol n (GoEval.QCall (e_name e) (e_args e x))) s =
  match run (e_model e x) s with
  | Done v s' => Done ([], GoEval.Return (e_res e v)) s'
  | Panicked er s' => Panicked er s'
  | Deadlock s' => Deadlock s'
  | Stuck => Stuck
  end.
Lemma runs_differ ds pol l : Forall (same_runs ds pol) l -> Forall (never_differs ds pol) l.
Proof.
  apply Forall_impl. intros e H x s n O R. destruct (H x s O R) as [N HN].
  rewrite <- (HN (N + n)%nat) by lia. apply below_run, den_mono. lia.
Qed.
(** The texts, parsed, together with the rest of their package. *)
Theorem C64_never_differs pol :
  (forall ds es, parse v3_buffer = Some ds -> parse v3_errors = Some es ->
     Forall (never_differs (ds ++ es) pol) (v3_buffer_table pol)) /\
  (forall ds es, parse v3_minibuf = Some ds -> parse v3_errors = Some es ->
     Forall (never_differs (ds ++ es) pol) (v3_minibuf_table pol)) /\
  (forall ds es us, parse v2_buffer = Some ds -> parse v2_errors = Some es -> parse v2_utils = Some us ->
     Forall (never_differs (ds ++ es ++ us) pol) (v2_buffer_table pol)) /\
  (forall ds es us, parse v2_minibuf = Some ds -> parse v2_errors = Some es -> parse v2_utils = Some us ->
     Forall (never_differs (ds ++ es ++ us) pol) (v2_minibuf_table pol)) /\
  (forall ds es us cs, parse v1_buffer = Some ds -> parse v1_errors = Some es -> parse v1_utils = Some us -> parse v1_crunch = Some cs ->
     Forall (never_differs (ds ++ es ++ us ++ cs) pol) (v1_buffer_table pol)) /\
  (forall ds es us cs, parse v1_minibuf = Some ds -> parse v1_errors = Some es -> parse v1_utils = Some us -> parse v1_crunch = Some cs ->
     Forall (never_differs (ds ++ es ++ us ++ cs) pol) (v1_minibuf_table pol)).
Proof.
  split; [|split; [|split; [|split; [|split]]]]; intros.
  - destruct (C64_v3_Buffer pol) as (ds' & es' & E1 & E2 & _ & _ & _ & R). apply runs_differ.
    assert (ds = ds') by congruence. assert (es = es') by congruence. subst. exact R.
  - destruct (C64_v3_MiniBuffer pol) as (ds' & es' & E1 & E2 & _ & _ & _ & R). apply runs_differ.
    assert (ds = ds') by congruence. assert (es = es') by congruence. subst. exact R.
  - destruct (C64_v2_Buffer pol) as (ds' & es' & us' & E1 & E2 & E3 & _ & _ & _ & R). apply runs_differ.
    assert (ds = ds') by congruence. assert (es = es') by congruence. subst. assert (us = us') by congruence. subst. exact R.
  - destruct (C64_v2_MiniBuffer pol) as (ds' & es' & us' & E1 & E2 & E3 & _ & _ & _ & R). apply runs_differ.
    assert (ds = ds') by congruence. assert (es = es') by congruence. subst. assert (us = us') by congruence. subst. exact R.
  - destruct (C64_v1_Buffer pol) as (ds' & es' & us' & cs' & E1 & E2 & E3 & E4 & _ & _ & _ & R). apply runs_differ.
    assert (ds = ds') by congruence. assert (es = es') by congruence. subst. assert (us = us') by congruence. assert (cs = cs') by congruence. subst. exact R.
  - destruct (C64_v1_MiniBuffer pol) as (ds' & es' & us' & cs' & E1 & E2 & E3 & E4 & _ & _ & _ & R). apply runs_differ.
    assert (ds = ds') by congruence. assert (es = es') by congruence. subst. assert (us = us') by congruence. assert (cs = cs') by congruence. subst. exact R.
Qed.
Print Assumptions C64_never_differs.

(** A flip of a bit, run by the text of v2: cut short at bound 1, the same outcome at
    bounds 30 and 40. *)
Example C64_bound_case :
  let f n := run (Props_FrontConc.running (fun _ k => k) n (At2 9 PFlipBit)) ex in
  f 1%nat = Stuck /\ f 40%nat = f 30%nat /\
  match f 30%nat with Done RUnit s => content s <> content ex | _ => False end.
Proof. unfold Props_FrontConc.running. rewrite Props_FrontConc.v2_program_text. vm_compute. split; [reflexivity|]. split; [reflexivity|]. discriminate. Qed.

(** ** Goroutines *)

Lemma any_exec {C} (body body' : C -> prog (rv slice)) (ok : C -> Prop) s programs h c :
  WF s -> (forall d, ok d -> under (body' d) (body d)) -> Forall (Forall ok) programs -> exec body' (start s programs) h c ->
  exists c2, exec body (start s programs) h c2 /\ same c2 c.
Proof.
  intros W U F E. destruct (csim_exec body body' ok U (start s programs) (start s programs) h c) as (c2 & E2 & S); auto.
  - apply csim_start; auto. apply (wf_slice_short (heap s)); apply W.
  - exists c2. split; auto. apply csim_same in S. destruct S as [A B]. now split.
Qed.
Lemma any_traced {C} (body body' : C -> prog (rv slice)) (ok : C -> Prop) s programs tr c :
  WF s -> (forall d, ok d -> under (body' d) (body d)) -> Forall (Forall ok) programs -> traced body' (start s programs) tr c ->
  exists c2, traced body (start s programs) tr c2.
Proof.
  intros W U F E. destruct (csim_traced body body' ok U (start s programs) (start s programs) tr c) as (c2 & E2 & S); eauto.
  apply csim_start; auto. apply (wf_slice_short (heap s)); apply W.
Qed.
Lemma old_call_under v pol s n c : WF s -> valid_call2 s c /\ Props_FrontRace.has_call v c ->
  under (Props_FrontRace.text_call v pol n c) (Props_FrontRace.model_call v pol c).
Proof.
  intros W [V H]. unfold Props_FrontRace.text_call. apply body_under.
  - rewrite old_program_text. apply body_conv. destruct v; cbn [old_package old_go_call Props_FrontRace.model_call].
    + apply do1_call_text. unfold v1_call. destruct c; try reflexivity. now destruct (H eq_refl).
    + apply do2_call_text.
  - destruct v; cbn [Props_FrontRace.model_call].
    + unfold v1_call. destruct (do1_call pol c) as [p|] eqn:E; [|exact I]. eapply Props_FrontRace.do1_call_enough; [|exact V|exact E]. apply W.
    + apply do2_call_enough. eapply valid2_exists; [|exact V]. apply W.
Qed.
Lemma v2_call_under pol s n c : WF s -> valid_call2 s c -> under (Props_FrontConc.running pol n c) (do2_call pol c).
Proof.
  intros W V. unfold Props_FrontConc.running. apply body_under.
  - rewrite Props_FrontConc.v2_program_text. apply body_conv, do2_call_text.
  - apply do2_call_enough. eapply valid2_exists; [|exact V]. apply W.
Qed.
Lemma v3_call_under pol s n c : WF s -> valid_call s c -> under (v3_text pol n c) (do_call c).
Proof.
  intros W V. apply body_under.
  - rewrite v3_program_text. apply body_conv, do_call_text.
  - apply do_call_enough. eapply valid_exists; [|exact V]. apply W.
Qed.

(** *** The v3 [Buffer] and the [MiniBuffer]s: C74, C75, C82, C86, C87 *)

Theorem C74_text_race_free_any_bound pol s programs :
  WF s -> Forall (Forall (valid_call s)) programs -> Forall (Forall (separate s)) programs -> compatible3 programs ->
  forall n tr cfg, traced (v3_text pol n) (start s programs) tr cfg -> race_free tr.
Proof.
  intros W V X C n tr cfg T.
  destruct (any_traced do_call (v3_text pol n) (valid_call s) s programs tr cfg W (fun d => v3_call_under pol s n d W) V T) as (c2 & T2).
  eapply C74_race_free; eauto.
Qed.
Print Assumptions C74_text_race_free_any_bound.

Lemma mini_fits_under pol s n u : WF s -> mini_fits s u -> under (mini_text pol n u) (mini_body u).
Proof.
  intros W [(V1 & V2 & V3) _]. eapply under_limit; [now apply mini_text_conv| |].
  - apply enough_own. apply mini_call_enough; auto. eapply valid_exists; [|exact V2]. apply W.
  - exists n. intros m L. unfold mini_text. apply below_own, below_bind; [now apply body_mono|]. intro. apply below_refl.
Qed.
Lemma old_fits_under v pol s n u : WF s -> old_fits v s u -> under (old_use_text v pol n u) (old_use_body v pol u).
Proof.
  intros W [(V1 & V2 & V3) _]. eapply under_limit; [now apply old_use_text_conv| |].
  - apply enough_own. apply old_mini_enough; auto. eapply valid2_exists; [|exact V2]. apply W.
  - exists n. intros m L. unfold old_use_text. apply below_own. unfold then_find. destruct (finds_old v (fst u)); [|now apply body_mono].
    apply below_bind; [now apply body_mono|]. intro. apply below_refl.
Qed.
Theorem C82_text_race_free_any_bound pol s programs :
  WF s -> Forall (Forall (mini_fits s)) programs -> compatible_mini programs ->
  forall n tr cfg, traced (mini_text pol n) (start s programs) tr cfg -> race_free tr.
Proof.
  intros W V C n tr cfg T.
  destruct (any_traced mini_body (mini_text pol n) (mini_fits s) s programs tr cfg W (fun d => mini_fits_under pol s n d W) V T) as (c2 & T2).
  eapply C82_race_free; eauto.
Qed.
Print Assumptions C82_text_race_free_any_bound.
Theorem C86_text_race_free_any_bound v pol s programs :
  WF s -> Forall (Forall (old_fits v s)) programs -> compatible_old v programs ->
  forall n tr cfg, traced (old_use_text v pol n) (start s programs) tr cfg -> race_free tr.
Proof.
  intros W V C n tr cfg T.
  destruct (any_traced (old_use_body v pol) (old_use_text v pol n) (old_fits v s) s programs tr cfg W (fun d => old_fits_under v pol s n d W) V T) as (c2 & T2).
  eapply C86_race_free; eauto.
Qed.
Print Assumptions C86_text_race_free_any_bound.

Theorem C75_text_any_bound pol s programs : shareable s programs ->
  forall n h c, exec (v3_text pol n) (start s programs) h c ->
    (forall t cs, nth_error programs t = Some cs ->
       prefix (map fst (returns_of t h)) cs /\
       map snd (returns_of t h) = fst (alone s (map fst (returns_of t h)))) /\
    (finished c ->
       WF (sh c) /\
       (forall t cs, nth_error programs t = Some cs -> map fst (returns_of t h) = cs) /\
       (forall t cs d x, nth_error programs t = Some cs -> In d cs -> writes3 d x = true ->
          part x (abs (sh c)) = part x (snd (alone s cs))) /\
       (forall x, (forall cs d, In cs programs -> In d cs -> writes3 d x = false) -> part x (abs (sh c)) = part x (abs s))).
Proof.
  intros S n h c E. pose proof S as (W & V & _).
  destruct (any_exec do_call (v3_text pol n) (valid_call s) s programs h c W (fun d => v3_call_under pol s n d W) V E) as (c2 & E2 & X).
  split. { intros t cs. now apply (C75_answers s programs h c2). }
  intro F. assert (F2 : finished c2) by now apply (same_finished _ _ X).
  destruct (C75_buffer s programs h c2 S E2 F2) as (B1 & _ & B2 & B3). rewrite <- (proj1 X).
  split; [exact B1|]. split; [|split; [exact B2|exact B3]].
  intros t cs Et. now apply (C75_finished s programs h c2 t cs).
Qed.
Print Assumptions C75_text_any_bound.

Theorem C87_text_any_bound pol s programs : shareable_mini s programs ->
  forall n h c, exec (mini_text pol n) (start s programs) h c ->
    (forall t cs, nth_error programs t = Some cs ->
       prefix (map fst (returns_of t h)) cs /\
       map snd (returns_of t h) = fst (mini_alone s (map fst (returns_of t h)))) /\
    (finished c ->
       WF (sh c) /\
       (forall t cs, nth_error programs t = Some cs -> map fst (returns_of t h) = cs) /\
       (forall t cs d x, nth_error programs t = Some cs -> In d cs -> writes_mini (fst d) x = true ->
          part x (abs (sh c)) = part x (snd (mini_alone s cs))) /\
       (forall x, (forall cs d, In cs programs -> In d cs -> writes_mini (fst d) x = false) -> part x (abs (sh c)) = part x (abs s))).
Proof.
  intros S n h c E. pose proof S as (W & V & _).
  assert (V' : Forall (Forall (mini_fits s)) programs). { revert V. apply Forall_impl. intro cs. apply Forall_impl. now intros u [V _]. }
  destruct (any_exec mini_body (mini_text pol n) (mini_fits s) s programs h c W (fun d => mini_fits_under pol s n d W) V' E) as (c2 & E2 & X).
  split. { intros t cs. now apply (C87_answers s programs h c2). }
  intro F. assert (F2 : finished c2) by now apply (same_finished _ _ X).
  destruct (C87_buffer s programs h c2 S E2 F2) as (B1 & _ & B2 & B3). rewrite <- (proj1 X).
  split; [exact B1|]. split; [|split; [exact B2|exact B3]].
  intros t cs Et. now apply (C87_finished s programs h c2 t cs).
Qed.
Print Assumptions C87_text_any_bound.

Theorem C87_old_text_any_bound v pol s programs : shareable_old v s programs ->
  forall n h c, exec (old_use_text v pol n) (start s programs) h c ->
    (forall t cs, nth_error programs t = Some cs ->
       prefix (map fst (returns_of t h)) cs /\
       map snd (returns_of t h) = fst (old_alone v pol s (map fst (returns_of t h)))) /\
    (finished c ->
       WF (sh c) /\
       (forall t cs, nth_error programs t = Some cs -> map fst (returns_of t h) = cs) /\
       (forall t cs d x, nth_error programs t = Some cs -> In d cs -> writes_old v (fst d) x = true ->
          part x (abs (sh c)) = part x (snd (old_alone v pol s cs))) /\
       (forall x, (forall cs d, In cs programs -> In d cs -> writes_old v (fst d) x = false) -> part x (abs (sh c)) = part x (abs s))).
Proof.
  intros S n h c E. pose proof S as (W & V & _).
  assert (V' : Forall (Forall (old_fits v s)) programs). { revert V. apply Forall_impl. intro cs. apply Forall_impl. now intros u [V _]. }
  destruct (any_exec (old_use_body v pol) (old_use_text v pol n) (old_fits v s) s programs h c W (fun d => old_fits_under v pol s n d W) V' E) as (c2 & E2 & X).
  split. { intros t cs. now apply (C87_old_answers v pol s programs h c2). }
  intro F. assert (F2 : finished c2) by now apply (same_finished _ _ X).
  destruct (C87_old_buffer v pol s programs h c2 S E2 F2) as (B1 & _ & B2 & B3). rewrite <- (proj1 X).
  split; [exact B1|]. split; [|split; [exact B2|exact B3]].
  intros t cs Et. now apply (C87_old_finished v pol s programs h c2 t cs).
Qed.
Print Assumptions C87_old_text_any_bound.

(** *** The [Buffer]s of v2 and v1: C67, C73, C76 *)

Import Props_FrontRace.

Theorem C73_race_free_any_bound v pol s programs :
  WF s -> Forall (Forall (fun c => valid_call2 s c /\ has_call v c)) programs -> compatible (is_v1 v) programs ->
  forall n tr cfg,
    traced (text_call v pol n) (start s programs) tr cfg -> race_free tr.
Proof.
  intros W F C n tr cfg T.
  destruct (any_traced (model_call v pol) (text_call v pol n) (fun c => valid_call2 s c /\ has_call v c) s programs tr cfg W (fun d => old_call_under v pol s n d W) F T) as (c2 & T2).
  assert (F1 : Forall (Forall (valid_call2 s)) programs).
  { revert F. apply Forall_impl. intros cs. apply Forall_impl. tauto. }
  destruct v; cbn [model_call is_v1] in *.
  - eapply Props_Race.C72_v1_race_free; eauto. intro I. apply in_concat in I as (cs & I1 & I2).
    rewrite Forall_forall in F. specialize (F cs I1). rewrite Forall_forall in F. now destruct (F _ I2) as [_ H]; destruct (H eq_refl).
  - eapply Props_Race.C72_v2_race_free; eauto.
Qed.
Print Assumptions C73_race_free_any_bound.

Import Props_FrontConc.
Lemma v2_any pol s programs n h cfg : WF s -> all_calls programs (valid_call2 s) -> exec (running pol n) (start s programs) h cfg ->
  exists c2, exec (do2_call pol) (start s programs) h c2 /\ same c2 cfg.
Proof. intros W F. exact (any_exec (do2_call pol) (running pol n) (valid_call2 s) s programs h cfg W (fun d => v2_call_under pol s n d W) F). Qed.

Theorem C67_bits_linearizable_any_bound pol s programs :
  WF s -> mu s = false -> all_calls programs (fun c => valid_call2 s c /\ bit_call c) ->
  forall n h cfg,
    exec (running pol n) (start s programs) h cfg ->
    exists a, linearizable (seq_v2 (heap s)) (abs s) h a /\
      (quiescent cfg -> abs (sh cfg) = a /\ mu (sh cfg) = false).
Proof.
  intros W M F. assert (V : all_calls programs (valid_call2 s)). { eapply all_impl; [|exact F]. cbv beta; tauto. }
  intros n h cfg E. destruct (v2_any pol s programs n h cfg W V E) as (c2 & E2 & X).
  destruct (Props_Conc.C44_bits_linearizable pol s programs h c2 W M F E2) as (a & L & Q). exists a. split; [exact L|].
  rewrite <- (proj1 X). intros H. apply Q. now apply (same_quiescent _ _ X).
Qed.
Print Assumptions C67_bits_linearizable_any_bound.

Theorem C67_linearizable_any_bound pol s programs :
  WF s -> mu s = false -> all_calls programs (fun c => valid_call2 s c /\ atomic_call s c) ->
  forall n h cfg,
    exec (running pol n) (start s programs) h cfg ->
    exists a, linearizable (seq_v2 (heap s)) (abs s) h a /\
      (quiescent cfg -> abs (sh cfg) = a /\ (mu (sh cfg) = true -> mutex_lost h)).
Proof.
  intros W M F. assert (V : all_calls programs (valid_call2 s)). { eapply all_impl; [|exact F]. cbv beta; tauto. }
  intros n h cfg E. destruct (v2_any pol s programs n h cfg W V E) as (c2 & E2 & X).
  destruct (Props_Conc.C45_linearizable pol s programs h c2 W M F E2) as (a & L & Q). exists a. split; [exact L|].
  rewrite <- (proj1 X). intros H. apply Q. now apply (same_quiescent _ _ X).
Qed.
Print Assumptions C67_linearizable_any_bound.

Theorem C67_no_flip_lost_any_bound pol s programs :
  WF s -> mu s = false ->
  all_calls programs (fun c => exists off, c = At2 off PFlipBit /\ 0 <= off < 8 * zlen (content s)) ->
  forall n h cfg,
    exec (running pol n) (start s programs) h cfg -> finished cfg ->
    forall i, 0 <= i < 8 * zlen (content s) ->
    bit_at (content (sh cfg)) i = xorb (bit_at (content s) i) (Nat.odd (Props_Conc.flips_of i (List.concat programs))).
Proof.
  intros W M F. assert (V : all_calls programs (valid_call2 s)).
  { eapply all_impl; [|exact F]. cbv beta. intros c (off & -> & Ho). split; [|exact I].
    rewrite content_zlen in Ho by auto. pose proof (ConcV2.hdr_small s W). unfold is_i64. lia. }
  intros n h cfg E Fin i Hi. destruct (v2_any pol s programs n h cfg W V E) as (c2 & E2 & X).
  rewrite <- (proj1 X). apply (Props_Conc.C44_no_flip_lost pol s programs h c2 i W M F E2); auto.
  now apply (same_finished _ _ X).
Qed.
Print Assumptions C67_no_flip_lost_any_bound.

Theorem C67_not_torn_any_bound pol s programs t off :
  WF s -> mu s = false -> 0 <= off -> off + tsize (fmt t) <= zlen (content s) ->
  all_calls programs (fun c => c = At2 off (PRead t 1) \/ exists v, in_format (fmt t) v /\ c = At2 off (PWrite t [v])) ->
  forall n h cfg u r,
    exec (running pol n) (start s programs) h cfg ->
    In (ERet u (At2 off (PRead t 1)) r) h ->
    exists x, r = Returned (RNums x) /\
      (x = decode_all (fmt t) (content s) off 1 \/
       exists v, In (At2 off (PWrite t [v])) (List.concat programs) /\ x = [v]).
Proof.
  intros W M Ho Hl F. assert (V : all_calls programs (valid_call2 s)).
  { eapply all_impl; [|exact F]. cbv beta.
    rewrite content_zlen in Hl by auto. pose proof (ConcV2.hdr_small s W).
    assert (T : 1 <= tsize (fmt t) <= 8) by (destruct t; vm_compute; split; discriminate).
    intros c [->|(v & _ & ->)]; (split; [unfold is_i64; lia|]); cbn.
    - unfold is_i64; lia.
    - unfold wf_data, maxAlloc. change (zlen [v]) with 1. lia. }
  intros n h cfg u r E IN. destruct (v2_any pol s programs n h cfg W V E) as (c2 & E2 & _).
  exact (Props_Conc.C45_not_torn pol s programs h c2 t off u r W M Ho Hl F E2 IN).
Qed.
Print Assumptions C67_not_torn_any_bound.

Import Props_FrontConcV1.
Lemma v1_any pol s programs (P : call2 slice -> Prop) n h cfg :
  WF s -> (forall c, P c -> valid_call2 s c /\ c <> KReset) -> gor programs P -> exec (text_call V1 pol n) (start s programs) h cfg ->
  exists c2, exec (v1_call pol) (start s programs) h c2 /\ same c2 cfg.
Proof.
  intros W H F. apply (any_exec (v1_call pol) (text_call V1 pol n) (fun c => valid_call2 s c /\ has_call V1 c) s programs h cfg W (fun d => old_call_under V1 pol s n d W)).
  revert F. apply Forall_impl. intros l. apply Forall_impl. intros c X. destruct (H c X). split; auto. now intro.
Qed.

Theorem C76_text_linearizable_any_bound pol s programs :
  WF s -> mu s = false -> gor programs (fun c => valid_call2 s c /\ atomic_call1 s c) ->
  forall n h cfg,
    exec (text_call V1 pol n) (start s programs) h cfg ->
    exists a, linearizable (seq_v1 (heap s)) (abs s) h a /\
      (quiescent cfg -> abs (sh cfg) = a /\ (mu (sh cfg) = true -> mutex_lost h)).
Proof.
  intros W M F. 
  intros n h cfg E. destruct (v1_any pol s programs _ n h cfg W (not_reset s) F E) as (c2 & E2 & X).
  destruct (Props_ConcV1.C76_linearizable pol s programs h c2 W M F E2) as (a & L & Q). exists a. split; [exact L|].
  rewrite <- (proj1 X). intros H. apply Q. now apply (same_quiescent _ _ X).
Qed.
Print Assumptions C76_text_linearizable_any_bound.

Theorem C76_text_no_flip_lost_any_bound pol s programs :
  WF s -> mu s = false ->
  gor programs (fun c => exists off, c = At2 off PFlipBit /\ 0 <= off < 8 * zlen (content s)) ->
  forall n h cfg,
    exec (text_call V1 pol n) (start s programs) h cfg -> finished cfg ->
    forall i, 0 <= i < 8 * zlen (content s) ->
    bit_at (content (sh cfg)) i = xorb (bit_at (content s) i) (Nat.odd (Props_Conc.flips_of i (List.concat programs))).
Proof.
  intros W M F.
  assert (VP : forall c, ((fun c => exists off, c = At2 off PFlipBit /\ 0 <= off < 8 * zlen (content s))) c -> valid_call2 s c /\ c <> KReset).
  { intros c (off & -> & Ho). split; [|discriminate]. split; [|exact I].
    rewrite content_zlen in Ho by auto. pose proof (ConcV2.hdr_small s W). unfold is_i64. lia. }
  intros n h cfg E Fin i Hi. destruct (v1_any pol s programs _ n h cfg W VP F E) as (c2 & E2 & X).
  rewrite <- (proj1 X). apply (Props_ConcV1.C76_no_flip_lost pol s programs h c2 i W M F E2); auto.
  now apply (same_finished _ _ X).
Qed.
Print Assumptions C76_text_no_flip_lost_any_bound.

Theorem C76_text_writes_whole_any_bound pol s programs t off :
  WF s -> mu s = false -> 0 <= off -> off + tsize (fmt t) <= zlen (content s) ->
  gor programs (fun c => exists v, in_format (fmt t) v /\ c = At2 off (PWrite t [v])) ->
  forall n h cfg,
    exec (text_call V1 pol n) (start s programs) h cfg -> quiescent cfg ->
    decode_all (fmt t) (content (sh cfg)) off 1 = decode_all (fmt t) (content s) off 1 \/
    exists v, In (At2 off (PWrite t [v])) (List.concat programs) /\ decode_all (fmt t) (content (sh cfg)) off 1 = [v].
Proof.
  intros W M Ho Hl F.
  assert (VP : forall c, ((fun c => exists v, in_format (fmt t) v /\ c = At2 off (PWrite t [v]))) c -> valid_call2 s c /\ c <> KReset).
  { rewrite content_zlen in Hl by auto. pose proof (ConcV2.hdr_small s W).
    assert (T : 1 <= tsize (fmt t) <= 8) by (destruct t; vm_compute; split; discriminate).
    intros c (v & _ & ->). split; [|discriminate]. split; [unfold is_i64; lia|]. cbn.
    unfold wf_data, maxAlloc. change (zlen [v]) with 1. lia. }
  intros n h cfg E Q. destruct (v1_any pol s programs _ n h cfg W VP F E) as (c2 & E2 & X).
  rewrite <- (proj1 X). apply (Props_ConcV1.C76_writes_whole pol s programs h c2 t off W M Ho Hl F E2).
  now apply (same_quiescent _ _ X).
Qed.
Print Assumptions C76_text_writes_whole_any_bound.
