(** * Props_FrontRace: data races of goroutines that run the Go text of v1 and v2 (C73).

    The theorems of Props_Race.v about the text of v1/buffer.go and v2/buffer.go:
    [text_call v pol n c] is what the interpreter of GoEval.v makes of the call [c],
    with the nesting of calls and loop rounds bounded by [n].  For a starting state
    and the calls of each goroutine there is one bound above which the statements
    hold, for every schedule. *)
From Coq Require Import ZArith List Bool String Lia.
From Verif Require Import GoSem Errors GoParse Conv GoEval Front Tables FrontCalls.
From Verif Require Import Spec GoLemmas Calls Abs History OldCalls V1Lemmas V1Calls Abs2 Sim2 Hist2 Witness Conc ConcSpec ConcSched.
From Verif Require Import Race RaceSpec FrontOldCalls Enough FrontConc Props_Abs2 Props_Race.
Import ListNotations.
Open Scope Z_scope.
Open Scope list_scope.

Definition text_call (v : version) (pol : Z -> Z -> Z) (n : nat) (c : call2 slice) : prog (rv slice) :=
  go_body (old_program v) pol n (old_go_call v c).
Definition is_v1 (v : version) : bool := match v with V1 => true | V2 => false end.
(** v1 has no Reset. *)
Definition has_call (v : version) (c : call2 slice) : Prop := v = V1 -> c <> KReset.

Definition model_call (v : version) (pol : Z -> Z -> Z) : call2 slice -> prog (rv slice) :=
  match v with V1 => v1_call pol | V2 => do2_call pol end.

Lemma do1_call_enough pol s c p : wf_heap (heap s) -> valid_call2 s c -> do1_call pol c = Some p -> enough any p.
Proof.
  intros W V E. apply (valid2_exists _ _ W) in V. revert V.
  destruct c as [off o|o| | | |off r|off r|off|off| | |n| | | | | | |]; cbn [go_call2 go_other2 do1_call snd] in *;
    try discriminate E; injection E as <-;
    try destruct o; cbn [go_op2 snd do1_at do1_next]; try match goal with t : uty |- _ => destruct t end;
    intros H; args_tac H; cbn [idata_of] in *; enough_tac.
Qed.

Lemma text_same v pol s programs :
  WF s -> Forall (Forall (fun c => valid_call2 s c /\ has_call v c)) programs ->
  exists N, forall n, (N <= n)%nat -> matched (model_call v pol) (text_call v pol n) (start s programs) (start s programs).
Proof.
  intros W F. apply (matched_start (model_call v pol) (text_call v pol) (fun c => valid_call2 s c /\ has_call v c)).
  - intros c [_ H]. unfold text_call. rewrite old_program_text. apply body_conv.
    destruct v; cbn [old_package old_go_call model_call].
    + apply do1_call_text. unfold v1_call. destruct c; try reflexivity. now destruct (H eq_refl).
    + apply do2_call_text.
  - intros c [V H]. destruct v; cbn [model_call].
    + unfold v1_call. destruct (do1_call pol c) as [p|] eqn:E; [|exact I]. eapply do1_call_enough; [|exact V|exact E]. apply W.
    + apply do2_call_enough. eapply valid2_exists; [|exact V]. apply W.
  - apply (wf_slice_short (heap s)); apply W.
  - exact F.
Qed.

(** Compatible calls do not race. *)
Theorem C73_race_free v pol s programs :
  WF s -> Forall (Forall (fun c => valid_call2 s c /\ has_call v c)) programs -> compatible (is_v1 v) programs ->
  exists N, forall n, (N <= n)%nat -> forall tr cfg,
    traced (text_call v pol n) (start s programs) tr cfg -> race_free tr.
Proof.
  intros W F C. destruct (text_same v pol s programs W F) as [N HN]. exists N. intros n Hn tr cfg T.
  destruct (matched_traced' _ _ _ _ _ _ (HN n Hn) T) as (c2 & T2 & _).
  assert (F1 : Forall (Forall (valid_call2 s)) programs).
  { revert F. apply Forall_impl. intros cs. apply Forall_impl. tauto. }
  destruct v; cbn [model_call is_v1] in *.
  - eapply C72_v1_race_free; eauto. intro I. apply in_concat in I as (cs & I1 & I2).
    rewrite Forall_forall in F. specialize (F cs I1). rewrite Forall_forall in F. now destruct (F _ I2) as [_ H]; destruct (H eq_refl).
  - eapply C72_v2_race_free; eauto.
Qed.
Print Assumptions C73_race_free.

(** Positional calls; one goroutine may use the offsets.  Or calls that only read. *)
Theorem C73_common_uses v pol s programs :
  WF s -> Forall (Forall (valid_call2 s)) programs -> allowed (is_v1 v) programs ->
  exists N, forall n, (N <= n)%nat -> forall tr cfg,
    traced (text_call v pol n) (start s programs) tr cfg -> race_free tr.
Proof.
  intros W F A. apply C73_race_free; auto using allowed_compatible.
  apply Forall_forall. intros cs I. apply Forall_forall. intros c J. split.
  - rewrite Forall_forall in F. specialize (F cs I). rewrite Forall_forall in F. auto.
  - intros -> ->. destruct A as [[t0 A]|A].
    + apply In_nth_error in I as [t E]. specialize (A t cs E). rewrite Forall_forall in A. specialize (A _ J).
      destruct (Nat.eqb t t0); exact A.
    + rewrite Forall_forall in A. specialize (A cs I). rewrite Forall_forall in A. exact (A _ J).
Qed.
Print Assumptions C73_common_uses.

(** All others race. *)
Theorem C73_conflicting_calls_race v pol c d :
  has_call v c -> has_call v d -> conflicting (is_v1 v) c d ->
  exists N, forall n, (N <= n)%nat -> exists tr cfg,
    traced (text_call v pol n) (start shared [[typical c]; [typical d]]) tr cfg /\ ~ race_free tr.
Proof.
  intros C D X. destruct C72_shared as (W & _ & V).
  destruct (text_same v pol shared [[typical c]; [typical d]] W) as [N HN].
  { assert (K : forall e, has_call v e -> has_call v (typical e)).
    { intros e E Ev. specialize (E Ev). destruct e as [? ?|?| | | |? ?|? ?|[]|[]| | |?| | | | | | |]; try discriminate. exact E. }
    repeat constructor; auto. }
  exists N. intros n Hn.
  assert (R : racing (model_call v pol) c d).
  { destruct v; [apply C72_v1_conflicting_calls_race|apply C72_v2_conflicting_calls_race]; auto. }
  destruct R as (tr & cfg & T & NF). destruct (matched_traced _ _ _ _ _ _ (HN n Hn) T) as (c2 & T2 & _). eauto.
Qed.
Print Assumptions C73_conflicting_calls_race.

(** The hypotheses are met by the four goroutines of Props_Race.v, and by two
    goroutines that read with ReadByteNext. *)
Example C73_case v :
  WF shared /\ Forall (Forall (fun c => valid_call2 shared c /\ has_call v c)) four_users /\
  compatible (is_v1 v) four_users /\ conflicting (is_v1 v) (Next2 PReadByte) (Next2 PReadByte).
Proof.
  destruct C72_case as (W & V & A2 & A1 & _). split; [exact W|]. split.
  - apply Forall_forall. intros cs I. apply Forall_forall. intros c J. split.
    + rewrite Forall_forall in V. specialize (V cs I). rewrite Forall_forall in V. auto.
    + intros _ ->. cbn in I. repeat destruct I as [<-|I]; try contradiction; cbn in J; repeat destruct J as [J|J]; try discriminate; contradiction.
  - split; [apply allowed_compatible; destruct v; assumption|]. exists (Field FOff). split; now left.
Qed.
