(** * Props_IsolateText: C84 of the Go text.

    [job_text pol n k j] (IsolateText.v) is what the interpreter of GoEval.v makes of
    the call [j] in the source of the type [k], with the nesting of calls and loop
    rounds bounded by [n].  For the goroutines and their calls there is one bound
    above which the statements hold for every schedule. *)
From Coq Require Import ZArith List Bool Lia Arith.
From Verif Require Import GoSem Errors Spec Calls Abs History MiniHistory Conc Race IsolateSpec Isolate IsolateText Props_Isolate.
Import ListNotations.
Open Scope Z_scope.
Open Scope list_scope.

Lemma alike1_waits w w' : alike1 w w' -> waits w -> waits w'.
Proof. intros (_ & _ & _ & _ & _ & _ & _ & H). apply H. Qed.
Lemma alike1_finished w w' : alike1 w w' -> finished w' <-> finished w.
Proof. intros (_ & _ & _ & _ & A & _ & B & _). unfold finished. rewrite A, B. tauto. Qed.

(** C84, the text: the answers are those of the run alone. *)
Theorem C84_text_same_answers pol own c0 : exclusive own -> at_home own c0 -> opened c0 ->
  exists N, forall n, (N <= n)%nat -> forall sch tr c t w0 w, works (job_text pol n) c0 sch tr c ->
  nth_error (workers c0) t = Some w0 -> nth_error (workers c) t = Some w ->
  exists rest, fst (alone (job_text pol n) (w_sort w0) (sees (memory c0) w0) (w_todo w0)) = w_done w ++ rest.
Proof.
  intros X H O. destruct (text_twin pol own c0 X H O) as [N HN]. exists N. intros n Hn sch tr c t w0 w W E0 E. destruct (HN n Hn) as [T AL].
  destruct (twin_works _ _ _ _ _ _ _ T W) as (c1 & W1 & T1). destruct (alike_nth _ _ _ _ (twin_alike _ _ _ _ T1) E) as (w1 & E1 & A).
  rewrite Forall_forall in AL. rewrite (AL w0 (nth_error_In _ _ E0)). destruct A as (_ & _ & _ & _ & _ & <- & _).
  eapply C84_same_answers; eauto.
Qed.
Print Assumptions C84_text_same_answers.

(** C84, the text: the end is that of the run alone. *)
Theorem C84_text_same_end pol own c0 : exclusive own -> at_home own c0 -> opened c0 ->
  exists N, forall n, (N <= n)%nat -> forall sch tr c t w0 w, works (job_text pol n) c0 sch tr c ->
  nth_error (workers c0) t = Some w0 -> nth_error (workers c) t = Some w -> finished w ->
  exists s, alone (job_text pol n) (w_sort w0) (sees (memory c0) w0) (w_todo w0) = (w_done w, Some s) /\
    same_buffer s (sees (memory c) w) /\
    forall b i, (b < length (memory c0))%nat -> 0 <= i -> may_see own t b i -> byte_in (heap s) b i = byte_in (memory c) b i.
Proof.
  intros X H O. destruct (text_twin pol own c0 X H O) as [N HN]. exists N. intros n Hn sch tr c t w0 w W E0 E F. destruct (HN n Hn) as [T AL].
  destruct (twin_works _ _ _ _ _ _ _ T W) as (c1 & W1 & T1). pose proof (twin_alike _ _ _ _ T1) as A1. destruct (alike_nth _ _ _ _ A1 E) as (w1 & E1 & A).
  rewrite Forall_forall in AL. rewrite (AL w0 (nth_error_In _ _ E0)). rewrite (alike_sees _ _ _ _ A1 A), <- (proj1 A1).
  apply (alike1_finished _ _ A) in F. destruct A as (_ & _ & _ & _ & _ & <- & _). eapply C84_same_end; eauto.
Qed.
Print Assumptions C84_text_same_end.

(** C84, the text: no byte that one goroutine writes is touched by another. *)
Theorem C84_text_no_conflict pol own c0 : exclusive own -> at_home own c0 -> opened c0 ->
  exists N, forall n, (N <= n)%nat -> forall sch tr c t u a a' b i, works (job_text pol n) c0 sch tr c ->
  In (t, a) tr -> In (u, a') tr -> t <> u -> writes a (LByte b i) -> reads a' (LByte b i) \/ writes a' (LByte b i) -> False.
Proof.
  intros X H O. destruct (text_twin pol own c0 X H O) as [N HN]. exists N. intros n Hn sch tr c t u a a' b i W. destruct (HN n Hn) as [T _].
  destruct (twin_works _ _ _ _ _ _ _ T W) as (c1 & W1 & _). exact (C84_no_conflict pol own c0 sch tr c1 t u a a' b i X H O W1).
Qed.
Print Assumptions C84_text_no_conflict.

(** C84, the text: the bytes that nobody has stay as they are. *)
Theorem C84_text_nobodys_bytes pol own c0 : exclusive own -> at_home own c0 -> opened c0 ->
  exists N, forall n, (N <= n)%nat -> forall sch tr c b i, works (job_text pol n) c0 sch tr c ->
  (b < length (memory c0))%nat -> 0 <= i -> (forall t, ~ own t b i) -> byte_in (memory c) b i = byte_in (memory c0) b i.
Proof.
  intros X H O. destruct (text_twin pol own c0 X H O) as [N HN]. exists N. intros n Hn sch tr c b i W. destruct (HN n Hn) as [T _].
  destruct (twin_works _ _ _ _ _ _ _ T W) as (c1 & W1 & T1). rewrite <- (proj1 (twin_alike _ _ _ _ T1)). exact (C84_nobodys_bytes pol own c0 sch tr c1 b i X H O W1).
Qed.
Print Assumptions C84_text_nobodys_bytes.

(** C84, the text: a goroutine can go on unless it would wait alone. *)
Theorem C84_text_nobody_waits_for_another pol own c0 : exclusive own -> at_home own c0 -> opened c0 ->
  exists N, forall n, (N <= n)%nat -> forall sch tr c t w0 w, works (job_text pol n) c0 sch tr c ->
  nth_error (workers c0) t = Some w0 -> nth_error (workers c) t = Some w ->
  finished w \/ (exists m w', wstep (job_text pol n) (memory c) w m w') \/
  (waits w /\ alone (job_text pol n) (w_sort w0) (sees (memory c0) w0) (w_todo w0) = (w_done w, None)).
Proof.
  intros X H O. destruct (text_twin pol own c0 X H O) as [N HN]. exists N. intros n Hn sch tr c t w0 w W E0 E. destruct (HN n Hn) as [T AL].
  destruct (twin_works _ _ _ _ _ _ _ T W) as (c1 & W1 & T1). pose proof (twin_alike _ _ _ _ T1) as A1. destruct (alike_nth _ _ _ _ A1 E) as (w1 & E1 & A).
  rewrite Forall_forall in AL. rewrite (AL w0 (nth_error_In _ _ E0)).
  destruct (C84_nobody_waits_for_another pol own c0 sch tr c1 t w0 w1 X H O W1 E0 E1) as [F|[(m & w' & S)|[F1 F2]]].
  - left. now apply (alike1_finished _ _ A).
  - right. left. destruct T1 as [_ _ ST]. destruct (ST t w1 w E1 E) as [_ YES]. apply wnext_step in S. destruct (YES _ _ S) as (w2 & S2 & _).
    exists m, w2. now apply wnext_step.
  - right. right. split; [now apply (alike1_waits w1)|]. destruct A as (_ & _ & _ & _ & _ & <- & _). exact F2.
Qed.
Print Assumptions C84_text_nobody_waits_for_another.

(** C84, the text: no schedule goes on for ever. *)
Theorem C84_text_ends pol own c0 : exclusive own -> at_home own c0 -> opened c0 ->
  exists N B, forall n, (N <= n)%nat -> forall sch tr c, works (job_text pol n) c0 sch tr c -> (length sch <= B)%nat.
Proof.
  intros X H O. destruct (text_twin pol own c0 X H O) as [N HN]. destruct (C84_ends pol own c0 X H O) as [B HB]. exists N, B. intros n Hn sch tr c W.
  destruct (HN n Hn) as [T _]. destruct (twin_works _ _ _ _ _ _ _ T W) as (c1 & W1 & _). eauto.
Qed.
Print Assumptions C84_text_ends.

(** The five goroutines of Props_Isolate.v, running the text: the schedule there is
    also one of theirs, and ends alike. *)
Example C84_text_crowd : exists N, forall n, (N <= n)%nat -> exists sch tr c, works (job_text policy n) crowd sch tr c /\ alike after c.
Proof.
  destruct C84_crowd_fits as (X & H & O). destruct (text_twin policy crowd_own crowd X H O) as [N HN]. exists N. intros n Hn. destruct (HN n Hn) as [T _].
  destruct C84_crowd_works as (sch & tr & W). exists sch, tr. clear - W T. revert T W. generalize crowd as c, after as c'. intros c c' T W.
  assert (R : exists d, works (job_text policy n) c sch tr d /\ twin (job_body policy) (job_text policy n) c' d).
  { induction W as [|sch tr c1 t w m w' W IH E S].
    - exists c. split; [constructor|exact T].
    - destruct IH as (d & W2 & T2). destruct T2 as [AL AC ST]. assert (L : exists v, nth_error (workers d) t = Some v).
      { destruct AL as [_ F]. clear - F E. revert t E. induction F; intros [|t] E; try discriminate E; cbn in *; eauto. }
      destruct L as [v Ev]. apply wnext_step in S. destruct (ST t w v E Ev) as [_ YES]. destruct (YES m w' S) as (v' & S' & T').
      eexists. split; [|exact T']. rewrite AC. eapply wk_step; eauto. now apply wnext_step. }
  destruct R as (d & W' & T'). exists d. split; [exact W'|exact (twin_alike _ _ _ _ T')].
Qed.
