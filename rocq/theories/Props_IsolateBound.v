(** * Props_IsolateBound: C84 and C85 of the Go text, at every bound of the interpreter. *)
From Coq Require Import ZArith List Bool Lia Arith.
From Verif Require Import GoSem Errors Spec Calls Abs History MiniHistory Conc Race IsolateSpec Isolate IsolateText Props_Isolate Props_IsolateText
  Enough FrontOldCalls WorkSpec Props_Work Bound TextWeak IsolateBound.
Import ListNotations.
Open Scope Z_scope.
Open Scope list_scope.

Lemma any_works pol c0 n sch tr c : opened c0 -> works (job_text pol n) c0 sch tr c ->
  exists c1, works (job_body pol) c0 sch tr c1 /\ near (fun k j => under (job_text pol n k j) (job_body pol k j)) c c1.
Proof.
  intros O W. eapply (near_works (job_body pol) (job_text pol n)); eauto using text_near.
Qed.

(** At every bound, no byte that one goroutine writes is touched by another. *)
Theorem C84_text_no_conflict_any_bound pol own c0 : exclusive own -> at_home own c0 -> opened c0 ->
  forall n sch tr c t u a a' b i, works (job_text pol n) c0 sch tr c ->
  In (t, a) tr -> In (u, a') tr -> t <> u -> writes a (LByte b i) -> reads a' (LByte b i) \/ writes a' (LByte b i) -> False.
Proof.
  intros X H O n sch tr c t u a a' b i W. destruct (any_works pol c0 n sch tr c O W) as (c1 & W1 & _).
  exact (C84_no_conflict pol own c0 sch tr c1 t u a a' b i X H O W1).
Qed.
Print Assumptions C84_text_no_conflict_any_bound.

(** The bytes that nobody has stay as they are. *)
Theorem C84_text_nobodys_bytes_any_bound pol own c0 : exclusive own -> at_home own c0 -> opened c0 ->
  forall n sch tr c b i, works (job_text pol n) c0 sch tr c ->
  (b < length (memory c0))%nat -> 0 <= i -> (forall t, ~ own t b i) -> byte_in (memory c) b i = byte_in (memory c0) b i.
Proof.
  intros X H O n sch tr c b i W. destruct (any_works pol c0 n sch tr c O W) as (c1 & W1 & [E _]). rewrite E.
  exact (C84_nobodys_bytes pol own c0 sch tr c1 b i X H O W1).
Qed.
Print Assumptions C84_text_nobodys_bytes_any_bound.

(** One number of steps that no schedule exceeds, at any bound. *)
Theorem C84_text_ends_any_bound pol own c0 : exclusive own -> at_home own c0 -> opened c0 ->
  exists B, forall n sch tr c, works (job_text pol n) c0 sch tr c -> (length sch <= B)%nat.
Proof.
  intros X H O. destruct (C84_ends pol own c0 X H O) as [B HB]. exists B. intros n sch tr c W.
  destruct (any_works pol c0 n sch tr c O W) as (c1 & W1 & _). eauto.
Qed.
Print Assumptions C84_text_ends_any_bound.

(** The answers are those of the run alone, in which no call is cut short: the one at
    the bounds [m] that are large enough. *)
Theorem C84_text_same_answers_any_bound pol own c0 : exclusive own -> at_home own c0 -> opened c0 ->
  exists N, forall m, (N <= m)%nat -> forall n sch tr c t w0 w, works (job_text pol n) c0 sch tr c ->
  nth_error (workers c0) t = Some w0 -> nth_error (workers c) t = Some w ->
  exists rest, fst (alone (job_text pol m) (w_sort w0) (sees (memory c0) w0) (w_todo w0)) = w_done w ++ rest.
Proof.
  intros X H O. destruct (text_twin pol own c0 X H O) as [N HN]. exists N. intros m Hm n sch tr c t w0 w W E0 E. destruct (HN m Hm) as [_ AL].
  destruct (any_works pol c0 n sch tr c O W) as (c1 & W1 & [_ F]). destruct (Forall2_nth _ _ _ _ _ F E) as (w1 & E1 & A).
  rewrite Forall_forall in AL. rewrite (AL w0 (nth_error_In _ _ E0)). destruct A as (_ & _ & _ & _ & _ & -> & _).
  eapply C84_same_answers; eauto.
Qed.
Print Assumptions C84_text_same_answers_any_bound.

(** And so is the end, for a goroutine that comes to it. *)
Theorem C84_text_same_end_any_bound pol own c0 : exclusive own -> at_home own c0 -> opened c0 ->
  exists N, forall m, (N <= m)%nat -> forall n sch tr c t w0 w, works (job_text pol n) c0 sch tr c ->
  nth_error (workers c0) t = Some w0 -> nth_error (workers c) t = Some w -> finished w ->
  exists s, alone (job_text pol m) (w_sort w0) (sees (memory c0) w0) (w_todo w0) = (w_done w, Some s) /\
    same_buffer s (sees (memory c) w) /\
    forall b i, (b < length (memory c0))%nat -> 0 <= i -> may_see own t b i -> byte_in (heap s) b i = byte_in (memory c) b i.
Proof.
  intros X H O. destruct (text_twin pol own c0 X H O) as [N HN]. exists N. intros m Hm n sch tr c t w0 w W E0 E Fin. destruct (HN m Hm) as [_ AL].
  destruct (any_works pol c0 n sch tr c O W) as (c1 & W1 & [EM F]). destruct (Forall2_nth _ _ _ _ _ F E) as (w1 & E1 & A).
  rewrite Forall_forall in AL. rewrite (AL w0 (nth_error_In _ _ E0)). destruct A as (_ & A2 & A3 & A4 & A5 & A6 & _ & _ & A7).
  unfold sees at 2. rewrite EM, A2, A3, A4, A6. apply (C84_same_end pol own c0 sch tr c1 t w0 w1); auto.
  destruct Fin as [F1 F2]. split; [|now rewrite <- A5]. rewrite F1 in A7. destruct (w_cur w1); [contradiction|reflexivity].
Qed.
Print Assumptions C84_text_same_end_any_bound.

(** The five goroutines of Props_Isolate.v meet the conditions, and the text takes
    their whole schedule at every bound that is large enough (C84_text_crowd); so two
    bounds give the same answers. *)
Example C84_any_bound_case :
  exclusive crowd_own /\ at_home crowd_own crowd /\ opened crowd /\
  exists N, forall n, (N <= n)%nat -> exists sch tr c, works (job_text policy n) crowd sch tr c /\ alike after c.
Proof. destruct C84_crowd_fits as (X & H & O). repeat (split; [assumption|]). exact C84_text_crowd. Qed.

(** ** The work of a call (C85) *)

Lemma under_accesses {A} (p q : prog A) : under p q -> forall s, short (b_buf (bb s)) -> accesses p s <= accesses q s.
Proof.
  induction 1; intros st SH; cbn [accesses]; try lia; try apply accesses_nonneg;
    try (match goal with IH : forall x, short x -> _ |- _ => specialize (IH (b_buf (bb st)) SH st SH); lia end);
    try (match goal with IH : forall s, short _ -> accesses ?k s <= _ |- 1 + accesses ?k ?s' <= _ => specialize (IH s'); cbn in IH; specialize (IH ltac:(assumption)); lia end).
  - match goal with IH : forall x s, _ |- _ => specialize (IH (get_fld (bb st) f) st SH); lia end.
  - specialize (IHunder (set_bb st (upd_fld (bb st) f v))). destruct f; cbn in *; specialize (IHunder SH); lia.
  - destruct (heap_read (heap st) b i 1) as [[|w [|? ?]]|]; try lia; match goal with IH : forall x s, _ |- _ => specialize (IH w st SH); lia end.
  - destruct (heap_write _ _ _ _) as [h|]; try lia. specialize (IHunder (set_heap st h) SH). lia.
  - destruct (heap_read _ _ _ _) as [d|]; try lia. destruct (heap_write _ _ _ _) as [h|]; try lia. specialize (IHunder (set_heap st h) SH). lia.
  - match goal with IH : forall x s, _ |- _ => specialize (IH (length (heap st)) (set_heap st (heap st ++ [l])) SH); lia end.
  - match goal with IH : forall x s, _ |- _ => specialize (IH (outs st) st SH); lia end.
  - destruct (mu st); try lia. specialize (IHunder (set_mu st true) SH). lia.
  - destruct (mu st); try lia. specialize (IHunder (set_mu st false) SH). lia.
Qed.

(** At every bound the work of a call is linear in what it names. *)
Theorem C85_text_linear_any_bound pol k s j n : WF s -> valid_job k s j ->
  accesses (job_text pol n k j) (set_outs s (job_out j)) <= 20 + 10 * volume pol s j.
Proof.
  intros W V. transitivity (accesses (job_body pol k j) (set_outs s (job_out j))).
  - apply under_accesses; [eapply job_under; [apply W|exact V]|]. apply (wf_slice_short (heap s)); apply W.
  - rewrite <- (volume_outs pol s (job_out j)). apply (C85_linear pol k); [now apply WF_outs|].
    apply (valid_grows k s); [apply grows_refl|exact V].
Qed.
Print Assumptions C85_text_linear_any_bound.
