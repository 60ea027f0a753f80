(** * Props_Work: the work of a call is linear in what it names.

    For every type of every version, about the models and about the Go text.  The
    counting is in WorkSpec.v. *)
From Coq Require Import ZArith List Bool Lia Arith ZifyBool.
From Verif Require Import GoSem Errors GoLemmas Conv GoEval Front Tables Spec FrontCalls FrontMiniCalls.
From Verif Require Import V1Lemmas Typed Calls Abs MiniAbs History MiniHistory OldCalls V1Calls Abs2 V2Lemmas Sim Sim2 MiniAbs2 AllocSpec AllocLemmas IsolateSpec Isolate IsolateText WorkSpec Work WorkV3 WorkOld WorkGrow.
Import ListNotations.
Open Scope Z_scope.
Open Scope list_scope.

Lemma volume_outs pol s o j : volume pol (set_outs s o) j = volume pol s j.
Proof. reflexivity. Qed.
Lemma volume_nonneg pol k s j : WF s -> valid_job k s j -> 0 <= volume pol s j.
Proof.
  intros W V. pose proof (room_used s W) as U.
  assert (T : forall t, 0 <= tsize t) by (intros []; vm_compute; discriminate).
  assert (A : forall t n, 0 <= tsize t * at_least_one n) by (intros t n; specialize (T t); unfold at_least_one; nia).
  assert (L : forall d, wf_arg s d -> 0 <= s_len d) by (unfold wf_arg, wf_slice; intros; lia).
  destruct k as [| |v|v], j as [c o|c o]; cbn [valid_job] in V; try contradiction;
    try (assert (valid_call s c) by (unfold valid_mini in V; tauto)); try (assert (valid_call2 s c) by (unfold valid_old_mini in V; tauto));
    destruct c; cbn [volume valid_call valid_call2] in *; unfold grown3, grown_old; try lia;
    try (match goal with q : opn slice |- _ => destruct q | q : op2 slice |- _ => destruct q end; cbn [names3 names_old valid_opn valid_op2] in *; unfold at_least_one in *; auto; try lia; try (apply L; tauto));
    unfold at_least_one; try (destruct (_ && _) eqn:E; lia); try lia.
Qed.

(** C85: a call of any method of any type, in any state and with any arguments,
    makes at most twenty accesses and ten for each bit or byte it names, whether it
    returns or panics.  In particular the work of a read or a write does not depend
    on how large the buffer is, and [ReadBytes] copies nothing. *)
Theorem C85_linear pol k s j : WF s -> valid_job k s j ->
  accesses (job_body pol k j) s <= 20 + 10 * volume pol s j.
Proof.
  intros W V. pose proof (volume_nonneg pol k s j W V) as P.
  destruct k as [| |v|v], j as [c o|c o]; cbn [valid_job] in V; try contradiction; cbn [job_body].
  - destruct (local3 c) eqn:L; [pose proof (cheap_sound _ _ _ s (local_buf3 pol s c o L V)); lia|].
    destruct c; try discriminate; try (edestruct (whole3 pol s) as [H _]; [exact L|discriminate|exact W|]; cbn [job_body] in *; instantiate (1 := o) in H; lia).
    destruct (grow3 pol s n o V W). lia.
  - destruct (local3 c) eqn:L; [pose proof (cheap_sound _ _ _ s (local_mini3 pol s c o L V)); lia|].
    destruct V as [_ [V _]].
    destruct c; try discriminate; try (edestruct (whole3 pol s) as [_ H]; [exact L|discriminate|exact W|]; instantiate (1 := o) in H; lia).
    destruct (grow3 pol s n o V W). lia.
  - destruct V as [V V1].
    assert (LOC : local_old c = true -> accesses (job_body pol (BufOld v) (J2 c o)) s <= 20 + 10 * volume pol s (J2 c o)).
    { intros L. destruct v; cbn [job_body].
      - destruct (do1_call pol c) as [p|] eqn:E; [exact (cheap_sound _ _ _ s (local_buf1 pol s c o p L V E))|].
        exfalso. destruct c; try discriminate. now apply V1.
      - exact (cheap_sound _ _ _ s (local_buf2 pol s c o L V)). }
    destruct (local_old c) eqn:L; [exact (LOC eq_refl)|].
    destruct c; try discriminate;
      try (destruct (fun X => whole_old v pol s _ o L X W) as [H _]; [discriminate|exact H]).
    now destruct (grow_old v pol s n o V W).
  - destruct (local_old c) eqn:L; [exact (cheap_sound _ _ _ s (local_mini_old v pol s c o L V))|].
    destruct V as [_ [V _]].
    destruct c; try discriminate;
      try (destruct (fun X => whole_old v pol s _ o L X W) as [_ H]; [discriminate|exact H]).
    now destruct (grow_old v pol s n o V W).
Qed.
Print Assumptions C85_linear.

(** The same about the Go text. *)
Lemma conv_accesses {A B} (R : A -> B -> Prop) T : forall P s,
  conv R T P -> run T s <> Stuck -> exists N, forall n, (N <= n)%nat -> accesses (P n) s = accesses T s.
Proof.
  conv_cases T IH; intros P st; cbn [conv run accesses]; intros H HS; try congruence.
  - destruct H as [M [b [Hb H]]]. exists M. intros n Hn. now rewrite H.
  - destruct H as [M H]. exists M. intros n Hn. now rewrite H.
  - destruct H as [M [K [HK H]]]. destruct (IH _ (fun n => K n (b_buf (bb st))) st (H _) HS) as [N HN].
    exists (M + N)%nat. intros n Hn. rewrite HK by lia. cbn [accesses]. now rewrite HN by lia.
  - destruct H as [M [K [HK H]]]. destruct (IH K _ H HS) as [N HN].
    exists (M + N)%nat. intros n Hn. rewrite HK by lia. cbn [accesses]. now rewrite HN by lia.
  - destruct H as [M [K [HK H]]]. destruct (IH _ (fun n => K n (get_fld (bb st) fd)) st (H _) HS) as [N HN].
    exists (M + N)%nat. intros n Hn. rewrite HK by lia. cbn [accesses]. now rewrite HN by lia.
  - destruct H as [M [K [HK H]]]. destruct (IH K _ H HS) as [N HN].
    exists (M + N)%nat. intros n Hn. rewrite HK by lia. cbn [accesses]. now rewrite HN by lia.
  - destruct H as [M [K [HK H]]]. destruct (heap_read (heap st) bk i 1) as [[|x [|]]|] eqn:E; try congruence.
    destruct (IH x (fun n => K n x) st (H _) HS) as [N HN].
    exists (M + N)%nat. intros n Hn. rewrite HK by lia. cbn [accesses]. rewrite E. now rewrite HN by lia.
  - destruct H as [M [K [HK H]]]. destruct (heap_write (heap st) bk i [v]) as [h|] eqn:E; try congruence.
    destruct (IH K _ H HS) as [N HN].
    exists (M + N)%nat. intros n Hn. rewrite HK by lia. cbn [accesses]. rewrite E. now rewrite HN by lia.
  - destruct H as [M [K [HK H]]]. destruct (heap_read (heap st) sb si c') as [d|] eqn:E; try congruence.
    destruct (heap_write (heap st) db di d) as [h|] eqn:E2; try congruence.
    destruct (IH K _ H HS) as [N HN].
    exists (M + N)%nat. intros n Hn. rewrite HK by lia. cbn [accesses]. rewrite E, E2. now rewrite HN by lia.
  - destruct H as [M [K [HK H]]]. destruct (IH _ (fun n => K n (length (heap st))) _ (H _) HS) as [N HN].
    exists (M + N)%nat. intros n Hn. rewrite HK by lia. cbn [accesses]. now rewrite HN by lia.
  - destruct H as [M [K [HK H]]]. destruct (IH _ (fun n => K n (outs st)) st (H _) HS) as [N HN].
    exists (M + N)%nat. intros n Hn. rewrite HK by lia. cbn [accesses]. now rewrite HN by lia.
  - destruct H as [M [K [HK H]]]. destruct (IH K _ H HS) as [N HN].
    exists (M + N)%nat. intros n Hn. rewrite HK by lia. cbn [accesses]. now rewrite HN by lia.
  - destruct H as [M [K [HK H]]]. destruct (mu st) eqn:E.
    + exists M. intros n Hn. rewrite HK by lia. cbn [accesses]. now rewrite E.
    + destruct (IH K _ H HS) as [N HN]. exists (M + N)%nat. intros n Hn. rewrite HK by lia. cbn [accesses]. rewrite E. now rewrite HN by lia.
  - destruct H as [M [K [HK H]]]. destruct (mu st) eqn:E; [|congruence].
    destruct (IH K _ H HS) as [N HN]. exists (M + N)%nat. intros n Hn. rewrite HK by lia. cbn [accesses]. rewrite E. now rewrite HN by lia.
Qed.

(** C85: the same about the Go text, interpreted with a large enough bound on the
    nesting of calls and loop rounds. *)
Theorem C85_text_linear pol k s j : WF s -> valid_job k s j ->
  exists N, forall n, (N <= n)%nat ->
    accesses (job_text pol n k j) (set_outs s (job_out j)) <= 20 + 10 * volume pol s j.
Proof.
  intros W V. pose proof (job_safe pol k s j W V) as S.
  destruct (conv_accesses eq _ _ (set_outs s (job_out j)) (job_conv pol s k j V)) as [N HN].
  { intro X. now rewrite X in S. }
  exists N. intros n Hn. rewrite HN by exact Hn. rewrite <- (volume_outs pol s (job_out j)). apply (C85_linear pol k); [now apply WF_outs|].
  apply (valid_grows k s); [apply grows_refl|exact V].
Qed.
Print Assumptions C85_text_linear.

(** ** Many calls on a v3 buffer *)

Lemma step_paid pol k s j s' : k = Buf3 \/ k = Mini3 -> WF s -> valid_job k s j ->
  (match run (job_body pol k j) (set_outs s (job_out j)) with Done _ s1 | Panicked _ s1 => s1 = s' | _ => False end) ->
  accesses (job_body pol k j) (set_outs s (job_out j)) + 2 * owed s' <= 20 + 12 * plain s j + 2 * owed s.
Proof.
  intros K W V R. set (s0 := set_outs s (job_out j)) in *.
  assert (W0 : WF s0) by (now apply WF_outs). assert (V0 : valid_job k s0 j) by (apply (valid_grows k s); [apply grows_refl|exact V]).
  pose proof (C85_linear pol k s0 j W0 V0) as L. pose proof (volume_nonneg pol k s0 j W0 V0) as P.
  change (volume pol s0 j) with (volume pol s j) in *. change (owed s) with (owed s0).
  destruct K as [->| ->], j as [c o|c o]; cbn [valid_job] in V0; try contradiction; cbn [job_body job_out] in *.
  - assert (X : exists a, exec1 (History.ECall c) s0 = Some (a, s')).
    { cbn [exec1]. destruct (run (do_call c) s0); try contradiction; subst; eexists; reflexivity. }
    destruct X as [a X]. pose proof (event_paid (History.ECall c) _ _ _ W0 V0 X) as Y. destruct (event_room (History.ECall c) _ _ _ W0 V0 X) as [B _].
    unfold AllocSpec.memory in Y. rewrite B, !total_app in Y.
    destruct c as [off q|q| | | |off r|off r|off|off| | |n|n|n| | | | | | |]; cbn [AllocSpec.grows asks plain volume AllocSpec.total fold_right] in *; try lia;
      try (destruct q; cbn [AllocSpec.grows asks plain volume AllocSpec.total fold_right] in *; lia).
    destruct (grow3 pol s0 n o V0 W0) as [G _]. cbn [volume do_call] in G.
    change (grown3 s0 n) with (grown3 s n) in *. assert (AllocSpec.total (AllocSpec.grows s0 (History.ECall (CGrow n))) = grown3 s n).
    { pose proof (room_used s W). cbn [AllocSpec.grows]. unfold grown3. change (room s0) with (room s). change (used s0) with (used s).
      destruct (room s - used s <? n) eqn:E1, (2 * (room s + n) <=? maxAlloc) eqn:E2, (0 <=? n) eqn:E3; cbn [andb AllocSpec.total fold_right]; lia. }
    cbn [AllocSpec.grows do_call AllocSpec.total] in *. unfold AllocSpec.total in *. cbn [fold_right] in *. lia.
  - assert (X : exists a, mexec1 (MCall c o) s = Some (a, s')).
    { cbn [mexec1]. fold s0. destruct (run (mini_call c) s0); try contradiction; subst; eexists; reflexivity. }
    destruct X as [a X]. pose proof (mini_event_paid (MCall c o) _ _ _ W V X) as Y. destruct (mini_event_room (MCall c o) _ _ _ W V X) as [B _].
    unfold AllocSpec.memory in Y. rewrite B, !total_app in Y. change (owed s0) with (owed s).
    destruct c as [off q|q| | | |off r|off r|off|off| | |n|n|n| | | | | | |]; cbn [mini_grows mini_asks plain volume AllocSpec.total fold_right] in *; try lia.
    destruct V0 as [_ [V0 _]].
    destruct (grow3 pol s0 n o V0 W0) as [_ G]. cbn [volume mini_call] in G.
    change (grown3 s0 n) with (grown3 s n) in *. assert (AllocSpec.total (mini_grows s (MCall (CGrow n) o)) = grown3 s n).
    { cbn [mini_grows]. unfold grown3. destruct (_ && _); cbn [AllocSpec.total fold_right]; lia. }
    cbn [mini_grows mini_call AllocSpec.total] in *. unfold AllocSpec.total in *. cbn [fold_right] in *. lia.
Qed.

Lemma stuck_paid pol k s j : k = Buf3 \/ k = Mini3 -> WF s -> valid_job k s j ->
  accesses (job_body pol k j) s <= 20 + 12 * plain s j + 2 * owed s.
Proof.
  intros K W V. pose proof (C85_linear pol k s j W V) as L. pose proof (volume_nonneg pol k s j W V) as P.
  assert (O : 0 <= owed s) by (unfold owed; lia). pose proof (room_used s W) as U.
  destruct K as [->| ->], j as [c o|c o]; cbn [valid_job] in V; try contradiction; cbn [job_body] in *;
    destruct c as [off q|q| | | |off r|off r|off|off| | |n|n|n| | | | | | |]; cbn [plain volume] in *; try lia.
  - destruct (grow3 pol s n o V W) as [G _]. cbn [volume do_call] in *. unfold grown3, owed in *. destruct (_ && _) eqn:E; lia.
  - destruct V as [_ [V _]]. destruct (grow3 pol s n o V W) as [_ G]. cbn [volume mini_call] in *. unfold grown3, owed in *. destruct (_ && _) eqn:E; lia.
Qed.

(** C85: growing a v3 buffer bit by bit costs no more than growing it at once.  Any
    calls, one after the other, returning or panicking, make together at most twenty
    accesses each, twelve for each bit or byte that they name, where [Grow] names
    only the bytes asked for, and four for each byte that the buffer had. *)
Theorem C85_amortised pol k s js : k = Buf3 \/ k = Mini3 -> WF s -> Forall (valid_job k s) js ->
  total_work (job_body pol) k s js <= 20 * zlen js + 12 * along (job_body pol) plain k s js + 4 * used s.
Proof.
  intros K. enough (H : forall s, WF s -> Forall (valid_job k s) js ->
    total_work (job_body pol) k s js <= 20 * zlen js + 12 * along (job_body pol) plain k s js + 2 * owed s).
  { intros W V. pose proof (room_used s W). specialize (H s W V). assert (owed s <= 2 * used s) by (unfold owed; lia). lia. }
  clear s. induction js as [|j js IH]; intros s W V; [unfold total_work, owed, zlen; cbn [along length]; lia|].
  apply Forall_cons_iff in V as [V1 V2]. unfold total_work in *. cbn [along].
  replace (zlen (j :: js)) with (1 + zlen js) by (unfold zlen; cbn [length]; lia).
  pose proof (job_safe pol k s j W V1) as J. pose proof (step_paid pol k s j) as S.
  assert (O : 0 <= owed s) by (unfold owed; lia). assert (Z : 0 <= zlen js) by (unfold zlen; lia).
  destruct (run (job_body pol k j) (set_outs s (job_out j))) as [v s'|e s'|s'|] eqn:E; try contradiction.
  1, 2: destruct J as [J1 J2]; specialize (S s' K W V1 eq_refl);
    specialize (IH s' J1 ltac:(eapply Forall_impl; [|exact V2]; intro; now apply valid_grows)); lia.
  pose proof (stuck_paid pol k (set_outs s (job_out j)) j K (WF_outs _ _ W) ltac:(apply (valid_grows k s); [apply grows_refl|exact V1])) as L.
  change (plain (set_outs s (job_out j)) j) with (plain s j) in L. change (owed (set_outs s (job_out j))) with (owed s) in L. lia.
Qed.
Print Assumptions C85_amortised.

Lemma total_text pol k js : forall s, WF s -> Forall (valid_job k s) js ->
  exists N, forall n, (N <= n)%nat -> total_work (job_text pol n) k s js = total_work (job_body pol) k s js /\
    along (job_text pol n) plain k s js = along (job_body pol) plain k s js.
Proof.
  unfold total_work. induction js as [|j js IH]; intros s W F; [exists 0%nat; split; reflexivity|]. apply Forall_cons_iff in F as [H1 H2].
  pose proof (job_safe pol k s j W H1) as S.
  assert (NS : run (job_body pol k j) (set_outs s (job_out j)) <> Stuck) by (intro X; now rewrite X in S).
  destruct (conv_run eq _ _ _ (job_conv pol s k j H1) NS) as [N HN].
  destruct (conv_accesses eq _ _ _ (job_conv pol s k j H1) NS) as [N' HN'].
  assert (X : exists M, forall n, (M <= n)%nat -> match run (job_body pol k j) (set_outs s (job_out j)) with
    | Done _ s' | Panicked _ s' => along (job_text pol n) (fun s j => accesses (job_text pol n k j) (set_outs s (job_out j))) k s' js = along (job_body pol) (fun s j => accesses (job_body pol k j) (set_outs s (job_out j))) k s' js /\
       along (job_text pol n) plain k s' js = along (job_body pol) plain k s' js | _ => True end).
  { destruct (run (job_body pol k j) _) as [v s'|e s'|s'|]; try (exists 0%nat; auto; fail);
      (destruct (IH s') as [M HM]; [apply S|eapply Forall_impl; [|exact H2]; intro; apply valid_grows; apply S|exists M; auto]). }
  destruct X as [M HM]. exists (N + N' + M)%nat. intros n Hn. specialize (HN n ltac:(lia)). specialize (HN' n ltac:(lia)). specialize (HM n ltac:(lia)). apply res_eq in HN.
  cbn [along]. rewrite HN, HN'. destruct (run (job_body pol k j) _); auto; destruct HM as [-> ->]; auto.
Qed.

(** The same about the Go text. *)
Theorem C85_text_amortised pol k s js : k = Buf3 \/ k = Mini3 -> WF s -> Forall (valid_job k s) js ->
  exists N, forall n, (N <= n)%nat ->
    total_work (job_text pol n) k s js <= 20 * zlen js + 12 * along (job_text pol n) plain k s js + 4 * used s.
Proof.
  intros K W V. destruct (total_text pol k js s W V) as [N HN]. exists N. intros n Hn. destruct (HN n Hn) as [-> ->]. now apply C85_amortised.
Qed.
Print Assumptions C85_text_amortised.

(** ** Many calls on a v1 or v2 buffer

    Here the capacity is left to the runtime.  *)

Definition lean (s : St) : Z := Z.max 0 (5 * used s - 4 * room s).
Definition is_old (k : sort) : Prop := match k with Buf3 | Mini3 => False | BufOld _ | MiniOld _ => True end.

Lemma plain_nonneg k s j : is_old k -> WF s -> valid_job k s j -> 0 <= plain s j.
Proof.
  intros K W V. pose proof (volume_nonneg (fun _ _ => 0) k s j W V). destruct k; try contradiction; destruct j as [c o|c o]; try contradiction; destruct c; cbn [plain] in *; lia.
Qed.

(** What a call costs before what it changes is counted. *)
Lemma old_cost pol c k s j : is_old k -> sensible c pol -> 0 <= c -> WF s -> valid_job k s j ->
  3 * (used s + plain s j) + c <= maxAlloc ->
  accesses (job_body pol k j) s <= 20 + 10 * c + 160 * plain s j + 30 * lean s /\
  forall s', WF s' -> (match j with J2 d _ => size_step pol d s s' | J3 _ _ => False end) ->
    accesses (job_body pol k j) s + 30 * lean s' <= 20 + 10 * c + 310 * plain s j + 30 * lean s /\ used s' <= used s + plain s j.
Proof.
  intros K SP C W V M. pose proof (C85_linear pol k s j W V) as L. pose proof (plain_nonneg k s j K W V) as P.
  pose proof (room_used s W) as U. assert (O : 0 <= lean s) by (unfold lean; lia).
  destruct j as [d o|d o]; [destruct k; contradiction|].
  assert (G : (exists n, d = KGrow n) \/ volume pol s (J2 d o) = plain s (J2 d o) /\ forall n, d <> KGrow n).
  { destruct d; try (right; split; [reflexivity|discriminate]). left. eauto. }
  destruct G as [[n ->]|[E N]].
  - cbn [plain volume size_step] in *. unfold grow_size, grown_old in *. unfold lean in *.
    destruct (n <? 0) eqn:E0; cbn [orb].
    { assert (E1 : used s + n <=? room s = true) by lia. rewrite E1 in L. split; [lia|]. intros s' _ [-> ->]. lia. }
    replace (maxAlloc <? used s + n) with false by lia.
    destruct (used s + n <=? room s) eqn:E1.
    { split; [lia|]. intros s' _ [-> ->]. lia. }
    destruct (SP (room s) (used s + n)) as [S1 S2]; [lia|lia|].
    assert (NC : new_cap pol (room s) (used s + n) = Z.max (used s + n) (pol (room s) (used s + n))) by (unfold new_cap; lia).
    rewrite NC in *. split; [lia|]. intros s' _ [-> ->]. lia.
  - rewrite E in L. split; [lia|]. intros s' W' Z. pose proof (room_used s' W') as U'. unfold lean in *.
    destruct d; cbn [size_step] in Z; try (destruct Z as [-> ->]; lia); try (exfalso; now apply (N n)).
    cbn [plain volume] in *. lia.
Qed.

(** C85: the same of v1 and v2 under a sensible policy, as long as the memory
    limit of the runtime is far away: growing bit by bit costs no more, up to a
    constant, than growing at once. *)
Theorem C85_amortised_old pol c k s js : is_old k -> sensible c pol -> 0 <= c -> WF s -> Forall (valid_job k s) js ->
  3 * (used s + along (job_body pol) plain k s js) + c <= maxAlloc ->
  total_work (job_body pol) k s js <= (20 + 10 * c) * zlen js + 310 * along (job_body pol) plain k s js + 30 * used s.
Proof.
  intros K SP C. enough (H : forall s, WF s -> Forall (valid_job k s) js -> 0 <= along (job_body pol) plain k s js /\
    (3 * (used s + along (job_body pol) plain k s js) + c <= maxAlloc ->
    total_work (job_body pol) k s js <= (20 + 10 * c) * zlen js + 310 * along (job_body pol) plain k s js + 30 * lean s)).
  { intros W V M. pose proof (room_used s W). destruct (H s W V) as [_ H']. specialize (H' M). assert (lean s <= used s) by (unfold lean; lia). lia. }
  clear s. induction js as [|j js IH]; intros s W V; [unfold total_work, lean, zlen; cbn [along length]; lia|].
  apply Forall_cons_iff in V as [V1 V2]. unfold total_work in *. cbn [along].
  replace (zlen (j :: js)) with (1 + zlen js) by (unfold zlen; cbn [length]; lia).
  pose proof (job_safe pol k s j W V1) as J. pose proof (old_size pol k s j W V1) as Z1.
  assert (KK : match k with Buf3 | Mini3 => False | _ => True end) by (destruct k; auto). specialize (Z1 KK).
  set (s0 := set_outs s (job_out j)) in *.
  assert (W0 : WF s0) by (now apply WF_outs). assert (V0 : valid_job k s0 j) by (apply (valid_grows k s); [apply grows_refl|exact V1]).
  pose proof (plain_nonneg k s j K W V1) as P. pose proof (old_cost pol c k s0 j K SP C W0 V0) as S.
  change (plain s0 j) with (plain s j) in S. change (lean s0) with (lean s) in S. change (used s0) with (used s) in S.
  assert (O : 0 <= lean s) by (unfold lean; lia). assert (Z : 0 <= zlen js) by (unfold zlen; lia).
  destruct (run (job_body pol k j) s0) as [v s'|e s'|s'|] eqn:E; try contradiction.
  1, 2: destruct J as [J1 J2]; specialize (IH s' J1 ltac:(eapply Forall_impl; [|exact V2]; intro; now apply valid_grows)); destruct IH as [I1 I2];
    (split; [lia|]); intros M; destruct S as [_ S]; [lia|]; destruct (S s' J1 Z1) as [S1 S2]; specialize (I2 ltac:(lia)); lia.
  split; [lia|]. intros M. destruct S as [S _]; [lia|]. nia.
Qed.
Print Assumptions C85_amortised_old.

Theorem C85_text_amortised_old pol c k s js : is_old k -> sensible c pol -> 0 <= c -> WF s -> Forall (valid_job k s) js ->
  3 * (used s + along (job_body pol) plain k s js) + c <= maxAlloc ->
  exists N, forall n, (N <= n)%nat ->
    total_work (job_text pol n) k s js <= (20 + 10 * c) * zlen js + 310 * along (job_text pol n) plain k s js + 30 * used s.
Proof.
  intros K SP C W V M. destruct (total_text pol k js s W V) as [N HN]. exists N. intros n Hn. destruct (HN n Hn) as [-> ->]. now apply C85_amortised_old.
Qed.
Print Assumptions C85_text_amortised_old.

(** What Go's runtime does is sensible. *)
Lemma quarters_bounds f : forall cap need, 0 <= cap -> cap <= need -> need <= quarters f cap need <= need + (need + 768) / 4.
Proof.
  induction f as [|f IH]; intros cap need H0 H; cbn [quarters]; destruct (Z.leb_spec need cap); try (Z.to_euclidean_division_equations; lia).
  destruct (Z.leb_spec (cap + (cap + 768) / 4) need) as [L|L]; [apply IH; Z.to_euclidean_division_equations; lia|].
  destruct f; cbn [quarters]; (replace (need <=? cap + (cap + 768) / 4) with true by lia); Z.to_euclidean_division_equations; lia.
Qed.
Lemma quarters_quarter f cap need : 0 <= cap -> cap < need -> cap + (cap + 768) / 4 <= quarters (S f) cap need \/ need + 0 <= quarters (S f) cap need /\ cap + (cap + 768) / 4 <= need.
Proof.
  intros H0 H. destruct (Z.leb_spec (cap + (cap + 768) / 4) need) as [L|L].
  - right. split; [|lia]. pose proof (quarters_bounds (S f) cap need). lia.
  - left. cbn [quarters]. replace (need <=? cap) with false by lia. destruct f; cbn [quarters]; replace (need <=? cap + (cap + 768) / 4) with true by lia; lia.
Qed.
Example C85_growslice_sensible up : rounds up -> sensible 9000 (fun old need => up (growslice old need)).
Proof.
  intros R old need H0 H. assert (B : 5 * old <= 4 * growslice old need /\ growslice old need <= 2 * need + 192 /\ 0 <= growslice old need).
  { unfold growslice. destruct (Z.ltb_spec (2 * old) need); [lia|]. destruct (Z.ltb_spec old 256); [lia|].
    pose proof (quarters_quarter 63 old need ltac:(lia) ltac:(lia)). pose proof (quarters_bounds 64 old need ltac:(lia) ltac:(lia)).
    Z.to_euclidean_division_equations; lia. }
  specialize (R (growslice old need)). Z.to_euclidean_division_equations; lia.
Qed.

(** With a policy that gives exactly what is needed, which the language allows, it
    is false: [m] calls of [Grow(1)] on an empty buffer copy m(m+1)/2 bytes. *)
Definition exact (old need : Z) : Z := need.
Lemma accesses_nonneg {A} (p : prog A) : forall s, 0 <= accesses p s.
Proof.
  conv_cases p IH; intros s; cbn [accesses];
    repeat match goal with |- context [match ?x with _ => _ end] => destruct x eqn:? end;
    try match goal with |- context [accesses ?p ?s] => assert (0 <= accesses p s) by apply IH end;
    try match goal with H : heap_read _ _ _ _ = Some _ |- _ => apply heap_read_size in H end; unfold zlen; lia.
Qed.
Lemma alloc_costs {A} l (f : nat -> prog A) s : zlen l <= accesses (Alloc l f) s.
Proof. cbn [accesses]. pose proof (accesses_nonneg (f (length (heap s))) (set_heap s (heap s ++ [l]))). lia. Qed.
Lemma append_copies x z s : s_cap x < s_len x + s_len z -> s_len x + s_len z <= maxAlloc -> 0 <= s_len x + s_len z ->
  forall (rest : slice -> prog unit), s_len x + s_len z <= accesses ((x' <- append exact x z ;; rest x') ;; Ret (@RUnit slice)) s.
Proof.
  intros H H' H0 rest. unfold append. replace (_ <=? s_cap x) with false by lia. replace (_ <=? maxAlloc) with true by lia.
  cbn [bind]. etransitivity; [|apply alloc_costs]. assert (N : new_cap exact (s_cap x) (s_len x + s_len z) = s_len x + s_len z) by (unfold new_cap, exact; lia).
  rewrite N. unfold zlen, zeros. rewrite repeat_length. lia.
Qed.
Lemma grow_one k s : is_old k -> WF s -> mu s = false -> room s = used s -> used s + 1 <= maxAlloc ->
  used s + 1 <= accesses (job_body exact k (J2 (KGrow 1) [])) (set_outs s []) /\
  exists s', run (job_body exact k (J2 (KGrow 1) [])) (set_outs s []) = Done RUnit s' /\ mu s' = false /\ used s' = used s + 1 /\ room s' = used s'.
Proof.
  intros K W M R B. assert (V : valid_job k s (J2 (KGrow 1) [])).
  { destruct k; try contradiction; cbn; unfold valid_old_mini; cbn; unfold is_i64; repeat split; try lia; discriminate. }
  pose proof (old_size exact k s _ W V) as Z. cbn [job_out size_step] in Z. unfold grow_size in Z.
  assert (KK : match k with Buf3 | Mini3 => False | _ => True end) by (destruct k; auto). specialize (Z KK). clear KK.
  assert (U : 0 <= used s) by (apply (room_used s W)).
  assert (Q : (1 <? 0) || (maxAlloc <? used s + 1) = false) by lia.
  assert (Q2 : used s + 1 <=? room s = false) by lia. rewrite Q, Q2 in Z.
  assert (N : new_cap exact (room s) (used s + 1) = used s + 1) by (unfold new_cap, exact; lia). rewrite N in Z. clear N Q Q2.
  split.
  - assert (A : forall s1 (rest : slice -> prog unit), b_buf (bb s1) = b_buf (bb s) ->
      used s + 1 <= accesses (GetBuf (fun x => (z <- make_bytes 1 1 ;; x' <- append exact x z ;; rest x') ;; Ret (@RUnit slice))) s1).
    { intros s1 rest E. rewrite accesses_getbuf, E. change (make_bytes 1 1) with (Alloc (zeros 1) (fun b => Ret (mkSlice b 0 1 1))).
      cbn [bind]. cbn [accesses]. assert (0 <= zlen (zeros 1)) by (unfold zlen; lia).
      pose proof (append_copies (b_buf (bb s)) (mkSlice (length (heap s1)) 0 1 1) (set_heap s1 (heap s1 ++ [zeros 1]))) as X. cbn [s_len] in X.
      fold (used s) (room s) in X. specialize (X ltac:(lia) ltac:(lia) ltac:(lia) rest). lia. }
    assert (M0 : mu (set_outs s []) = false) by exact M.
    assert (L : forall p : prog (rv slice), used s + 1 <= accesses p (set_mu (set_outs s []) true) -> used s + 1 <= accesses (Lock p) (set_outs s [])).
    { intros p X. cbn [accesses]. rewrite M0. lia. }
    destruct k as [| |v|v]; try contradiction; destruct v;
      [apply L; exact (A (set_mu (set_outs s []) true) _ eq_refl)|apply L; exact (A (set_mu (set_outs s []) true) _ eq_refl)
      |exact (A (set_outs s []) _ eq_refl)|exact (A (set_outs s []) _ eq_refl)].
  - assert (X : exists s', run (job_body exact k (J2 (KGrow 1) [])) (set_outs s []) = Done RUnit s' /\ mu s' = false).
    { assert (W0 : WF (set_outs s [])) by (now apply WF_outs). assert (M0 : mu (set_outs s []) = false) by exact M.
      assert (C : zlen (content (set_outs s [])) = used s) by (rewrite content_zlen by exact W0; reflexivity).
      assert (I1 : is_i64 1) by (unfold is_i64; lia).
      assert (D : mu (v2_grown exact (set_outs s []) 1) = false) by (unfold v2_grown; destruct (_ <=? _); exact M).
      pose proof (v2_Grow exact (set_outs s []) 1 W0 M0 I1) as G. pose proof (mini2_Grow exact (set_outs s []) 1 W0 I1) as G'.
      rewrite C in G, G'. replace (used s + 1 <=? maxAlloc) with true in * by lia. change (maxAlloc <? 1) with false in *. cbn [Z.ltb Z.compare orb] in *.
      exists (v2_grown exact (set_outs s []) 1). split; auto.
      destruct k as [| |v|v]; try contradiction; destruct v; cbn [job_body do1_call do2_call old_mini mini1_call mini2_call];
        rewrite run_ret_unit; [change (V1Buffer.Grow exact 1) with (V2Buffer.Grow exact 1)| |change (V1Mini.Grow exact 1) with (V2Mini.grow exact 1)|change (V2Mini.Grow exact 1) with (V2Mini.grow exact 1)];
        first [rewrite G|rewrite G']; reflexivity. }
    destruct X as (s' & E & M'). rewrite E in Z. exists s'. destruct Z. repeat split; auto. lia.
Qed.

Theorem C85_exact_policy_refuted k s (m : nat) : is_old k -> WF s -> mu s = false -> used s = 0 -> room s = 0 -> Z.of_nat m <= maxAlloc ->
  let js := repeat (J2 (KGrow 1) []) m in
  Forall (valid_job k s) js /\ along (job_body exact) plain k s js = zlen js /\
  zlen js * (zlen js + 1) <= 2 * total_work (job_body exact) k s js.
Proof.
  intros K W M U R B js. split; [|].
  { apply Forall_forall. intros j I. apply repeat_spec in I as ->. destruct k; try contradiction; cbn; unfold valid_old_mini; cbn; unfold is_i64; repeat split; try lia; discriminate. }
  assert (ZL : zlen js = Z.of_nat m) by (unfold zlen, js; now rewrite repeat_length). rewrite ZL. clear ZL.
  enough (H : forall m s, WF s -> mu s = false -> room s = used s -> used s + Z.of_nat m <= maxAlloc ->
     along (job_body exact) plain k s (repeat (J2 (KGrow 1) []) m) = Z.of_nat m /\
     Z.of_nat m * (Z.of_nat m + 1) + 2 * Z.of_nat m * used s <= 2 * total_work (job_body exact) k s (repeat (J2 (KGrow 1) []) m)).
  { destruct (H m s W M ltac:(lia) ltac:(lia)) as [H1 H2]. split; [exact H1|]. unfold js. lia. }
  clear - K. unfold total_work. induction m as [|m IH]; intros s W M R B; [cbn; lia|].
  cbn [repeat along job_out]. destruct (grow_one k s K W M R ltac:(lia)) as [C (s' & E & M' & U' & R')]. rewrite E.
  assert (W' : WF s').
  { pose proof (job_safe exact k s (J2 (KGrow 1) []) W) as J. cbn [job_out] in J. rewrite E in J. apply J.
    destruct k; try contradiction; cbn; unfold valid_old_mini; cbn; unfold is_i64; repeat split; try lia; discriminate. }
  destruct (IH s' W' M' R' ltac:(lia)) as [H1 H2]. rewrite H1. cbn [plain]. split; [lia|]. nia.
Qed.
Print Assumptions C85_exact_policy_refuted.

(** ** Memory

    A byte of a new array is an access, so all bounds above are bounds on the memory
    taken: [memory] is the bytes of all arrays there are. *)
Lemma memory_write h b i d h' : heap_write h b i d = Some h' -> AllocSpec.total (map zlen h') = AllocSpec.total (map zlen h).
Proof. intro E. now rewrite (blocks_write _ _ _ _ _ E). Qed.
Lemma run_memory {A} (p : prog A) : forall s,
  match run p s with Done _ s' | Panicked _ s' => AllocSpec.memory s' <= AllocSpec.memory s + accesses p s | _ => True end.
Proof.
  unfold AllocSpec.memory, blocks. conv_cases p IH; intros s; cbn [run accesses]; try (exact I); try lia.
  - specialize (IH (b_buf (bb s)) s). destruct (run _ _); auto; lia.
  - specialize (IH (set_bb s (upd_buf (bb s) sl))). cbn [heap set_bb] in *. destruct (run _ _); auto; lia.
  - specialize (IH (get_fld (bb s) fd) s). destruct (run _ _); auto; lia.
  - specialize (IH (set_bb s (upd_fld (bb s) fd v))). cbn [heap set_bb] in *. destruct (run _ _); auto; lia.
  - destruct (heap_read _ _ _ _) as [[|x [|]]|]; auto. specialize (IH x s). destruct (run _ _); auto; lia.
  - destruct (heap_write _ _ _ _) as [h|] eqn:E; auto. apply memory_write in E. specialize (IH (set_heap s h)). cbn [heap set_heap] in *. destruct (run _ _); auto; lia.
  - destruct (heap_read _ _ _ _) as [d|] eqn:R; auto. apply heap_read_size in R. destruct (heap_write _ _ _ _) as [h|] eqn:E; auto. apply memory_write in E.
    specialize (IH (set_heap s h)). cbn [heap set_heap] in *. destruct (run _ _); auto; lia.
  - specialize (IH (length (heap s)) (set_heap s (heap s ++ [l]))). cbn [heap set_heap] in *.
    assert (T : AllocSpec.total (map zlen (heap s ++ [l])) = AllocSpec.total (map zlen (heap s)) + zlen l).
    { rewrite map_app, total_app. cbn [map AllocSpec.total fold_right]. unfold AllocSpec.total. cbn [fold_right]. lia. }
    rewrite T in IH. destruct (run _ _); auto; lia.
  - specialize (IH (outs s) s). destruct (run _ _); auto; lia.
  - specialize (IH (set_outs s l)). cbn [heap set_outs] in *. destruct (run _ _); auto; lia.
  - destruct (mu s); auto. specialize (IH (set_mu s true)). cbn [heap set_mu] in *. destruct (run _ _); auto; lia.
  - destruct (mu s); auto. specialize (IH (set_mu s false)). cbn [heap set_mu] in *. destruct (run _ _); auto; lia.
Qed.

(** The state after calls made one after the other. *)
Fixpoint later (body : sort -> job -> prog (rv slice)) (k : sort) (s : St) (js : list job) : St :=
  match js with
  | [] => s
  | j :: r => match run (body k j) (set_outs s (job_out j)) with
              | Done _ s' | Panicked _ s' => later body k s' r
              | Deadlock _ | Stuck => s
              end
  end.
Lemma later_memory body k js : forall s, AllocSpec.memory (later body k s js) <= AllocSpec.memory s + total_work body k s js.
Proof.
  unfold total_work. induction js as [|j js IH]; intros s; cbn [later along]; [lia|].
  pose proof (run_memory (body k j) (set_outs s (job_out j))) as R. pose proof (accesses_nonneg (body k j) (set_outs s (job_out j))).
  change (AllocSpec.memory (set_outs s (job_out j))) with (AllocSpec.memory s) in R.
  destruct (run _ _) as [v s'|e s'|s'|]; try lia; specialize (IH s'); lia.
Qed.

(** C85: so any calls take memory at most linear in what they name, also in v1 and
    v2, whose methods make temporary arrays. *)
Theorem C85_memory pol c k s js : (k = Buf3 \/ k = Mini3) \/ is_old k /\ sensible c pol /\ 0 <= c /\ 3 * (used s + along (job_body pol) plain k s js) + c <= maxAlloc ->
  WF s -> Forall (valid_job k s) js ->
  AllocSpec.memory (later (job_body pol) k s js) - AllocSpec.memory s
    <= (20 + 10 * Z.max 0 c) * zlen js + 310 * along (job_body pol) plain k s js + 30 * used s.
Proof.
  intros H W V. pose proof (later_memory (job_body pol) k js s) as L. pose proof (room_used s W). assert (0 <= zlen js) by (unfold zlen; lia).
  destruct H as [K|(K & SP & C & M)].
  - pose proof (C85_amortised pol k s js K W V) as T.
    assert (P : 0 <= along (job_body pol) plain k s js); [|nia]. clear - K W V.
    revert s W V. induction js as [|j js IH]; intros s W V; cbn [along]; [lia|]. apply Forall_cons_iff in V as [V1 V2].
    assert (0 <= plain s j).
    { pose proof (volume_nonneg (fun _ _ => 0) k s j W V1). destruct j as [d o|d o]; [|destruct K as [-> | ->]; contradiction]. destruct d; cbn [plain] in *; try lia. }
    pose proof (job_safe pol k s j W V1) as J. destruct (run _ _) as [v s'|e s'|s'|]; try contradiction; try lia;
      (destruct J as [J1 J2]; specialize (IH s' J1 ltac:(eapply Forall_impl; [|exact V2]; intro; now apply valid_grows)); lia).
  - pose proof (C85_amortised_old pol c k s js K SP C W V M). replace (Z.max 0 c) with c by lia. lia.
Qed.
Print Assumptions C85_memory.

(** ** Non-vacuity

    A buffer of eight bytes with no room.  Reading three of them copies nothing and
    the buffer's length does not matter; writing an int32 in little endian and
    reading five bits do the accesses of those bytes and bits; a [Grow] that has to
    make an array does more. *)
Definition eight : St := mkSt [[1; 2; 3; 4; 5; 6; 7; 8]] (mkBuf (mkSlice 0 0 8 8) 0 8 0 64) false [].
Definition busy_calls : list job := [J3 (CGrow 1) []; J3 (CGrow 1) []; J3 (At 2 (OReadBits 5)) []; J3 (CGrow 30) []; J3 (At 20 (OReadBytes 3)) []].

Example C85_eight : WF eight /\ Forall (valid_job Buf3 eight) busy_calls /\ Forall (valid_job Mini3 eight) [J3 (CGrow 1) []; J3 (CGrow 30) []].
Proof.
  split; [|split].
  - constructor; cbn; unfold is_i64; try lia.
    + constructor; [|constructor]. split; [repeat (constructor; [unfold is_byte; lia|]); constructor|apply Z.leb_le; reflexivity].
    + unfold wf_slice; cbn. repeat split; try lia. apply Z.leb_le; reflexivity.
  - repeat (apply Forall_cons || apply Forall_nil); cbn; unfold is_i64; lia.
  - repeat (apply Forall_cons || apply Forall_nil); cbn; unfold valid_mini; cbn; unfold is_i64; repeat split; try lia; discriminate.
Qed.
Example C85_costs :
  accesses (job_body exact Buf3 (J3 (At 2 (OReadBytes 3)) [])) eight = 2 /\
  accesses (job_body exact (BufOld V2) (J2 (At2 2 (PReadBytes 3)) [])) eight = 4 /\
  accesses (job_body exact Buf3 (J3 (At 2 (OReadBits 5)) [])) eight = 15 /\
  accesses (job_body exact Buf3 (J3 (CGrow 0) [])) eight = 9 /\
  accesses (job_body exact Buf3 (J3 (CGrow 1) [])) eight = 38 /\
  accesses (job_body exact (BufOld V2) (J2 (KGrow 1) [])) eight = 33 /\
  total_work (job_body exact) Buf3 eight busy_calls = 182 /\ along (job_body exact) plain Buf3 eight busy_calls = 37.
Proof. vm_compute. repeat split; reflexivity. Qed.
Definition old_calls : list job := [J2 (KGrow 1) []; J2 (KGrow 1) []; J2 (At2 2 (PReadBits 5)) [0]; J2 (KGrow 30) []; J2 (KGrow (-1)) []; J2 (At2 20 (PReadBytes 3)) []].
Example C85_old_eight v : WF eight /\ Forall (valid_job (BufOld v) eight) old_calls /\ Forall (valid_job (MiniOld v) eight) old_calls /\
  3 * (used eight + along (job_body growslice) plain (BufOld v) eight old_calls) + 9000 <= maxAlloc /\
  3 * (used eight + along (job_body growslice) plain (MiniOld v) eight old_calls) + 9000 <= maxAlloc.
Proof.
  split; [apply C85_eight|]. split; [|split]; [| |destruct v; vm_compute; split; discriminate].
  - repeat (apply Forall_cons || apply Forall_nil); cbn; unfold is_i64; repeat split; try lia; discriminate.
  - repeat (apply Forall_cons || apply Forall_nil); cbn; unfold valid_old_mini; cbn; unfold is_i64, is_u64; repeat split; try lia; reflexivity.
Qed.
Example C85_old_costs :
  total_work (job_body growslice) (BufOld V2) eight old_calls = 206 /\ along (job_body growslice) plain (BufOld V2) eight old_calls = 37 /\
  total_work (job_body growslice) (MiniOld V1) eight old_calls = 189.
Proof. vm_compute. repeat split; reflexivity. Qed.

(** An empty buffer for the quadratic bound: ten calls of [Grow(1)]. *)
Definition nothing : St := mkSt [[]] (mkBuf (mkSlice 0 0 0 0) 0 0 0 0) false [].
Example C85_nothing : WF nothing /\ mu nothing = false /\ used nothing = 0 /\ room nothing = 0 /\
  total_work (job_body exact) (BufOld V1) nothing (repeat (J2 (KGrow 1) []) 10) = 260.
Proof.
  split; [|vm_compute; repeat split; reflexivity]. constructor; cbn; unfold is_i64; try lia.
  - constructor; [|constructor]. split; [constructor|apply Z.leb_le; reflexivity].
  - unfold wf_slice; cbn. repeat split; try lia. apply Z.leb_le; reflexivity.
Qed.
