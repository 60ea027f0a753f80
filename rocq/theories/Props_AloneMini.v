(** * Props_AloneMini: goroutines that keep to different parts of a [MiniBuffer] behave
    as if each were alone with it (C87).

    The counterpart of C75 for the MiniBuffer of v3 and, in the second half, of v1
    and v2.  Any number of goroutines make calls on one MiniBuffer, in any schedule;
    every call has a variable of its own behind its [out] pointer.  No goroutine
    writes what another one sees or writes (AloneMiniSpec.v).  [mini_alone s us] and
    [old_alone v pol s us] are what the calls [us] answer, and the buffer they leave,
    when nobody else uses it. *)
From Coq Require Import ZArith List Bool String Lia Arith ZifyBool.
From Verif Require Import GoSem Errors GoParse Conv GoEval Front Tables FrontCalls FrontMiniCalls.
From Verif Require Import Spec GoLemmas Typed Calls Abs MiniAbs OldCalls V1Calls Abs2 MiniAbs2 History Witness Conc ConcSpec ConcSched.
From Verif Require Import Race RaceLemmas RaceOld FrontOldCalls FrontOldMini Enough FrontConc RaceSpec3 Race3 RaceMiniSpec RaceMini RaceSpec RaceMiniSpec2 RaceMini2.
From Verif Require Import Props_Front Props_Mini2 Props_Race3 Props_Alone Props_RaceMini IsolateText Props_Race Props_RaceMini2.
From Verif Require Import AloneSpec AloneMiniSpec AloneGen AloneMini.
Import ListNotations.
Open Scope Z_scope.
Open Scope list_scope.

(** ** The MiniBuffer of v3 *)

(** A buffer [s] in order, and goroutines that can share it. *)
Definition shareable_mini (s : St) (programs : list (list mini_use)) : Prop :=
  WF s /\ Forall (Forall (fun u : mini_use => mini_fits s u /\ in_place_mini (fst u))) programs /\ independent_mini programs.

Ltac by_mini L :=
  eapply (L mini_use mini_body (fun u : mini_use => writes_mini (fst u)) (fun u : mini_use => sees_mini (fst u))
    mini_one ok_mini mini_args mini_run mini_disc mini_slice); eauto.
Lemma shareable_mini_ok s programs : shareable_mini s programs -> Forall (Forall (ok_mini s)) programs.
Proof. intros (_ & F & _). revert F. apply Forall_impl. intro cs. apply Forall_impl. intros u [[A B] D]. repeat split; assumption || apply A. Qed.

(** *** Answers *)

(** At every moment the calls of goroutine [t] that have returned are its first ones,
    and their answers are those of the goroutine alone. *)
Theorem C87_answers s programs h c t cs :
  shareable_mini s programs -> exec mini_body (start s programs) h c -> nth_error programs t = Some cs ->
  prefix (map fst (returns_of t h)) cs /\
  map snd (returns_of t h) = fst (mini_alone s (map fst (returns_of t h))).
Proof. intros S E N. pose proof (shareable_mini_ok _ _ S) as O. destruct S as (W & _ & I). by_mini @g_as_alone. Qed.
Print Assumptions C87_answers.

(** In the end all calls have had these answers. *)
Theorem C87_finished s programs h c t cs :
  shareable_mini s programs -> exec mini_body (start s programs) h c -> finished c -> nth_error programs t = Some cs ->
  map fst (returns_of t h) = cs /\ map snd (returns_of t h) = fst (mini_alone s cs).
Proof.
  intros S E F Et. pose proof (shareable_mini_ok _ _ S) as O. pose proof S as (W & _ & I).
  assert (A : map fst (returns_of t h) = cs) by by_mini @g_all_returned.
  split; auto. destruct (C87_answers s programs h c t cs S E Et) as [_ B]. now rewrite A in B.
Qed.
Print Assumptions C87_finished.

(** The other goroutines may be left out: goroutine [t] gets the answers of a run in
    which it is the only one. *)
Lemma shareable_mini_one s programs t cs : shareable_mini s programs -> nth_error programs t = Some cs -> shareable_mini s [cs].
Proof.
  intros (W & V & I) E. apply nth_error_In in E. rewrite Forall_forall in V.
  split; [exact W|]. split; [apply Forall_cons; [auto|apply Forall_nil]|].
  intros [|[|u]] [|[|w]] a b d e x N; cbn; try congruence; intros; try congruence; destruct u; discriminate.
Qed.
Theorem C87_others_left_out s programs h c t cs h1 c1 :
  shareable_mini s programs -> nth_error programs t = Some cs ->
  exec mini_body (start s programs) h c -> finished c ->
  exec mini_body (start s [cs]) h1 c1 -> finished c1 ->
  returns_of t h = returns_of 0 h1.
Proof.
  intros S Et E F E1 F1. destruct (C87_finished s programs h c t cs S E F Et) as [A1 A2].
  destruct (C87_finished s [cs] h1 c1 0 cs (shareable_mini_one _ _ _ _ S Et) E1 F1 eq_refl) as [B1 B2].
  apply same_pairs; congruence.
Qed.
Print Assumptions C87_others_left_out.

(** *** The buffer *)

(** Whenever no goroutine is inside a call the buffer is in order, each goroutine has
    left the parts it writes as if alone, and the parts that nobody writes are as
    before. *)
Theorem C87_buffer_between_calls s programs h c :
  shareable_mini s programs -> exec mini_body (start s programs) h c ->
  (forall t g, nth_error (gs c) t = Some g -> cur g = None) ->
  WF (sh c) /\ b_buf (bb (sh c)) = b_buf (bb s) /\
  (forall t cs d x, nth_error programs t = Some cs -> In d cs -> writes_mini (fst d) x = true ->
     part x (abs (sh c)) = part x (snd (mini_alone s (map fst (returns_of t h))))) /\
  (forall x, (forall cs d, In cs programs -> In d cs -> writes_mini (fst d) x = false) -> part x (abs (sh c)) = part x (abs s)).
Proof.
  intros S E R. pose proof (shareable_mini_ok _ _ S) as O. destruct S as (W & _ & I).
  split; [by_mini @g_rest_WF|]. split; [by_mini @g_keeps_slice|]. split.
  - intros t cs d x Et Id Wx. by_mini @g_rest_own.
  - intros x N. by_mini @g_rest_frozen.
Qed.
Print Assumptions C87_buffer_between_calls.

(** In particular at the end. *)
Theorem C87_buffer s programs h c :
  shareable_mini s programs -> exec mini_body (start s programs) h c -> finished c ->
  WF (sh c) /\ b_buf (bb (sh c)) = b_buf (bb s) /\
  (forall t cs d x, nth_error programs t = Some cs -> In d cs -> writes_mini (fst d) x = true ->
     part x (abs (sh c)) = part x (snd (mini_alone s cs))) /\
  (forall x, (forall cs d, In cs programs -> In d cs -> writes_mini (fst d) x = false) -> part x (abs (sh c)) = part x (abs s)).
Proof.
  intros S E F. destruct (C87_buffer_between_calls s programs h c S E (g_rest_of_finished c F)) as (A1 & A2 & A3 & A4).
  split; [exact A1|]. split; [exact A2|]. split; [|exact A4].
  intros t cs d x Et Id Wx. destruct (C87_finished s programs h c t cs S E F Et) as [A _]. pose proof (A3 t cs d x Et Id Wx) as B. now rewrite A in B.
Qed.
Print Assumptions C87_buffer.

(** The schedule does not matter: answers, bytes, spare bytes and offsets are the same
    in every finished run. *)
Theorem C87_schedule_does_not_matter s programs h1 c1 h2 c2 :
  shareable_mini s programs ->
  exec mini_body (start s programs) h1 c1 -> finished c1 ->
  exec mini_body (start s programs) h2 c2 -> finished c2 ->
  abs (sh c1) = abs (sh c2) /\ forall t, (t < List.length programs)%nat -> returns_of t h1 = returns_of t h2.
Proof.
  intros S E1 F1 E2 F2. split.
  - pose proof (shareable_mini_ok _ _ S) as O. destruct S as (W & _ & I). by_mini @g_same_buffer.
  - intros t L. apply nth_error_Some in L. destruct (nth_error programs t) as [cs|] eqn:Et; [|congruence].
    destruct (C87_finished _ _ _ _ _ _ S E1 F1 Et) as [A1 A2]. destruct (C87_finished _ _ _ _ _ _ S E2 F2 Et) as [A3 A4].
    apply same_pairs; congruence.
Qed.
Print Assumptions C87_schedule_does_not_matter.

(** *** Nobody waits *)

Theorem C87_never_waits s programs h c t g :
  shareable_mini s programs -> exec mini_body (start s programs) h c -> nth_error (gs c) t = Some g -> g <> mkG [] None ->
  exists e c', gstep mini_body t c e c'.
Proof. intros S E N G. pose proof (shareable_mini_ok _ _ S) as O. destruct S as (W & _ & I). by_mini @g_never_stuck. Qed.
Print Assumptions C87_never_waits.

Theorem C87_all_return s programs h c :
  shareable_mini s programs -> exec mini_body (start s programs) h c ->
  exists h' c', exec mini_body (start s programs) (h ++ h') c' /\ finished c'.
Proof. intros S E. pose proof (shareable_mini_ok _ _ S) as O. destruct S as (W & _ & I). by_mini @g_all_return. Qed.
Print Assumptions C87_all_return.

(** *** Goroutines that use the buffer in a common way *)

(** Positional calls that stay within the bytes [lo, hi), also with the slices they
    return, are those of C75 ([inside]). *)
Lemma mini_inside_sees lo hi c i : 0 <= lo -> mini_method c = true -> inside lo hi c -> sees_mini c (Byte i) = true -> lo <= i < hi.
Proof.
  intros L M [H K] X. unfold sees_mini in X. apply orb_true_iff in X as [X|X]; [eapply mini_within_bytes; eauto|].
  destruct c as [off []|[]| | | | | | | | | | | | | | | | | | |]; try discriminate X; try contradiction. lia.
Qed.
Lemma mini_inside_in_place lo hi c : inside lo hi c -> in_place_mini c.
Proof. intros [H _]. destruct c; cbn in *; tauto. Qed.

(** Goroutines that keep to disjoint ranges of bytes. *)
Theorem C87_disjoint_ranges s programs (lo hi : nat -> Z) :
  WF s -> Forall (Forall (mini_fits s)) programs -> (forall t, 0 <= lo t) ->
  (forall t cs, nth_error programs t = Some cs -> Forall (fun u : mini_use => inside (lo t) (hi t) (fst u)) cs) ->
  (forall t u, t <> u -> hi t <= lo u \/ hi u <= lo t) -> shareable_mini s programs.
Proof.
  intros W V L H D. split; [exact W|]. rewrite Forall_forall in V. split.
  - apply Forall_forall. intros cs Ic. specialize (V cs Ic). rewrite Forall_forall in V. apply In_nth_error in Ic as [t Et].
    specialize (H t cs Et). rewrite Forall_forall in H. apply Forall_forall. intros u Iu. split; [now apply V|]. eapply mini_inside_in_place. apply (H u Iu).
  - intros t u cs ds c d x N Et Eu Ic Id Wx. pose proof (H t cs Et) as F1. pose proof (H u ds Eu) as F2.
    rewrite Forall_forall in F1, F2. specialize (F1 c Ic). specialize (F2 d Id).
    pose proof (V cs (nth_error_In _ _ Et)) as V1. pose proof (V ds (nth_error_In _ _ Eu)) as V2. rewrite Forall_forall in V1, V2.
    specialize (V1 c Ic). specialize (V2 d Id). destruct V1 as [(M1 & _) _], V2 as [(M2 & _) _].
    destruct (mini_within_others _ _ _ _ (proj1 F1) Wx) as [i ->]. specialize (D t u N).
    pose proof (mini_within_bytes _ _ _ i (L t) M1 (proj1 F1) (or_intror Wx)).
    split; apply Bool.not_true_is_false; intro Y; [pose proof (mini_inside_sees _ _ _ _ (L u) M2 F2 Y)|pose proof (mini_within_bytes _ _ _ i (L u) M2 (proj1 F2) (or_intror Y))]; lia.
Qed.
Print Assumptions C87_disjoint_ranges.

(** Goroutines that only read. *)
Theorem C87_readers s programs :
  WF s -> Forall (Forall (fun u : mini_use => valid_mini s (fst u) (snd u) /\ reader (fst u))) programs -> shareable_mini s programs.
Proof.
  intros W V. split; [exact W|]. split.
  - revert V. apply Forall_impl. intro cs. apply Forall_impl. intros u [V R]. split; [split; [exact V|now apply reader_separate]|].
    destruct (fst u); cbn in *; tauto.
  - intros t u cs ds c d x N Et Eu Ic Id Wx. apply nth_error_In in Et. rewrite Forall_forall in V. specialize (V cs Et).
    rewrite Forall_forall in V. destruct (V c Ic) as [_ R]. now rewrite mini_reader_writes in Wx by auto.
Qed.
Print Assumptions C87_readers.

(** *** The Go text *)

Theorem C87_text pol s programs : shareable_mini s programs ->
  exists N, forall n, (N <= n)%nat -> forall h c, exec (mini_text pol n) (start s programs) h c ->
    (forall t cs, nth_error programs t = Some cs ->
       prefix (map fst (returns_of t h)) cs /\
       map snd (returns_of t h) = fst (mini_alone s (map fst (returns_of t h)))) /\
    (finished c ->
       WF (sh c) /\
       (forall t cs, nth_error programs t = Some cs -> map fst (returns_of t h) = cs) /\
       (forall t cs d x, nth_error programs t = Some cs -> In d cs -> writes_mini (fst d) x = true ->
          part x (abs (sh c)) = part x (snd (mini_alone s cs))) /\
       (forall x, (forall cs d, In cs programs -> In d cs -> writes_mini (fst d) x = false) -> part x (abs (sh c)) = part x (abs s))).
Proof.
  intros S. pose proof S as (W & V & _).
  assert (V' : Forall (Forall (mini_fits s)) programs). { revert V. apply Forall_impl. intro cs. apply Forall_impl. now intros u [V _]. }
  destruct (mini_text_same pol s programs W V') as [N HN]. exists N. intros n Hn h c E.
  destruct (matched_exec' _ _ _ _ _ _ (HN n Hn) E) as (c2 & E2 & X%matched_same).
  split. { intros t cs. now apply (C87_answers s programs h c2). }
  intro F. assert (F2 : finished c2) by now apply (same_finished _ _ X).
  destruct (C87_buffer s programs h c2 S E2 F2) as (B1 & _ & B2 & B3). rewrite <- (proj1 X).
  split; [exact B1|]. split; [|split; [exact B2|exact B3]].
  intros t cs Et. now apply (C87_finished s programs h c2 t cs).
Qed.
Print Assumptions C87_text.

(** ** The MiniBuffers of v1 and v2 *)

(** A buffer [s] in order, and goroutines that can share it. *)
Definition shareable_old (v : version) (s : St) (programs : list (list old_use)) : Prop :=
  WF s /\ Forall (Forall (fun u : old_use => old_fits v s u /\ in_place_old (fst u))) programs /\ independent_old v programs.

Ltac by_old v pol L :=
  eapply (L old_use (old_use_body v pol) (fun u : old_use => writes_old v (fst u)) (fun u : old_use => sees_old v (fst u))
    (old_one v pol) (ok_old v) (old_args v pol) (old_run v pol) (old_disc v pol) (old_slice v)); eauto.
Lemma shareable_old_ok v s programs : shareable_old v s programs -> Forall (Forall ((ok_old v s))) programs.
Proof. intros (_ & F & _). revert F. apply Forall_impl. intro cs. apply Forall_impl. intros u [[A B] D]. repeat split; assumption || apply A. Qed.

(** *** Answers *)

(** At every moment the calls of goroutine [t] that have returned are its first ones,
    and their answers are those of the goroutine alone. *)
Theorem C87_old_answers v pol s programs h c t cs :
  shareable_old v s programs -> exec (old_use_body v pol) (start s programs) h c -> nth_error programs t = Some cs ->
  prefix (map fst (returns_of t h)) cs /\
  map snd (returns_of t h) = fst (old_alone v pol s (map fst (returns_of t h))).
Proof. intros S E N. pose proof (shareable_old_ok v _ _ S) as O. destruct S as (W & _ & I). by_old v pol @g_as_alone. Qed.
Print Assumptions C87_old_answers.

(** In the end all calls have had these answers. *)
Theorem C87_old_finished v pol s programs h c t cs :
  shareable_old v s programs -> exec (old_use_body v pol) (start s programs) h c -> finished c -> nth_error programs t = Some cs ->
  map fst (returns_of t h) = cs /\ map snd (returns_of t h) = fst (old_alone v pol s cs).
Proof.
  intros S E F Et. pose proof (shareable_old_ok v _ _ S) as O. pose proof S as (W & _ & I).
  assert (A : map fst (returns_of t h) = cs) by by_old v pol @g_all_returned.
  split; auto. destruct (C87_old_answers v pol s programs h c t cs S E Et) as [_ B]. now rewrite A in B.
Qed.
Print Assumptions C87_old_finished.

(** The other goroutines may be left out: goroutine [t] gets the answers of a run in
    which it is the only one. *)
Lemma shareable_old_one v s programs t cs : shareable_old v s programs -> nth_error programs t = Some cs -> shareable_old v s [cs].
Proof.
  intros (W & V & I) E. apply nth_error_In in E. rewrite Forall_forall in V.
  split; [exact W|]. split; [apply Forall_cons; [auto|apply Forall_nil]|].
  intros [|[|u]] [|[|w]] a b d e x N; cbn; try congruence; intros; try congruence; destruct u; discriminate.
Qed.
Theorem C87_old_others_left_out v pol s programs h c t cs h1 c1 :
  shareable_old v s programs -> nth_error programs t = Some cs ->
  exec (old_use_body v pol) (start s programs) h c -> finished c ->
  exec (old_use_body v pol) (start s [cs]) h1 c1 -> finished c1 ->
  returns_of t h = returns_of 0 h1.
Proof.
  intros S Et E F E1 F1. destruct (C87_old_finished v pol s programs h c t cs S E F Et) as [A1 A2].
  destruct (C87_old_finished v pol s [cs] h1 c1 0 cs (shareable_old_one v _ _ _ _ S Et) E1 F1 eq_refl) as [B1 B2].
  apply same_pairs; congruence.
Qed.
Print Assumptions C87_old_others_left_out.

(** *** The buffer *)

(** Whenever no goroutine is inside a call the buffer is in order, each goroutine has
    left the parts it writes as if alone, and the parts that nobody writes are as
    before. *)
Theorem C87_old_buffer_between_calls v pol s programs h c :
  shareable_old v s programs -> exec (old_use_body v pol) (start s programs) h c ->
  (forall t g, nth_error (gs c) t = Some g -> cur g = None) ->
  WF (sh c) /\ b_buf (bb (sh c)) = b_buf (bb s) /\
  (forall t cs d x, nth_error programs t = Some cs -> In d cs -> writes_old v (fst d) x = true ->
     part x (abs (sh c)) = part x (snd (old_alone v pol s (map fst (returns_of t h))))) /\
  (forall x, (forall cs d, In cs programs -> In d cs -> writes_old v (fst d) x = false) -> part x (abs (sh c)) = part x (abs s)).
Proof.
  intros S E R. pose proof (shareable_old_ok v _ _ S) as O. destruct S as (W & _ & I).
  split; [by_old v pol @g_rest_WF|]. split; [by_old v pol @g_keeps_slice|]. split.
  - intros t cs d x Et Id Wx. by_old v pol @g_rest_own.
  - intros x N. by_old v pol @g_rest_frozen.
Qed.
Print Assumptions C87_old_buffer_between_calls.

(** In particular at the end. *)
Theorem C87_old_buffer v pol s programs h c :
  shareable_old v s programs -> exec (old_use_body v pol) (start s programs) h c -> finished c ->
  WF (sh c) /\ b_buf (bb (sh c)) = b_buf (bb s) /\
  (forall t cs d x, nth_error programs t = Some cs -> In d cs -> writes_old v (fst d) x = true ->
     part x (abs (sh c)) = part x (snd (old_alone v pol s cs))) /\
  (forall x, (forall cs d, In cs programs -> In d cs -> writes_old v (fst d) x = false) -> part x (abs (sh c)) = part x (abs s)).
Proof.
  intros S E F. destruct (C87_old_buffer_between_calls v pol s programs h c S E (g_rest_of_finished c F)) as (A1 & A2 & A3 & A4).
  split; [exact A1|]. split; [exact A2|]. split; [|exact A4].
  intros t cs d x Et Id Wx. destruct (C87_old_finished v pol s programs h c t cs S E F Et) as [A _]. pose proof (A3 t cs d x Et Id Wx) as B. now rewrite A in B.
Qed.
Print Assumptions C87_old_buffer.

(** The schedule does not matter: answers, bytes, spare bytes and offsets are the same
    in every finished run. *)
Theorem C87_old_schedule_does_not_matter v pol s programs h1 c1 h2 c2 :
  shareable_old v s programs ->
  exec (old_use_body v pol) (start s programs) h1 c1 -> finished c1 ->
  exec (old_use_body v pol) (start s programs) h2 c2 -> finished c2 ->
  abs (sh c1) = abs (sh c2) /\ forall t, (t < List.length programs)%nat -> returns_of t h1 = returns_of t h2.
Proof.
  intros S E1 F1 E2 F2. split.
  - pose proof (shareable_old_ok v _ _ S) as O. destruct S as (W & _ & I). by_old v pol @g_same_buffer.
  - intros t L. apply nth_error_Some in L. destruct (nth_error programs t) as [cs|] eqn:Et; [|congruence].
    destruct (C87_old_finished v pol _ _ _ _ _ _ S E1 F1 Et) as [A1 A2]. destruct (C87_old_finished v pol _ _ _ _ _ _ S E2 F2 Et) as [A3 A4].
    apply same_pairs; congruence.
Qed.
Print Assumptions C87_old_schedule_does_not_matter.

(** *** Nobody waits *)

Theorem C87_old_never_waits v pol s programs h c t g :
  shareable_old v s programs -> exec (old_use_body v pol) (start s programs) h c -> nth_error (gs c) t = Some g -> g <> mkG [] None ->
  exists e c', gstep (old_use_body v pol) t c e c'.
Proof. intros S E N G. pose proof (shareable_old_ok v _ _ S) as O. destruct S as (W & _ & I). by_old v pol @g_never_stuck. Qed.
Print Assumptions C87_old_never_waits.

Theorem C87_old_all_return v pol s programs h c :
  shareable_old v s programs -> exec (old_use_body v pol) (start s programs) h c ->
  exists h' c', exec (old_use_body v pol) (start s programs) (h ++ h') c' /\ finished c'.
Proof. intros S E. pose proof (shareable_old_ok v _ _ S) as O. destruct S as (W & _ & I). by_old v pol @g_all_return. Qed.
Print Assumptions C87_old_all_return.

(** *** Goroutines that use the buffer in a common way *)

(** Positional calls that stay within the bytes [lo, hi), also with the slices they
    return; the offsets and capacities may be asked for. *)
Definition old_inside (lo hi : Z) (c : call2 slice) : Prop :=
  old_within lo hi c /\
  match c with At2 off (PReadBytes n) => lo <= off /\ off + n <= hi | KBytes => False | _ => True end.
Lemma old_inside_sees v lo hi c i : 0 <= lo -> old_inside lo hi c -> sees_old v c (Byte i) = true -> lo <= i < hi.
Proof.
  intros L [H K] X. unfold sees_old in X. apply orb_true_iff in X as [X|X]; [eapply old_within_bytes; eauto|].
  destruct c as [off []|[]| | | | | | | | | | | | | | | | |]; try discriminate X; try contradiction. lia.
Qed.
Lemma old_inside_in_place lo hi c : old_inside lo hi c -> in_place_old c.
Proof. intros [H _]. destruct c; cbn in *; tauto. Qed.

(** Goroutines that keep to disjoint ranges of bytes. *)
Theorem C87_old_disjoint_ranges v s programs (lo hi : nat -> Z) :
  WF s -> Forall (Forall (old_fits v s)) programs -> (forall t, 0 <= lo t) ->
  (forall t cs, nth_error programs t = Some cs -> Forall (fun u : old_use => old_inside (lo t) (hi t) (fst u)) cs) ->
  (forall t u, t <> u -> hi t <= lo u \/ hi u <= lo t) -> shareable_old v s programs.
Proof.
  intros W V L H D. split; [exact W|]. rewrite Forall_forall in V. split.
  - apply Forall_forall. intros cs Ic. specialize (V cs Ic). rewrite Forall_forall in V. apply In_nth_error in Ic as [t Et].
    specialize (H t cs Et). rewrite Forall_forall in H. apply Forall_forall. intros u Iu. split; [now apply V|]. eapply old_inside_in_place. apply (H u Iu).
  - intros t u cs ds c d x N Et Eu Ic Id Wx. pose proof (H t cs Et) as F1. pose proof (H u ds Eu) as F2.
    rewrite Forall_forall in F1, F2. specialize (F1 c Ic). specialize (F2 d Id).
    pose proof (V cs (nth_error_In _ _ Et)) as V1. pose proof (V ds (nth_error_In _ _ Eu)) as V2. rewrite Forall_forall in V1, V2.
    specialize (V1 c Ic). specialize (V2 d Id). destruct V1 as [(M1 & _) _], V2 as [(M2 & _) _].
    destruct (old_within_others v _ _ _ _ (proj1 F1) Wx) as [i ->]. specialize (D t u N).
    pose proof (old_within_bytes v _ _ _ i (L t) (proj1 F1) (or_intror Wx)).
    split; apply Bool.not_true_is_false; intro Y; [pose proof (old_inside_sees v _ _ _ _ (L u) F2 Y)|pose proof (old_within_bytes v _ _ _ i (L u) (proj1 F2) (or_intror Y))]; lia.
Qed.
Print Assumptions C87_old_disjoint_ranges.

(** Goroutines that only read. *)
Theorem C87_old_readers v s programs :
  WF s -> Forall (Forall (fun u : old_use => valid_old_mini v s (fst u) (snd u) /\ old_reader (fst u))) programs -> shareable_old v s programs.
Proof.
  intros W V. split; [exact W|]. split.
  - revert V. apply Forall_impl. intro cs. apply Forall_impl. intros u [V R]. split; [split; [exact V|now apply old_reader_separate]|].
    destruct (fst u); cbn in *; tauto.
  - intros t u cs ds c d x N Et Eu Ic Id Wx. apply nth_error_In in Et. rewrite Forall_forall in V. specialize (V cs Et).
    rewrite Forall_forall in V. destruct (V c Ic) as [_ R]. now rewrite old_reader_writes in Wx by auto.
Qed.
Print Assumptions C87_old_readers.

(** *** The Go text *)

Theorem C87_old_text v pol s programs : shareable_old v s programs ->
  exists N, forall n, (N <= n)%nat -> forall h c, exec (old_use_text v pol n) (start s programs) h c ->
    (forall t cs, nth_error programs t = Some cs ->
       prefix (map fst (returns_of t h)) cs /\
       map snd (returns_of t h) = fst (old_alone v pol s (map fst (returns_of t h)))) /\
    (finished c ->
       WF (sh c) /\
       (forall t cs, nth_error programs t = Some cs -> map fst (returns_of t h) = cs) /\
       (forall t cs d x, nth_error programs t = Some cs -> In d cs -> writes_old v (fst d) x = true ->
          part x (abs (sh c)) = part x (snd (old_alone v pol s cs))) /\
       (forall x, (forall cs d, In cs programs -> In d cs -> writes_old v (fst d) x = false) -> part x (abs (sh c)) = part x (abs s))).
Proof.
  intros S. pose proof S as (W & V & _).
  assert (V' : Forall (Forall (old_fits v s)) programs). { revert V. apply Forall_impl. intro cs. apply Forall_impl. now intros u [V _]. }
  destruct (old_text_same v pol s programs W V') as [N HN]. exists N. intros n Hn h c E.
  destruct (matched_exec' _ _ _ _ _ _ (HN n Hn) E) as (c2 & E2 & X%matched_same).
  split. { intros t cs. now apply (C87_old_answers v pol s programs h c2). }
  intro F. assert (F2 : finished c2) by now apply (same_finished _ _ X).
  destruct (C87_old_buffer v pol s programs h c2 S E2 F2) as (B1 & _ & B2 & B3). rewrite <- (proj1 X).
  split; [exact B1|]. split; [|split; [exact B2|exact B3]].
  intros t cs Et. now apply (C87_old_finished v pol s programs h c2 t cs).
Qed.
Print Assumptions C87_old_text.

(** ** Concrete cases *)

(** Three goroutines that keep to the bytes 0-1, 2-5 and 6 and up. *)
Definition mini_parts : list (list mini_use) :=
  [[(At 0 (OWriteBytes (mkSlice 1 0 1 1)), []); (At 8 OSetBit, []); (At 0 (OReadBytes 2), [])];
   [(At 2 (OWrite F32BE [1065353216]), []); (At 2 (ORead U16LE 2), [7; 7]); (At 40 (OSetBits 5 8), [])];
   [(At 48 OClearBit, []); (At 50 (OReadBits 6), [0]); (CByteOffset, [])]].
Lemma mini_parts_shareable : shareable_mini shared3 mini_parts.
Proof.
  apply (C87_disjoint_ranges _ _ part_lo part_hi).
  - apply C74_shared.
  - unfold mini_parts. repeat (apply Forall_cons || apply Forall_nil); unfold mini_fits, valid_mini;
      cbn [fst snd mini_method mini_opn valid_call valid_opn valid_out separate];
      repeat split; try exact I; try reflexivity; try lia; try discriminate; try hyp.
  - intros [|[|[|t]]]; cbn [part_lo]; lia.
  - intros [|[|[|t]]] cs E; [..|destruct t; discriminate E]; injection E as <-;
      (repeat (apply Forall_cons; [unfold inside; cbn [fst within reader part_lo part_hi s_len]; split; try exact I; try lia; try (change (tsize U16LE) with 2; lia); try (change (zlen [1065353216]) with 1; change (tsize F32BE) with 4; lia)|])); apply Forall_nil.
  - intros [|[|[|t]]] [|[|[|u]]] N; cbn [part_lo part_hi]; try lia; try congruence.
Qed.
Example C87_case :
  shareable_mini shared3 mini_parts /\
  (exists h c, exec mini_body (start shared3 mini_parts) h c /\ finished c /\ content (sh c) = [9; 130; 63; 128; 0; 5; 7; 8] /\
     map snd (returns_of 0 h) = [Returned RUnit; Returned RUnit; Returned (RBytes [9; 130])] /\
     map snd (returns_of 1 h) = [Returned RUnit; Returned (RNums [32831; 0]); Returned RUnit] /\
     map snd (returns_of 2 h) = [Returned RUnit; Returned (RInt 7); Returned (RInt 0)]) /\
  fst (mini_alone shared3 (nth 0 mini_parts [])) = [Returned RUnit; Returned RUnit; Returned (RBytes [9; 130])].
Proof.
  split; [exact mini_parts_shareable|].
  split; [|vm_compute; reflexivity].
  destruct (sched mini_body [(0, 3); (1, 2); (2, 3); (1, 2); (0, 99); (2, 99); (1, 99); (0, 99); (1, 99); (2, 99); (2, 99); (0, 99); (1, 99)]%nat (start shared3 mini_parts)) as [[h cfg]|] eqn:E; [|vm_compute in E; discriminate E].
  exists h, cfg. split; [eapply sched_sound; exact E|].
  vm_compute in E. injection E as <- <-. split; [repeat constructor|]. vm_compute. repeat split; reflexivity.
Qed.

Definition old_parts : list (list old_use) :=
  [[(At2 8 (PSetBit 1), []); (At2 4 (PReadBits 12), [0]); (At2 0 (PReadBytes 2), []); (KOffset, [])];
   [(At2 2 (PWrite NU32BE [1065353216]), []); (At2 2 (PRead NU16LE 2), [7; 7]); (At2 40 (PSetBits 5 8), [])];
   [(At2 6 (PWriteBytes (mkSlice 1 0 1 1)), []); (At2 52 (PReadBits 4), [0])]].
Lemma old_parts_shareable v : shareable_old v shared old_parts.
Proof.
  apply (C87_old_disjoint_ranges v _ _ range_lo range_hi).
  - apply C72_shared.
  - unfold old_parts. repeat (apply Forall_cons || apply Forall_nil); unfold old_fits, valid_old_mini;
      cbn [fst snd old_mini_method old_mini_op valid_call2 valid_op2 valid_old_out separate_old];
      repeat split; try exact I; try reflexivity; try lia; try discriminate; try hyp.
  - intros [|[|[|t]]]; cbn [range_lo]; lia.
  - intros [|[|[|t]]] cs E; [..|destruct t; discriminate E]; injection E as <-;
      (repeat (apply Forall_cons; [unfold old_inside; cbn [fst old_within range_lo range_hi s_len fmt]; change (tsize U16LE) with 2; change (tsize U32BE) with 4; change (zlen [1065353216]) with 1; split; try exact I; try lia|])); apply Forall_nil.
  - intros [|[|[|t]]] [|[|[|u]]] N; cbn [range_lo range_hi]; try lia; try congruence.
Qed.
Example C87_old_case v pol :
  shareable_old v shared old_parts /\
  (exists h c, exec (old_use_body v pol) (start shared old_parts) h c /\ finished c /\ firstn 8 (content (sh c)) = [1; 130; 63; 128; 0; 5; 9; 8] /\
     map snd (returns_of 0 h) = [Returned RUnit; Returned (RInt 386); Returned (RBytes [1; 130]); Returned (RInt 0)] /\
     map snd (returns_of 2 h) = [Returned RUnit; Returned (RInt 9)]) /\
  fst (old_alone v pol shared (nth 0 old_parts [])) = [Returned RUnit; Returned (RInt 386); Returned (RBytes [1; 130]); Returned (RInt 0)].
Proof.
  split; [exact (old_parts_shareable v)|].
  split; [|destruct v; vm_compute; reflexivity].
  destruct (sched (old_use_body v pol) [(0, 3); (1, 2); (2, 3); (1, 2); (0, 99); (2, 99); (1, 99); (0, 99); (1, 99); (2, 99); (0, 99); (1, 99); (0, 99)]%nat (start shared old_parts)) as [[h cfg]|] eqn:E; [|destruct v; vm_compute in E; discriminate E].
  exists h, cfg. split; [eapply sched_sound; exact E|].
  destruct v; vm_compute in E; injection E as <- <-; (split; [repeat constructor|]); vm_compute; repeat split; reflexivity.
Qed.

(** Goroutines that do notice each other: two bits of one byte set by two goroutines.
    One of the bits gets lost. *)
Theorem C87_independence_needed :
  exists h c, exec mini_body (start shared3 [[(At 0 OSetBit, [])]; [(At 1 OSetBit, [])]]) h c /\ finished c /\
    content (sh c) = [129; 2; 3; 4; 5; 6; 7; 8].
Proof.
  destruct (sched mini_body [(0, 3); (1, 99); (0, 99)]%nat (start shared3 [[(At 0 OSetBit, [])]; [(At 1 OSetBit, [])]])) as [[h cfg]|] eqn:E; [|vm_compute in E; discriminate E].
  exists h, cfg. split; [eapply sched_sound; exact E|].
  vm_compute in E. injection E as <- <-. split; [repeat constructor|]. vm_compute. reflexivity.
Qed.
Print Assumptions C87_independence_needed.
Theorem C87_old_independence_needed v pol :
  exists h c, exec (old_use_body v pol) (start shared [[(At2 0 (PSetBit 1), [])]; [(At2 1 (PSetBit 1), [])]]) h c /\ finished c /\
    firstn 2 (content (sh c)) = [129; 2].
Proof.
  destruct (sched (old_use_body v pol) [(0, 3); (1, 99); (0, 99)]%nat (start shared [[(At2 0 (PSetBit 1), [])]; [(At2 1 (PSetBit 1), [])]])) as [[h cfg]|] eqn:E; [|destruct v; vm_compute in E; discriminate E].
  exists h, cfg. split; [eapply sched_sound; exact E|].
  destruct v; vm_compute in E; injection E as <- <-; (split; [repeat constructor|]); vm_compute; reflexivity.
Qed.
Print Assumptions C87_old_independence_needed.
