(** * Props_Alone: goroutines that keep to different parts of a v3 [Buffer] behave
    as if each were alone with it (C75).

    Any number of goroutines make calls on one buffer, in any schedule.  No goroutine
    writes what another one sees or writes ([independent], AloneSpec.v).  [alone s cs]
    is what the calls [cs] answer, and the buffer they leave, when nobody else uses it. *)
From Coq Require Import ZArith List Bool String Lia Arith ZifyBool.
From Verif Require Import GoSem Errors GoParse Conv GoEval Front Tables FrontCalls.
From Verif Require Import Spec GoLemmas Typed Calls Abs History Witness Conc ConcSpec ConcSched.
From Verif Require Import Race RaceLemmas FrontConc RaceSpec3 Race3 Props_Race3 AloneSpec Alone.
Import ListNotations.
Open Scope Z_scope.
Open Scope list_scope.

(** A buffer [s] in order, and goroutines that can share it. *)
Definition shareable (s : St) (programs : list (list (call slice))) : Prop :=
  WF s /\ Forall (Forall (valid_call s)) programs /\ Forall (Forall (separate s)) programs /\
  Forall (Forall in_place) programs /\ independent programs.

(** ** Answers *)

(** At every moment the calls of goroutine [t] that have returned are its first ones,
    and their answers are those of the goroutine alone. *)
Theorem C75_answers s programs h c t cs :
  shareable s programs -> exec do_call (start s programs) h c -> nth_error programs t = Some cs ->
  prefix (map fst (returns_of t h)) cs /\
  map snd (returns_of t h) = fst (alone s (map fst (returns_of t h))).
Proof. intros (W & V & X & P & I). now apply as_alone. Qed.
Print Assumptions C75_answers.

(** In the end all calls have had these answers. *)
Theorem C75_finished s programs h c t cs :
  shareable s programs -> exec do_call (start s programs) h c -> finished c -> nth_error programs t = Some cs ->
  map fst (returns_of t h) = cs /\ map snd (returns_of t h) = fst (alone s cs).
Proof.
  intros (W & V & X & P & I) E F Et. assert (A : map fst (returns_of t h) = cs) by (eapply all_returned; eauto).
  split; auto. destruct (as_alone s programs W V X P I h c t cs E Et) as [_ B]. now rewrite A in B.
Qed.
Print Assumptions C75_finished.

(** Without [alone]: the other goroutines may be left out.  Goroutine [t] gets the
    answers of a run in which it is the only one. *)
Lemma shareable_one s programs t cs : shareable s programs -> nth_error programs t = Some cs -> shareable s [cs].
Proof.
  intros (W & V & X & P & I) E. apply nth_error_In in E. rewrite Forall_forall in V, X, P.
  split; [exact W|]. split; [|split; [|split]]; try (apply Forall_cons; [auto|apply Forall_nil]).
  intros [|[|u]] [|[|v]] a b d e x N; cbn; try congruence; intros; try congruence; destruct u; discriminate.
Qed.
Lemma same_pairs {A B} (l m : list (A * B)) : map fst l = map fst m -> map snd l = map snd m -> l = m.
Proof.
  revert m. induction l as [|[a b] l IH]; intros [|[a' b'] m]; cbn; try discriminate; auto.
  intros H1 H2. injection H1 as -> H1. injection H2 as -> H2. f_equal. auto.
Qed.
Theorem C75_others_left_out s programs h c t cs h1 c1 :
  shareable s programs -> nth_error programs t = Some cs ->
  exec do_call (start s programs) h c -> finished c ->
  exec do_call (start s [cs]) h1 c1 -> finished c1 ->
  returns_of t h = returns_of 0 h1.
Proof.
  intros S Et E F E1 F1. destruct (C75_finished s programs h c t cs S E F Et) as [A1 A2].
  destruct (C75_finished s [cs] h1 c1 0 cs (shareable_one _ _ _ _ S Et) E1 F1 eq_refl) as [B1 B2].
  apply same_pairs; congruence.
Qed.
Print Assumptions C75_others_left_out.

(** ** The buffer in the end *)

(** The buffer is in order, each goroutine has left the parts it writes as if alone,
    and the parts that nobody writes are as before. *)
Theorem C75_buffer s programs h c :
  shareable s programs -> exec do_call (start s programs) h c -> finished c ->
  WF (sh c) /\ b_buf (bb (sh c)) = b_buf (bb s) /\
  (forall t cs d x, nth_error programs t = Some cs -> In d cs -> writes3 d x = true ->
     part x (abs (sh c)) = part x (snd (alone s cs))) /\
  (forall x, (forall cs d, In cs programs -> In d cs -> writes3 d x = false) -> part x (abs (sh c)) = part x (abs s)).
Proof.
  intros S E F. pose proof S as (W & V & X & P & I). pose proof (rest_of_finished c F) as R.
  split; [eapply rest_WF; eauto|]. split; [eapply keeps_slice; eauto|]. split.
  - intros t cs d x Et Id Wx. destruct (C75_finished s programs h c t cs S E F Et) as [A _].
    rewrite <- A. eapply rest_own; eauto.
  - intros x N. eapply rest_frozen; eauto.
Qed.
Print Assumptions C75_buffer.

(** The same holds whenever no goroutine is inside a call. *)
Theorem C75_buffer_between_calls s programs h c :
  shareable s programs -> exec do_call (start s programs) h c ->
  (forall t g, nth_error (gs c) t = Some g -> cur g = None) ->
  WF (sh c) /\ b_buf (bb (sh c)) = b_buf (bb s) /\
  (forall t cs d x, nth_error programs t = Some cs -> In d cs -> writes3 d x = true ->
     part x (abs (sh c)) = part x (snd (alone s (map fst (returns_of t h))))) /\
  (forall x, (forall cs d, In cs programs -> In d cs -> writes3 d x = false) -> part x (abs (sh c)) = part x (abs s)).
Proof.
  intros (W & V & X & P & I) E R. split; [eapply rest_WF; eauto|]. split; [eapply keeps_slice; eauto|]. split.
  - intros t cs d x Et Id Wx. eapply rest_own; eauto.
  - intros x N. eapply rest_frozen; eauto.
Qed.
Print Assumptions C75_buffer_between_calls.

(** The schedule does not matter: answers, bytes, spare bytes and offsets are the same
    in every finished run. *)
Theorem C75_schedule_does_not_matter s programs h1 c1 h2 c2 :
  shareable s programs ->
  exec do_call (start s programs) h1 c1 -> finished c1 ->
  exec do_call (start s programs) h2 c2 -> finished c2 ->
  abs (sh c1) = abs (sh c2) /\ forall t, (t < List.length programs)%nat -> returns_of t h1 = returns_of t h2.
Proof.
  intros S E1 F1 E2 F2. split.
  - destruct (C75_buffer _ _ _ _ S E1 F1) as (W1 & B1 & O1 & N1). destruct (C75_buffer _ _ _ _ S E2 F2) as (W2 & B2 & O2 & N2).
    apply parts_abs; auto; [congruence|]. intro x. destruct (owner programs x) as [u|] eqn:O.
    + apply owner_some in O as (cs & d & E & I & X). rewrite (O1 u cs d x E I X), (O2 u cs d x E I X). reflexivity.
    + assert (N : forall cs d, In cs programs -> In d cs -> writes3 d x = false).
      { intros cs d Ic Id. apply In_nth_error in Ic as [t Et]. eapply owner_none; eauto. }
      rewrite N1, N2 by auto. reflexivity.
  - intros t L. apply nth_error_Some in L. destruct (nth_error programs t) as [cs|] eqn:Et; [|congruence].
    destruct (C75_finished _ _ _ _ _ _ S E1 F1 Et) as [A1 A2]. destruct (C75_finished _ _ _ _ _ _ S E2 F2 Et) as [A3 A4].
    apply same_pairs; congruence.
Qed.
Print Assumptions C75_schedule_does_not_matter.

(** ** Nobody waits *)

Theorem C75_never_waits s programs h c t g :
  shareable s programs -> exec do_call (start s programs) h c -> nth_error (gs c) t = Some g -> g <> mkG [] None ->
  exists e c', gstep do_call t c e c'.
Proof. intros (W & V & X & P & I). now apply never_stuck. Qed.
Print Assumptions C75_never_waits.

Theorem C75_all_return s programs h c :
  shareable s programs -> exec do_call (start s programs) h c ->
  exists h' c', exec do_call (start s programs) (h ++ h') c' /\ finished c'.
Proof.
  intros S E. pose proof (steps_finite do_call c) as A. revert h E. induction A as [c _ IH]. intros h E.
  assert (D : finished c \/ exists t g, nth_error (gs c) t = Some g /\ g <> mkG [] None).
  { unfold finished. clear. induction (gs c) as [|[os cu] l [F|(t & g & G & N)]]; [left; constructor| |right; exists (S t), g; auto].
    destruct os as [|o os], cu as [p|].
    - right. exists O. eexists. split; [reflexivity|discriminate].
    - left. constructor; auto.
    - right. exists O. eexists. split; [reflexivity|discriminate].
    - right. exists O. eexists. split; [reflexivity|discriminate]. }
  destruct D as [F|(t & g & G & N)].
  - exists [], c. rewrite app_nil_r. auto.
  - destruct (C75_never_waits s programs h c t g S E G N) as (e & c1 & G1).
    destruct (IH c1 (ex_intro _ t (ex_intro _ e G1)) (h ++ e)) as (h2 & c2 & E2 & D); [econstructor; eauto|].
    exists (e ++ h2), c2. rewrite app_assoc. auto.
Qed.
Print Assumptions C75_all_return.

(** ** Goroutines that use the buffer in a common way *)

(** Positional calls that stay within the bytes [lo, hi), also with the slices they
    return; the offsets and limits may be asked for. *)
Definition inside (lo hi : Z) (c : call slice) : Prop :=
  within lo hi c /\
  match c with At off (OReadBytes n) => lo <= off /\ off + n <= hi | CBytes => False | _ => True end.
Lemma inside_sees lo hi c i : inside lo hi c -> sees c (Byte i) = true -> lo <= i < hi.
Proof.
  intros [H K] X. unfold sees in X. apply orb_true_iff in X as [X|X]; [eapply within_bytes; eauto|].
  destruct c as [off []|[]| | | | | | | | | | | | | | | | | | |]; try discriminate X; try contradiction. lia.
Qed.
Lemma disjoint_independent programs (lo hi : nat -> Z) :
  (forall t cs, nth_error programs t = Some cs -> Forall (inside (lo t) (hi t)) cs) ->
  (forall t u, t <> u -> hi t <= lo u \/ hi u <= lo t) -> independent programs.
Proof.
  intros H D t u cs ds c d x N Et Eu Ic Id Wx. pose proof (H t cs Et) as F1. pose proof (H u ds Eu) as F2.
  rewrite Forall_forall in F1, F2. specialize (F1 c Ic). specialize (F2 d Id).
  destruct (within_others _ _ _ _ (proj1 F1) Wx) as [i ->]. pose proof (within_bytes _ _ _ i (proj1 F1) (or_intror Wx)).
  specialize (D t u N). split; apply Bool.not_true_is_false; intro Y; [pose proof (inside_sees _ _ _ _ F2 Y)|pose proof (within_bytes _ _ _ i (proj1 F2) (or_intror Y))]; lia.
Qed.
Lemma within_in_place lo hi c : within lo hi c -> in_place c.
Proof. destruct c; cbn; tauto. Qed.

(** Goroutines that keep to disjoint ranges of bytes. *)
Theorem C75_disjoint_ranges s programs (lo hi : nat -> Z) :
  WF s -> Forall (Forall (valid_call s)) programs -> Forall (Forall (separate s)) programs ->
  (forall t cs, nth_error programs t = Some cs -> Forall (inside (lo t) (hi t)) cs) ->
  (forall t u, t <> u -> hi t <= lo u \/ hi u <= lo t) -> shareable s programs.
Proof.
  intros W V X H D. split; [exact W|]. split; [exact V|]. split; [exact X|]. split; [|eapply disjoint_independent; eauto].
  apply Forall_forall. intros cs Ic. apply In_nth_error in Ic as [t Et]. specialize (H t cs Et). revert H. apply Forall_impl.
  intros c [H _]. eapply within_in_place; eauto.
Qed.
Print Assumptions C75_disjoint_ranges.

(** One goroutine that reads bytes with the byte offset, one that reads bits with the
    bit offset, and any number that read at positions of their own. *)
Theorem C75_one_reader_per_offset s programs t1 t2 :
  WF s -> Forall (Forall (valid_call s)) programs -> t1 <> t2 -> one_reader_each t1 t2 programs -> shareable s programs.
Proof.
  intros W V N H. split; [exact W|]. split; [exact V|]. split; [eapply one_reader_separate; eauto|]. split.
  - apply Forall_forall. intros cs Ic. apply In_nth_error in Ic as [t Et]. apply Forall_forall. intros c I.
    destruct (reader_kind _ _ _ _ _ _ H Et I) as [[_ X]|[[_ X]|X]]; destruct c as [? []|[]| | | | | | | | | | | | | | | | | | |]; cbn in *; tauto.
  - pose proof (one_reader_compatible t1 t2 programs N H) as C.
    intros t u cs ds c d x Ntu Et Eu Ic Id Wx.
    assert (Y : reads3 d x = false /\ writes3 d x = false).
    { split; apply Bool.not_true_is_false; intro Y; apply (C t u cs ds c d Ntu Et Eu Ic Id); exists x; auto. }
    split; [|apply Y]. unfold sees. rewrite (proj1 Y). cbn [orb].
    assert (B : forall i, x <> Byte i).
    { intros i ->. destruct (reader_kind _ _ _ _ _ _ H Et Ic) as [[_ X]|[[_ X]|X]]; destruct c as [? []|[]| | | | | | | | | | | | | | | | | | |]; cbn in *; try tauto; discriminate. }
    destruct x as [|f|i]; [| |congruence]; destruct d as [? []|[]| | | | | | | | | | | | | | | | | | |]; reflexivity.
Qed.
Print Assumptions C75_one_reader_per_offset.

(** Goroutines that only read. *)
Theorem C75_readers s programs :
  WF s -> Forall (Forall (valid_call s)) programs -> Forall (Forall reader) programs -> shareable s programs.
Proof.
  intros W V R. split; [exact W|]. split; [exact V|]. split; [|split].
  - revert R. apply Forall_impl. intro cs. apply Forall_impl. apply reader_separate.
  - revert R. apply Forall_impl. intro cs. apply Forall_impl. intros c. destruct c; cbn; tauto.
  - intros t u cs ds c d x N Et Eu Ic Id Wx. apply nth_error_In in Et. rewrite Forall_forall in R. specialize (R cs Et).
    rewrite Forall_forall in R. now rewrite reader_writes in Wx by auto.
Qed.
Print Assumptions C75_readers.

(** ** The Go text *)

Theorem C75_text pol s programs : shareable s programs ->
  exists N, forall n, (N <= n)%nat -> forall h c, exec (v3_text pol n) (start s programs) h c ->
    (forall t cs, nth_error programs t = Some cs ->
       prefix (map fst (returns_of t h)) cs /\
       map snd (returns_of t h) = fst (alone s (map fst (returns_of t h)))) /\
    (finished c ->
       WF (sh c) /\
       (forall t cs, nth_error programs t = Some cs -> map fst (returns_of t h) = cs) /\
       (forall t cs d x, nth_error programs t = Some cs -> In d cs -> writes3 d x = true ->
          part x (abs (sh c)) = part x (snd (alone s cs))) /\
       (forall x, (forall cs d, In cs programs -> In d cs -> writes3 d x = false) -> part x (abs (sh c)) = part x (abs s))).
Proof.
  intros S. pose proof S as (W & V & _). destruct (v3_text_same pol s programs W V) as [N HN]. exists N. intros n Hn h c E.
  destruct (matched_exec' _ _ _ _ _ _ (HN n Hn) E) as (c2 & E2 & X%matched_same).
  split. { intros t cs. now apply (C75_answers s programs h c2). }
  intro F. assert (F2 : finished c2) by now apply (same_finished _ _ X).
  destruct (C75_buffer s programs h c2 S E2 F2) as (B1 & _ & B2 & B3). rewrite <- (proj1 X).
  split; [exact B1|]. split; [|split; [exact B2|exact B3]].
  intros t cs Et. now apply (C75_finished s programs h c2 t cs).
Qed.
Print Assumptions C75_text.

(** ** Concrete cases *)

(** Three goroutines that keep to the bytes 0-1, 2-5 and 6 and up. *)
Definition three_parts : list (list (call slice)) :=
  [[At 0 (OWriteByte 7); At 8 OSetBit; At 0 (OReadBytes 2)];
   [At 2 (OWrite F32BE [1065353216]); At 2 (ORead U16LE 2); At 40 (OSetBits 5 8)];
   [At 6 (OWriteBytes (mkSlice 1 0 1 1)); At 6 OReadByte; At 9 OReadByte]].
Definition part_lo (t : nat) : Z := match t with O => 0 | 1%nat => 2 | 2%nat => 6 | _ => 20 + Z.of_nat t end.
Definition part_hi (t : nat) : Z := match t with O => 2 | 1%nat => 6 | 2%nat => 20 | _ => 20 + Z.of_nat t end.
Lemma three_parts_shareable : shareable shared3 three_parts.
Proof.
  apply (C75_disjoint_ranges _ _ part_lo part_hi).
  - apply C74_shared.
  - repeat (constructor || (cbn [valid_call valid_opn]; hyp) || (cbn; unfold is_i64, is_byte; lia)).
  - repeat (constructor; cbn [separate]; auto); discriminate.
  - intros [|[|[|t]]] cs E; [..|destruct t; discriminate E]; injection E as <-;
      (repeat (apply Forall_cons; [unfold inside; cbn [within reader part_lo part_hi s_len]; split; try exact I; try lia; try (change (tsize U16LE) with 2; lia); try (change (zlen [1065353216]) with 1; change (tsize F32BE) with 4; lia)|])); apply Forall_nil.
  - intros [|[|[|t]]] [|[|[|u]]] N; cbn [part_lo part_hi]; try lia; try congruence.
Qed.
Definition bytes_short : err := CrunchError "buffer" "read exceeds buffer capacity".
Example C75_case :
  shareable shared3 three_parts /\
  (exists h c, exec do_call (start shared3 three_parts) h c /\ finished c /\ content (sh c) = [7; 130; 63; 128; 0; 5; 9; 8] /\
     map snd (returns_of 0 h) = [Returned RUnit; Returned RUnit; Returned (RBytes [7; 130])] /\
     map snd (returns_of 2 h) = [Returned RUnit; Returned (RInt 9); Raised bytes_short]) /\
  fst (alone shared3 (nth 0 three_parts [])) = [Returned RUnit; Returned RUnit; Returned (RBytes [7; 130])].
Proof.
  split; [exact three_parts_shareable|].
  split; [|vm_compute; reflexivity].
  destruct (sched do_call [(0, 3); (1, 5); (2, 3); (1, 9); (0, 99); (2, 99); (1, 99); (0, 99); (1, 99); (2, 99); (2, 99); (0, 99)]%nat (start shared3 three_parts)) as [[h cfg]|] eqn:E; [|vm_compute in E; discriminate E].
  exists h, cfg. split; [eapply sched_sound; exact E|].
  vm_compute in E. injection E as <- <-. split; [repeat constructor|]. vm_compute. repeat split; reflexivity.
Qed.

(** Goroutines that do notice each other: a byte written by one and read back after
    a write by the other, and two writes at the byte offset. *)
Theorem C75_independence_needed :
  (exists h c, exec do_call (start shared3 [[At 0 (OWriteByte 7); At 0 OReadByte]; [At 0 (OWriteByte 9)]]) h c /\ finished c /\
     map snd (returns_of 0 h) = [Returned RUnit; Returned (RInt 9)] /\
     fst (alone shared3 [At 0 (OWriteByte 7); At 0 OReadByte]) = [Returned RUnit; Returned (RInt 7)]) /\
  (exists h c, exec do_call (start shared3 [[Next (OWriteByte 7)]; [Next (OWriteByte 9)]]) h c /\ finished c /\
     content (sh c) = [7; 2; 3; 4; 5; 6; 7; 8] /\ b_off (bb (sh c)) = 2).
Proof.
  split.
  - destruct (sched do_call [(0, 99); (1, 99); (0, 99)]%nat (start shared3 [[At 0 (OWriteByte 7); At 0 OReadByte]; [At 0 (OWriteByte 9)]])) as [[h cfg]|] eqn:E; [|vm_compute in E; discriminate E].
    exists h, cfg. split; [eapply sched_sound; exact E|].
    vm_compute in E. injection E as <- <-. split; [repeat constructor|]. vm_compute. split; reflexivity.
  - destruct (sched do_call [(0, 2); (1, 99); (0, 99)]%nat (start shared3 [[Next (OWriteByte 7)]; [Next (OWriteByte 9)]])) as [[h cfg]|] eqn:E; [|vm_compute in E; discriminate E].
    exists h, cfg. split; [eapply sched_sound; exact E|].
    vm_compute in E. injection E as <- <-. split; [repeat constructor|]. vm_compute. split; reflexivity.
Qed.
Print Assumptions C75_independence_needed.
