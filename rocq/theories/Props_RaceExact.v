(** * Props_RaceExact: goroutines sharing a v3 buffer race exactly if calls of theirs
    conflict (C83).

    The calls are those of ExactSpec.v, which take their places from their
    arguments, with arguments with which they return.  RaceSpec3.v and RaceMiniSpec.v say
    which parts of the buffer a call reads and writes; [traced] and [race_free] are
    in Race.v. *)
From Coq Require Import ZArith List Bool Lia Arith ZifyBool.
From Verif Require Import GoSem Errors Spec GoLemmas Typed Calls Abs MiniAbs Witness Conc ConcSpec ConcSched Race FrontConc.
From Verif Require Import RaceSpec3 Race3 RaceMiniSpec RaceMini ExactSpec RaceExact2 Props_Race3 Props_RaceMini.
Import ListNotations.
Open Scope Z_scope.
Open Scope list_scope.

(** A call with arguments that a Go program can pass, at a fixed place, that returns. *)
Definition fine (s : St) (c : call slice) : Prop := valid_call s c /\ separate s c /\ placed c /\ returns (do_call c) s.

(** ** The Buffer *)

(** Conflicting calls of different goroutines race, whatever the other calls are. *)
Theorem C83_conflict_races s programs t u cs ds c d :
  WF s -> Forall (Forall (fine s)) programs ->
  t <> u -> nth_error programs t = Some cs -> nth_error programs u = Some ds -> In c cs -> In d ds -> conflicting3 c d ->
  exists tr cfg, traced do_call (start s programs) tr cfg /\ ~ race_free tr.
Proof.
  intros W F. apply placed_race; auto. revert F. apply Forall_impl. intro e. apply Forall_impl. unfold fine. tauto.
Qed.
Print Assumptions C83_conflict_races.

(** The goroutines are free of data races in all schedules if and only if no two
    calls of different goroutines conflict. *)
Theorem C83_exact s programs : WF s -> Forall (Forall (fine s)) programs ->
  (forall tr cfg, traced do_call (start s programs) tr cfg -> race_free tr) <-> compatible3 programs.
Proof.
  intros W F. split.
  - intros RF t u cs ds c d D P1 P2 I1 I2 K.
    destruct (C83_conflict_races s programs t u cs ds c d) as (tr & cfg & T & N); auto. exact (N (RF tr cfg T)).
  - intros C tr cfg. apply C74_race_free; auto; revert F; apply Forall_impl; intro e; apply Forall_impl; unfold fine; tauto.
Qed.
Print Assumptions C83_exact.

(** ** The MiniBuffer *)

(** The data of a WriteBytes must fit; the rest of it would not be written. *)
Definition mini_fine (s : St) (u : mini_use) : Prop :=
  mini_fits s u /\ placed (fst u) /\ fits_in (bb s) (fst u) /\ returns (mini_body u) s.

Theorem C83_mini_conflict_races s programs t u cs ds c d :
  WF s -> Forall (Forall (mini_fine s)) programs ->
  t <> u -> nth_error programs t = Some cs -> nth_error programs u = Some ds -> In c cs -> In d ds -> conflicting_mini (fst c) (fst d) ->
  exists tr cfg, traced mini_body (start s programs) tr cfg /\ ~ race_free tr.
Proof.
  intros W F. apply placed_mini_race; auto. revert F. apply Forall_impl. intro e. apply Forall_impl. unfold mini_fine, mini_fits. tauto.
Qed.
Print Assumptions C83_mini_conflict_races.

Theorem C83_mini_exact s programs : WF s -> Forall (Forall (mini_fine s)) programs ->
  (forall tr cfg, traced mini_body (start s programs) tr cfg -> race_free tr) <-> compatible_mini programs.
Proof.
  intros W F. split.
  - intros RF t u cs ds c d D P1 P2 I1 I2 K.
    destruct (C83_mini_conflict_races s programs t u cs ds c d) as (tr & cfg & T & N); auto. exact (N (RF tr cfg T)).
  - intros C tr cfg. apply C82_race_free; auto; revert F; apply Forall_impl; intro e; apply Forall_impl; unfold mini_fine; tauto.
Qed.
Print Assumptions C83_mini_exact.

(** ** The Go text *)

Theorem C83_text_exact pol s programs : WF s -> Forall (Forall (fine s)) programs ->
  exists N, forall n, (N <= n)%nat ->
    (forall tr cfg, traced (v3_text pol n) (start s programs) tr cfg -> race_free tr) <-> compatible3 programs.
Proof.
  intros W F. destruct (v3_text_same pol s programs W) as [N HN].
  { revert F. apply Forall_impl. intro e. apply Forall_impl. unfold fine. tauto. }
  exists N. intros n Hn. rewrite <- (C83_exact s programs W F). split; intros H tr cfg T.
  - destruct (matched_traced _ _ _ _ _ _ (HN n Hn) T) as (c2 & T2 & _). eauto.
  - destruct (matched_traced' _ _ _ _ _ _ (HN n Hn) T) as (c2 & T2 & _). eauto.
Qed.
Print Assumptions C83_text_exact.

Theorem C83_text_mini_exact pol s programs : WF s -> Forall (Forall (mini_fine s)) programs ->
  exists N, forall n, (N <= n)%nat ->
    (forall tr cfg, traced (mini_text pol n) (start s programs) tr cfg -> race_free tr) <-> compatible_mini programs.
Proof.
  intros W F. destruct (mini_text_same pol s programs W) as [N HN].
  { revert F. apply Forall_impl. intro e. apply Forall_impl. unfold mini_fine. tauto. }
  exists N. intros n Hn. rewrite <- (C83_mini_exact s programs W F). split; intros H tr cfg T.
  - destruct (matched_traced _ _ _ _ _ _ (HN n Hn) T) as (c2 & T2 & _). eauto.
  - destruct (matched_traced' _ _ _ _ _ _ (HN n Hn) T) as (c2 & T2 & _). eauto.
Qed.
Print Assumptions C83_text_mini_exact.

(** ** Concrete cases *)

(** The goroutines of C74 and C82 meet the hypotheses and do not race. *)
Example C83_case :
  WF shared3 /\ Forall (Forall (fine shared3)) three_ranges /\ compatible3 three_ranges /\
  Forall (Forall (mini_fine shared3)) mini_ranges /\ compatible_mini mini_ranges.
Proof.
  destruct C74_case as (W & V & S & _ & _ & C & _). destruct C82_case as (_ & _ & V2 & C2 & _). split; auto.
  split; [|split; [auto|split; [|auto]]].
  - assert (F : Forall (Forall (fun c => placed c /\ returns (do_call c) shared3)) three_ranges).
    { repeat (apply Forall_cons || apply Forall_nil); (split; [exact I|]); eexists _, _; vm_compute; reflexivity. }
    rewrite Forall_forall in *. intros cs J. specialize (V cs J). specialize (S cs J). specialize (F cs J).
    rewrite Forall_forall in *. intros c K. split; [auto|]. split; [auto|]. now apply F.
  - assert (F : Forall (Forall (fun u => placed (fst u) /\ fits_in (bb shared3) (fst u) /\ returns (mini_body u) shared3)) mini_ranges).
    { repeat (apply Forall_cons || apply Forall_nil); (split; [exact I|split; [try exact I; cbn; lia|]]); eexists _, _; vm_compute; reflexivity. }
    rewrite Forall_forall in *. intros cs J. specialize (V2 cs J). specialize (F cs J).
    rewrite Forall_forall in *. intros c K. split; [auto|]. now apply F.
Qed.

(** Two goroutines whose second calls share byte 5: some execution has a race. *)
Definition meet_at_5 : list (list (call slice)) :=
  [[At 0 (OWriteByte 7); At 4 (OWrite U16LE [513]); At 9 OSetBit]; [At 3 OReadByte; At 46 (OReadBits 2)]].
Example C83_meet :
  Forall (Forall (fine shared3)) meet_at_5 /\ ~ compatible3 meet_at_5 /\
  exists tr cfg, traced do_call (start shared3 meet_at_5) tr cfg /\ ~ race_free tr.
Proof.
  assert (F : Forall (Forall (fine shared3)) meet_at_5).
  { repeat (apply Forall_cons || apply Forall_nil); (split; [cbn [valid_call valid_opn]; unfold is_i64, is_byte, wf_data; change (tsize U16LE * 1) with 2; change (zlen [513] * tsize U16LE) with 2; change maxAlloc with (2 ^ 48); try lia|split; [exact I|split; [exact I|]]]);
      unfold returns; (eexists; eexists; vm_compute; reflexivity). }
  assert (K : conflicting3 (At 4 (OWrite U16LE [513])) (At 46 (OReadBits 2))) by (exists (Byte 5); split; [reflexivity|left; reflexivity]).
  split; [exact F|]. split.
  - intro C. apply (C 0%nat 1%nat _ _ (At 4 (OWrite U16LE [513])) (At 46 (OReadBits 2)) ltac:(discriminate) eq_refl eq_refl); cbn; auto.
  - eapply (C83_conflict_races shared3 meet_at_5 0%nat 1%nat _ _ (At 4 (OWrite U16LE [513])) (At 46 (OReadBits 2))); auto;
      try apply C74_shared; try reflexivity; try discriminate; cbn; auto.
Qed.
