(** * Props_RaceExactMini: goroutines sharing a v1 or v2 [MiniBuffer] race exactly if
    calls of theirs conflict (C88).

    The calls are those of ExactSpec2.v, which take their places from their
    arguments, with arguments with which they return.  RaceMiniSpec2.v says which
    parts of the buffer a call reads and writes; [traced] and [race_free] are in
    Race.v. *)
From Coq Require Import ZArith List Bool Lia Arith ZifyBool.
From Verif Require Import GoSem Errors Spec GoLemmas Typed Calls Abs MiniAbs OldCalls V1Calls Abs2 MiniAbs2 Witness Conc ConcSpec ConcSched Race FrontConc.
From Verif Require Import RaceSpec3 Race3 RaceMiniSpec RaceMini RaceSpec RaceMiniSpec2 RaceMini2 ExactSpec ExactSpec2 RaceExact3 Props_Race3 Props_RaceMini Props_Race Props_RaceMini2.
Import ListNotations.
Open Scope Z_scope.
Open Scope list_scope.

(** A call with arguments that a Go program can pass, at a fixed place, where the
    buffer has bytes, that returns. *)
Definition old_fine (v : version) (pol : Z -> Z -> Z) (s : St) (u : old_use) : Prop :=
  old_fits v s u /\ placed_old (fst u) /\ on_bytes (bb s) (fst u) /\ returns (old_use_body v pol u) s.

(** Conflicting calls of different goroutines race, whatever the other calls are. *)
Theorem C88_conflict_races v pol s programs t u cs ds c d :
  WF s -> Forall (Forall (old_fine v pol s)) programs ->
  t <> u -> nth_error programs t = Some cs -> nth_error programs u = Some ds -> In c cs -> In d ds -> conflicting_old v (fst c) (fst d) ->
  exists tr cfg, traced (old_use_body v pol) (start s programs) tr cfg /\ ~ race_free tr.
Proof.
  intros W F. apply placed_old_race; auto. revert F. apply Forall_impl. intro e. apply Forall_impl. unfold old_fine, old_fits. tauto.
Qed.
Print Assumptions C88_conflict_races.

(** The goroutines are free of data races in all schedules if and only if no two
    calls of different goroutines conflict. *)
Theorem C88_exact v pol s programs : WF s -> Forall (Forall (old_fine v pol s)) programs ->
  (forall tr cfg, traced (old_use_body v pol) (start s programs) tr cfg -> race_free tr) <-> compatible_old v programs.
Proof.
  intros W F. split.
  - intros RF t u cs ds c d D P1 P2 I1 I2 K.
    destruct (C88_conflict_races v pol s programs t u cs ds c d) as (tr & cfg & T & N); auto. exact (N (RF tr cfg T)).
  - intros C tr cfg. apply C86_race_free; auto; revert F; apply Forall_impl; intro e; apply Forall_impl; unfold old_fine; tauto.
Qed.
Print Assumptions C88_exact.

(** ** The Go text *)

Theorem C88_text_exact v pol s programs : WF s -> Forall (Forall (old_fine v pol s)) programs ->
  exists N, forall n, (N <= n)%nat ->
    (forall tr cfg, traced (old_use_text v pol n) (start s programs) tr cfg -> race_free tr) <-> compatible_old v programs.
Proof.
  intros W F. destruct (old_text_same v pol s programs W) as [N HN].
  { revert F. apply Forall_impl. intro e. apply Forall_impl. unfold old_fine. tauto. }
  exists N. intros n Hn. rewrite <- (C88_exact v pol s programs W F). split; intros H tr cfg T.
  - destruct (matched_traced _ _ _ _ _ _ (HN n Hn) T) as (c2 & T2 & _). eauto.
  - destruct (matched_traced' _ _ _ _ _ _ (HN n Hn) T) as (c2 & T2 & _). eauto.
Qed.
Print Assumptions C88_text_exact.

(** ** Concrete cases *)

(** The goroutines of C86 meet the hypotheses and do not race. *)
Example C88_case v pol : WF shared /\ Forall (Forall (old_fine v pol shared)) old_ranges /\ compatible_old v old_ranges.
Proof.
  destruct (C86_case v pol) as (W & _ & V & C & _). split; auto. split; auto.
  assert (F : Forall (Forall (fun u : old_use => placed_old (fst u) /\ on_bytes (bb shared) (fst u) /\ returns (old_use_body v pol u) shared)) old_ranges).
  { repeat (apply Forall_cons || apply Forall_nil); (split; [exact I|split; [try exact I; vm_compute; discriminate|]]); destruct v; eexists _, _; vm_compute; reflexivity. }
  rewrite Forall_forall in *. intros cs J. specialize (V cs J). specialize (F cs J).
  rewrite Forall_forall in *. intros c K. split; [auto|]. now apply F.
Qed.

(** Two goroutines whose second calls share byte 5: some execution has a race. *)
Definition old_meet_at_5 : list (list old_use) :=
  [[(At2 8 (PSetBit 1), []); (At2 4 (PWrite NU16LE [513]), []); (KFlipAllBits, [])]; [(KOffset, []); (At2 46 (PReadBits 2), [0])]].
Example C88_meet v pol :
  Forall (Forall (old_fine v pol shared)) old_meet_at_5 /\ ~ compatible_old v old_meet_at_5 /\
  exists tr cfg, traced (old_use_body v pol) (start shared old_meet_at_5) tr cfg /\ ~ race_free tr.
Proof.
  assert (F : Forall (Forall (old_fine v pol shared)) old_meet_at_5).
  { repeat (apply Forall_cons || apply Forall_nil); (split; [|split; [exact I|split; [first [exact I|vm_compute; reflexivity|vm_compute; discriminate]|destruct v; eexists _, _; vm_compute; reflexivity]]]);
    unfold old_fits, valid_old_mini; cbn [fst snd old_mini_method old_mini_op valid_call2 valid_op2 valid_old_out separate_old];
    unfold is_i64, is_byte, is_u64, wf_data; change (zlen [513] * tsize (fmt NU16LE)) with 2; change maxAlloc with (2 ^ 48); repeat split; try lia. }
  assert (K : conflicting_old v (At2 4 (PWrite NU16LE [513])) (At2 46 (PReadBits 2))) by (exists (Byte 5); destruct v; split; [reflexivity|left; reflexivity|reflexivity|left; reflexivity]).
  destruct C72_shared as [W _].
  split; [exact F|]. split.
  - intro C. apply (C 0%nat 1%nat _ _ (At2 4 (PWrite NU16LE [513]), []) (At2 46 (PReadBits 2), [0]) ltac:(discriminate) eq_refl eq_refl); cbn [In fst]; auto.
  - eapply (C88_conflict_races v pol shared old_meet_at_5 0%nat 1%nat _ _ (At2 4 (PWrite NU16LE [513]), []) (At2 46 (PReadBits 2), [0])); auto;
      try reflexivity; try discriminate; cbn [In]; auto.
Qed.
