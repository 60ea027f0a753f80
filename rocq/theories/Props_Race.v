(** * Props_Race: data races on a v1 or v2 [Buffer] shared by goroutines (C72).

    Any number of goroutines make any calls on one buffer, in any schedule.
    [traced] lists the memory accesses of an execution, [race_free] is the
    definition of the Go memory model (Race.v), and RaceSpec.v says which calls
    may run at the same time. *)
From Coq Require Import ZArith List Bool Lia Arith.
From Verif Require Import GoSem Errors Spec GoLemmas Calls OldCalls V1Calls Conc ConcSpec ConcSched Race RaceSpec RaceLemmas RaceOld Witness.
Import ListNotations.
Open Scope Z_scope.
Open Scope list_scope.

(** ** Compatible calls do not race *)

Theorem C72_v2_race_free pol s programs tr c :
  WF s -> Forall (Forall (valid_call2 s)) programs -> compatible false programs ->
  traced (do2_call pol) (start s programs) tr c -> race_free tr.
Proof.
  intros W. apply (compatible_race_free false); [|apply wf_blk; exact W].
  intros m t d L V _ R X. eapply disc_call2; eauto.
Qed.
Print Assumptions C72_v2_race_free.

Theorem C72_v1_race_free pol s programs tr c :
  WF s -> Forall (Forall (valid_call2 s)) programs -> ~ In KReset (concat programs) -> compatible true programs ->
  traced (v1_call pol) (start s programs) tr c -> race_free tr.
Proof.
  intros W V N. revert V. apply (compatible_race_free true); [|apply wf_blk; exact W].
  intros m t d L V I R X. unfold v1_call. destruct (do1_call pol d) as [p|] eqn:E; [eapply disc_call1; eauto|].
  destruct d; try discriminate E. contradiction.
Qed.
Print Assumptions C72_v1_race_free.

(** ** Goroutines that use the buffer in a common way *)

(** Positional calls on bits, bytes and integers, and the calls on all bits;
    without ReadByte, and in v1 without the integer reads. *)
Definition positional (v1 : bool) (c : call2 slice) : Prop :=
  match c with
  | At2 _ PReadByte => False
  | At2 _ (PRead _ _) => v1 = false
  | At2 _ _ | KClearAllBits | KSetAllBits | KFlipAllBits => True
  | _ => False
  end.
(** Calls of a goroutine that alone moves and reads the offsets. *)
Definition cursor_call (v1 : bool) (c : call2 slice) : Prop :=
  match c with
  | Next2 PReadByte => False
  | Next2 (PRead _ _) => v1 = false
  | Next2 _ | KSeek _ _ | KSeekBit _ _ | KAlignBit | KAlignByte | KOffset | KBitOffset | KAfter _ | KAfterBit _
  | KCapacity | KBitCapacity | KBytes => True
  | _ => positional v1 c
  end.
(** Calls that write nothing. *)
Definition query (c : call2 slice) : Prop :=
  match c with
  | At2 _ (PReadBit | PReadBits _ | PReadBytes _ | PReadByte | PRead _ _)
  | KAfterBit _ | KAfter _ | KBytes | KCapacity | KBitCapacity | KOffset | KBitOffset => True
  | _ => False
  end.

Definition allowed (v1 : bool) (programs : list (list (call2 slice))) : Prop :=
  (exists t0, forall t cs, nth_error programs t = Some cs ->
     Forall (if (t =? t0)%nat then cursor_call v1 else positional v1) cs) \/
  Forall (Forall query) programs.

Lemma allowed_compatible v1 programs : allowed v1 programs -> compatible v1 programs.
Proof.
  assert (A : forall c d, cursor_call v1 c -> positional v1 d -> ~ conflicting v1 c d /\ ~ conflicting v1 d c).
  { intros c d C D; split; intros (g & W & B).
    - destruct c as [? []|[]| | | |? ?|? ?|[]|[]| | |?| | | | | | |]; cbn in C, W; try tauto;
      destruct d as [? []|[]| | | |? ?|? ?|[]|[]| | |?| | | | | | |]; cbn in D, B; try tauto;
      try rewrite D in B; cbn in B; intuition congruence.
    - destruct d as [? []|[]| | | |? ?|? ?|[]|[]| | |?| | | | | | |]; cbn in D, W; try tauto;
      destruct c as [? []|[]| | | |? ?|? ?|[]|[]| | |?| | | | | | |]; cbn in C, B; try tauto;
      try rewrite C in B; cbn in B; intuition congruence. }
  assert (P : forall c, positional v1 c -> cursor_call v1 c) by (intros [? []|[]| | | |? ?|? ?|[]|[]| | |?| | | | | | |]; cbn; tauto).
  intros [[t0 F]|F] t u cs ds c d N E1 E2 I1 I2 X.
  - assert (F1 := F t cs E1). assert (F2 := F u ds E2). rewrite Forall_forall in F1, F2.
    specialize (F1 c I1). specialize (F2 d I2).
    destruct (Nat.eqb_spec t t0), (Nat.eqb_spec u t0); subst; try congruence.
    + exact (proj1 (A c d F1 F2) X).
    + exact (proj2 (A d c F2 F1) X).
    + exact (proj1 (A c d (P c F1) F2) X).
  - apply nth_error_In in E1. rewrite Forall_forall in F. specialize (F cs E1). rewrite Forall_forall in F.
    specialize (F c I1). destruct X as (g & W & _). destruct c as [? []| | | | | | | | | | | | | | | | | |]; cbn in *; tauto.
Qed.

(** All goroutines make positional calls; one of them may use the offsets too.  Or
    none writes. *)
Theorem C72_v2_common_uses pol s programs tr c :
  WF s -> Forall (Forall (valid_call2 s)) programs -> allowed false programs ->
  traced (do2_call pol) (start s programs) tr c -> race_free tr.
Proof. intros W V A. apply C72_v2_race_free; auto. now apply allowed_compatible. Qed.
Print Assumptions C72_v2_common_uses.

Theorem C72_v1_common_uses pol s programs tr c :
  WF s -> Forall (Forall (valid_call2 s)) programs -> allowed true programs ->
  traced (v1_call pol) (start s programs) tr c -> race_free tr.
Proof.
  intros W V A. apply C72_v1_race_free; auto; [|now apply allowed_compatible].
  intro I. apply in_concat in I as (cs & I1 & I2). destruct A as [[t0 F]|F].
  - apply In_nth_error in I1 as [t E]. specialize (F t cs E). rewrite Forall_forall in F. specialize (F _ I2).
    destruct (t =? t0)%nat; exact F.
  - rewrite Forall_forall in F. specialize (F cs I1). rewrite Forall_forall in F. exact (F _ I2).
Qed.
Print Assumptions C72_v1_common_uses.

(** The calls of C44 do not race: the memory model promises them the sequential
    consistency that the goroutine model assumes. *)
Theorem C72_bit_calls pol s programs tr c :
  WF s -> Forall (Forall (valid_call2 s)) programs -> Forall (Forall bit_call) programs ->
  traced (do2_call pol) (start s programs) tr c -> race_free tr.
Proof.
  intros W V B. apply C72_v2_common_uses; auto. left. exists (length programs). intros t cs E.
  assert (L : (t < length programs)%nat) by (apply nth_error_Some; congruence).
  replace (t =? length programs)%nat with false by (symmetry; apply Nat.eqb_neq; lia).
  apply nth_error_In in E. rewrite Forall_forall in B. specialize (B cs E). revert B. apply Forall_impl.
  intros [? []| | | | | | | | | | | | | | | | | |]; cbn; tauto.
Qed.
Print Assumptions C72_bit_calls.

(** ** Calls that are not compatible race *)

(** The call of the same method with small arguments. *)
Definition typical_op (o : op2 slice) : op2 slice :=
  match o with
  | PReadBits _ => PReadBits 1
  | PSetBit _ => PSetBit 1
  | PSetBits _ _ => PSetBits 1 1
  | PWriteBytes _ => PWriteBytes (mkSlice 1 0 1 1)
  | PWriteByte _ => PWriteByte 5
  | PReadBytes _ => PReadBytes 1
  | PWrite t _ => PWrite t [1]
  | PRead t _ => PRead t 1
  | PReadBit => PReadBit | PFlipBit => PFlipBit | PReadByte => PReadByte
  end.
Definition typical (c : call2 slice) : call2 slice :=
  match c with
  | At2 _ o => At2 0 (typical_op o)
  | Next2 o => Next2 (typical_op o)
  | KSeekBit _ r => KSeekBit 1 r
  | KSeek _ r => KSeek 1 r
  | KAfterBit (Some _) => KAfterBit (Some 0)
  | KAfter (Some _) => KAfter (Some 0)
  | KGrow _ => KGrow 1
  | c => c
  end.
(** Sixteen bytes, with room for eight more, and one byte of the caller. *)
Definition shared : St :=
  mkSt [[1; 2; 3; 4; 5; 6; 7; 8; 9; 10; 11; 12; 13; 14; 15; 16; 0; 0; 0; 0; 0; 0; 0; 0]; [9]]
    (mkBuf (mkSlice 0 0 16 24) 0 16 0 128) false [].

Example C72_shared : WF shared /\ mu shared = false /\ forall c, valid_call2 shared (typical c).
Proof.
  split; [wf_state|]. split; [reflexivity|].
  intros [? [| | | | | | | | |[]|[]]|[| | | | | | | | |[]|[]]| | | |? ?|? ?|[]|[]| | |?| | | | | | |];
    cbn [typical typical_op valid_call2 valid_op2]; try exact I; repeat split; try lia; hyp.
Qed.

Lemma typical_bare v1 c : bare v1 (typical c) = bare v1 c.
Proof. destruct c as [? []|[]| | | |? ?|? ?|[]|[]| | |?| | | | | | |]; reflexivity. Qed.

Lemma typical_written c : written (typical c) = written c.
Proof. destruct c as [? []|[]| | | |? ?|? ?|[]|[]| | |?| | | | | | |]; reflexivity. Qed.

Definition racing (body : call2 slice -> prog (rv slice)) (c d : call2 slice) : Prop :=
  exists tr cfg, traced body (start shared [[typical c]; [typical d]]) tr cfg /\ ~ race_free tr.

Definition formats : list uty := [NU16LE; NU16BE; NU32LE; NU32BE; NU64LE; NU64BE].
Definition typical_ops : list (op2 slice) :=
  [PReadBit; PReadBits 1; PSetBit 1; PSetBits 1 1; PFlipBit; PWriteBytes (mkSlice 1 0 1 1); PWriteByte 5; PReadBytes 1; PReadByte]
  ++ map (fun t => PWrite t [1]) formats ++ map (fun t => PRead t 1) formats.
Definition typical_calls : list (call2 slice) :=
  map (At2 0) typical_ops ++ map Next2 typical_ops ++
  [KClearAllBits; KSetAllBits; KFlipAllBits; KSeekBit 1 true; KSeekBit 1 false; KSeek 1 true; KSeek 1 false;
   KAfterBit None; KAfterBit (Some 0); KAfter None; KAfter (Some 0); KAlignBit; KAlignByte; KGrow 1; KRefresh; KReset;
   KBytes; KCapacity; KBitCapacity; KOffset; KBitOffset].
Lemma typical_listed c : In (typical c) typical_calls.
Proof.
  destruct c as [? [| | | | | | | | |[]|[]]|[| | | | | | | | |[]|[]]| | | |? []|? []|[]|[]| | |?| | | | | | |];
    cbn; repeat (first [left; reflexivity|right]).
Qed.

Definition conflictb (v1 : bool) (c d : call2 slice) : bool :=
  existsb (fun g => existsb (item_eqb g) (bare v1 d)) (written c).
Lemma conflictb_true v1 c d : conflicting v1 c d -> conflictb v1 c d = true.
Proof.
  intros (g & W & B). apply existsb_exists. exists g. split; auto. apply existsb_exists. exists g. split; auto.
  now apply item_eqb_true.
Qed.

Definition all_race (v1 : bool) (body : call2 slice -> prog (rv slice)) (l : list (call2 slice)) : bool :=
  forallb (fun c => forallb (fun d => if conflictb v1 c d then racy 99 (body c) (body d) shared else true) l) l.
Lemma all_race_in v1 body l c d : all_race v1 body l = true -> In c l -> In d l -> conflicting v1 c d ->
  racy 99 (body c) (body d) shared = true.
Proof.
  intros H C D X. unfold all_race in H. rewrite forallb_forall in H. specialize (H c C). cbv beta in H.
  rewrite forallb_forall in H. specialize (H d D). cbv beta in H. now rewrite conflictb_true in H.
Qed.

Lemma all_race_v2 pol : all_race false (do2_call pol) typical_calls = true.
Proof. vm_compute. reflexivity. Qed.
Definition not_reset (c : call2 slice) : bool := match c with KReset => false | _ => true end.
Lemma all_race_v1 pol : all_race true (v1_call pol) (filter not_reset typical_calls) = true.
Proof. vm_compute. reflexivity. Qed.

(** For every two methods in conflict there are arguments, a buffer and a schedule
    for which the two calls race: no entry of the table can be left out. *)
Theorem C72_v2_conflicting_calls_race pol c d : conflicting false c d -> racing (do2_call pol) c d.
Proof.
  intro X. unfold racing. apply (racy_start (do2_call pol) 99). apply (all_race_in false _ typical_calls).
  - apply all_race_v2.
  - apply typical_listed.
  - apply typical_listed.
  - unfold conflicting. now rewrite typical_bare, typical_written.
Qed.
Print Assumptions C72_v2_conflicting_calls_race.

Theorem C72_v1_conflicting_calls_race pol c d : c <> KReset -> d <> KReset -> conflicting true c d -> racing (v1_call pol) c d.
Proof.
  intros C D X. unfold racing. apply (racy_start (v1_call pol) 99). apply (all_race_in true _ (filter not_reset typical_calls)).
  - apply all_race_v1.
  - apply filter_In. split; [apply typical_listed|]. destruct c; try reflexivity; try congruence; match goal with |- context [KAfter ?o] => destruct o | |- context [KAfterBit ?o] => destruct o end; reflexivity.
  - apply filter_In. split; [apply typical_listed|]. destruct d; try reflexivity; try congruence; match goal with |- context [KAfter ?o] => destruct o | |- context [KAfterBit ?o] => destruct o end; reflexivity.
  - unfold conflicting. now rewrite typical_bare, typical_written.
Qed.
Print Assumptions C72_v1_conflicting_calls_race.

(** ** Concrete cases *)

(** Four goroutines: one moves along the buffer and asks for offsets; the others
    set, flip and read bits, bytes and integers of the same memory. *)
Definition four_users : list (list (call2 slice)) :=
  [[Next2 (PWriteByte 7); KOffset; Next2 (PReadBytes 1); KSeek 0 false; Next2 (PSetBit 1); KBitOffset];
   [At2 0 (PSetBit 1); At2 0 (PWriteBytes (mkSlice 1 0 1 1)); KFlipAllBits];
   [At2 0 (PReadBytes 2); At2 0 (PWrite NU16BE [258]); At2 3 PFlipBit];
   [At2 0 (PReadBits 9); At2 0 (PWriteByte 4)]].
Example C72_case :
  WF shared /\ Forall (Forall (valid_call2 shared)) four_users /\ allowed false four_users /\ allowed true four_users /\
  exists tr cfg, traced (do2_call (fun _ n => n)) (start shared four_users) tr cfg /\ finished cfg /\
    (exists i j t u, (i < j)%nat /\ t <> u /\ nth_error tr i = Some (t, Wr (LByte 0 0)) /\ nth_error tr j = Some (u, Wr (LByte 0 0))).
Proof.
  split; [apply C72_shared|].
  split; [repeat (constructor || (cbn [valid_call2 valid_op2]; hyp) || (cbn; unfold is_i64, is_byte; lia))|].
  split; [left; exists 0%nat; intros [|[|[|[|t]]]] cs E; [..|destruct t; discriminate E]; injection E as <-; repeat constructor|].
  split; [left; exists 0%nat; intros [|[|[|[|t]]]] cs E; [..|destruct t; discriminate E]; injection E as <-; repeat constructor|].
  destruct (tsched (do2_call (fun _ n => n)) [(0, 4); (1, 3); (2, 2); (3, 2); (1, 99); (0, 99); (2, 99); (3, 99); (0, 99); (1, 99); (2, 99); (3, 99)]%nat
              (start shared four_users)) as [tr cfg] eqn:E.
  exists tr, cfg. split; [eapply tsched_sound; exact E|].
  vm_compute in E. injection E as <- <-. split; [repeat constructor|].
  exists 10%nat, 88%nat, 1%nat, 0%nat. repeat split; [lia|discriminate].
Qed.

(** Two goroutines that use the offset race, as do a ReadByte and a WriteByte, and
    a Capacity and a Refresh. *)
Example C72_conflicts :
  conflicting false (Next2 (PReadBytes 4)) (Next2 (PReadBytes 4)) /\
  conflicting false (At2 0 (PWriteByte 1)) (At2 0 PReadByte) /\
  conflicting false KRefresh KCapacity /\
  conflicting true (At2 0 (PWriteByte 1)) (At2 0 (PRead NU16LE 1)) /\
  ~ conflicting false (At2 0 (PWriteByte 1)) (At2 0 (PRead NU16LE 1)).
Proof.
  repeat split; unfold conflicting; cbn.
  - exists (Field FOff). auto.
  - exists Contents. auto.
  - exists (Field FCap). auto.
  - exists Contents. auto.
  - intros (g & [<-|[]] & [E|[]]). discriminate.
Qed.
