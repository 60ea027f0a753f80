(** * Props_FrontConcV1: goroutines that run the Go text of v1 (C76).

    The theorems of Props_ConcV1.v about the text of v1/buffer.go instead of the
    models, as Props_FrontConc.v has for v2. *)
From Coq Require Import ZArith List Bool String Lia.
From Verif Require Import GoSem Errors GoParse Conv GoEval Front Tables FrontCalls.
From Verif Require Import Spec GoLemmas Calls Abs History OldCalls V1Lemmas V1Calls Abs2 Witness Conc ConcSpec ConcSpec1 ConcSched.
From Verif Require Import Race RaceSpec FrontOldCalls Enough FrontConc Props_Abs2 Props_FrontRace.
From Verif Require ConcV2 Props_Conc Props_ConcV1.
Import ListNotations.
Open Scope Z_scope.
Open Scope list_scope.

Definition gor := Props_Conc.gor.

Lemma text1 pol s programs (P : call2 slice -> Prop) :
  WF s -> (forall c, P c -> valid_call2 s c /\ c <> KReset) -> gor programs P ->
  exists N, forall n, (N <= n)%nat -> matched (v1_call pol) (text_call V1 pol n) (start s programs) (start s programs).
Proof.
  intros W H F. apply (text_same V1 pol s programs W). revert F. apply Forall_impl. intros l. apply Forall_impl.
  intros c X. destruct (H c X). split; auto. now intro.
Qed.

(** The same histories, and the same memory at every point of them. *)
Theorem C76_text_same_executions pol s programs :
  WF s -> gor programs (fun c => valid_call2 s c /\ c <> KReset) ->
  exists N, forall n, (N <= n)%nat -> forall h m,
    (exists cfg, exec (text_call V1 pol n) (start s programs) h cfg /\ sh cfg = m) <->
    (exists cfg, exec (v1_call pol) (start s programs) h cfg /\ sh cfg = m).
Proof.
  intros W F. destruct (text1 pol s programs _ W (fun c X => X) F) as [N HN]. exists N. intros n Hn h m. specialize (HN n Hn). split.
  - intros (cfg & E & <-). destruct (matched_exec' _ _ _ _ _ _ HN E) as (c2 & E2 & M). exists c2. split; auto.
    apply (matched_same _ _ _ _ M).
  - intros (cfg & E & <-). destruct (matched_exec _ _ _ _ _ _ HN E) as (c2 & E2 & M). exists c2. split; auto.
    symmetry. apply (matched_same _ _ _ _ M).
Qed.
Print Assumptions C76_text_same_executions.

Lemma not_reset s c : valid_call2 s c /\ atomic_call1 s c -> valid_call2 s c /\ c <> KReset.
Proof. intros [V A]. split; auto. intros ->. exact A. Qed.

Theorem C76_text_linearizable pol s programs :
  WF s -> mu s = false -> gor programs (fun c => valid_call2 s c /\ atomic_call1 s c) ->
  exists N, forall n, (N <= n)%nat -> forall h cfg,
    exec (text_call V1 pol n) (start s programs) h cfg ->
    exists a, linearizable (seq_v1 (heap s)) (abs s) h a /\
      (quiescent cfg -> abs (sh cfg) = a /\ (mu (sh cfg) = true -> mutex_lost h)).
Proof.
  intros W M F. destruct (text1 pol s programs _ W (not_reset s) F) as [N HN].
  exists N. intros n Hn h cfg E. destruct (matched_exec' _ _ _ _ _ _ (HN n Hn) E) as (c2 & E2 & X%matched_same).
  destruct (Props_ConcV1.C76_linearizable pol s programs h c2 W M F E2) as (a & L & Q). exists a. split; [exact L|].
  rewrite <- (proj1 X). intros H. apply Q. now apply (same_quiescent _ _ X).
Qed.
Print Assumptions C76_text_linearizable.

Theorem C76_text_no_flip_lost pol s programs :
  WF s -> mu s = false ->
  gor programs (fun c => exists off, c = At2 off PFlipBit /\ 0 <= off < 8 * zlen (content s)) ->
  exists N, forall n, (N <= n)%nat -> forall h cfg,
    exec (text_call V1 pol n) (start s programs) h cfg -> finished cfg ->
    forall i, 0 <= i < 8 * zlen (content s) ->
    bit_at (content (sh cfg)) i = xorb (bit_at (content s) i) (Nat.odd (Props_Conc.flips_of i (List.concat programs))).
Proof.
  intros W M F.
  destruct (text1 pol s programs (fun c => exists off, c = At2 off PFlipBit /\ 0 <= off < 8 * zlen (content s)) W) as [N HN]; auto.
  { intros c (off & -> & Ho). split; [|discriminate]. split; [|exact I].
    rewrite content_zlen in Ho by auto. pose proof (ConcV2.hdr_small s W). unfold is_i64. lia. }
  exists N. intros n Hn h cfg E Fin i Hi. destruct (matched_exec' _ _ _ _ _ _ (HN n Hn) E) as (c2 & E2 & X%matched_same).
  rewrite <- (proj1 X). apply (Props_ConcV1.C76_no_flip_lost pol s programs h c2 i W M F E2); auto.
  now apply (same_finished _ _ X).
Qed.
Print Assumptions C76_text_no_flip_lost.

Theorem C76_text_writes_whole pol s programs t off :
  WF s -> mu s = false -> 0 <= off -> off + tsize (fmt t) <= zlen (content s) ->
  gor programs (fun c => exists v, in_format (fmt t) v /\ c = At2 off (PWrite t [v])) ->
  exists N, forall n, (N <= n)%nat -> forall h cfg,
    exec (text_call V1 pol n) (start s programs) h cfg -> quiescent cfg ->
    decode_all (fmt t) (content (sh cfg)) off 1 = decode_all (fmt t) (content s) off 1 \/
    exists v, In (At2 off (PWrite t [v])) (List.concat programs) /\ decode_all (fmt t) (content (sh cfg)) off 1 = [v].
Proof.
  intros W M Ho Hl F.
  destruct (text1 pol s programs (fun c => exists v, in_format (fmt t) v /\ c = At2 off (PWrite t [v])) W) as [N HN]; auto.
  { rewrite content_zlen in Hl by auto. pose proof (ConcV2.hdr_small s W).
    assert (T : 1 <= tsize (fmt t) <= 8) by (destruct t; vm_compute; split; discriminate).
    intros c (v & _ & ->). split; [|discriminate]. split; [unfold is_i64; lia|]. cbn.
    unfold wf_data, maxAlloc. change (zlen [v]) with 1. lia. }
  exists N. intros n Hn h cfg E Q. destruct (matched_exec' _ _ _ _ _ _ (HN n Hn) E) as (c2 & E2 & X%matched_same).
  rewrite <- (proj1 X). apply (Props_ConcV1.C76_writes_whole pol s programs h c2 t off W M Ho Hl F E2).
  now apply (same_quiescent _ _ X).
Qed.
Print Assumptions C76_text_writes_whole.

Theorem C76_text_all_calls_can_return pol s programs :
  WF s -> mu s = false ->
  gor programs (fun c => valid_call2 s c /\ atomic_call1 s c /\ Props_Conc.plain_write c) ->
  exists N, forall n, (N <= n)%nat -> forall h cfg,
    exec (text_call V1 pol n) (start s programs) h cfg ->
    exists h' cfg', exec (text_call V1 pol n) cfg h' cfg' /\ finished cfg'.
Proof.
  intros W M F.
  destruct (text1 pol s programs (fun c => valid_call2 s c /\ atomic_call1 s c /\ Props_Conc.plain_write c) W) as [N HN]; auto.
  { intros c (V & A & _). now apply not_reset. }
  exists N. intros n Hn h cfg E. destruct (matched_exec' _ _ _ _ _ _ (HN n Hn) E) as (c2 & E2 & X).
  destruct (Props_ConcV1.C76_all_calls_can_return pol s programs h c2 W M F E2) as (h' & c3 & E3 & D).
  destruct (matched_exec _ _ _ _ _ _ X E3) as (c3' & E3' & X'%matched_same). exists h', c3'. split; [exact E3'|].
  now apply (same_finished _ _ X').
Qed.
Print Assumptions C76_text_all_calls_can_return.

(** ReadComplex of the text can return an integer nobody wrote. *)
Theorem C76_text_ReadComplex_torn :
  exists s t off v x, WF s /\ mu s = false /\ 0 <= off /\ off + tsize (fmt t) <= zlen (content s) /\ in_format (fmt t) v /\
    [x] <> decode_all (fmt t) (content s) off 1 /\ x <> v /\
    exists N, forall n, (N <= n)%nat -> exists h cfg,
      exec (text_call V1 (fun _ k => k) n) (start s [[At2 off (PWrite t [v])]; [At2 off (PRead t 1)]]) h cfg /\
      In (ERet 1 (At2 off (PRead t 1)) (Returned (RNums [x]))) h.
Proof.
  exists Props_Conc.two_ones, NU16LE, 0, 0x0101, 0x0100.
  assert (W : WF Props_Conc.two_ones) by wf_state.
  split; [exact W|]. split; [reflexivity|]. split; [lia|]. split; [vm_compute; congruence|].
  split; [vm_compute; split; congruence|]. split; [vm_compute; congruence|]. split; [lia|].
  assert (X : exists h cfg, exec (v1_call (fun _ n => n)) (start Props_Conc.two_ones Props_ConcV1.half_read) h cfg /\
    In (ERet 1 (At2 0 (PRead NU16LE 1)) (Returned (RNums [0x0100]))) h).
  { apply (sched_exec _ [(1, 6); (0, 99); (1, 99)]%nat). vm_compute. auto 9. }
  destruct X as (h & cfg & E & IN).
  destruct (text1 (fun _ n => n) Props_Conc.two_ones Props_ConcV1.half_read
    (fun c => valid_call2 Props_Conc.two_ones c /\ c <> KReset) W (fun c X => X)) as [N HN].
  { repeat constructor; try discriminate; vm_compute; congruence. }
  exists N. intros n Hn. destruct (matched_exec _ _ _ _ _ _ (HN n Hn) E) as (c2 & E2 & _). eauto.
Qed.
Print Assumptions C76_text_ReadComplex_torn.

(** The hypotheses are met: by the four goroutines of Props_ConcV1.v and the others
    shown there. *)
Example C76_text_case :
  WF ex /\ mu ex = false /\
  gor Props_ConcV1.four_users1 (fun c => valid_call2 ex c /\ atomic_call1 ex c) /\
  gor Props_ConcV1.four_users1 (fun c => valid_call2 ex c /\ c <> KReset).
Proof.
  destruct Props_ConcV1.C76_case as (W & M & F & _). split; [exact W|]. split; [exact M|]. split; [exact F|].
  eapply Props_Conc.gor_impl; [|exact F]. apply not_reset.
Qed.
