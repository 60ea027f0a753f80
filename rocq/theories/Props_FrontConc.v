(** * Props_FrontConc: goroutines that run the Go text of v2 (C67).

    The theorems of Props_Conc.v, about the text of v2/buffer.go instead of the
    models: [running pol n c] is what the interpreter of GoEval.v makes of the call
    [c], with the nesting of calls and loop rounds bounded by [n].  For a starting
    state and the calls of each goroutine there is one bound above which the
    statements hold, for every schedule. *)
From Coq Require Import ZArith List Bool String Lia.
From Verif Require Import GoSem Errors GoParse SrcV2 AstV2 Conv GoEval Front Tables FrontCalls.
From Verif Require Import Spec GoLemmas Calls Abs History OldCalls Witness Conc ConcSpec ConcSched FrontOldCalls Enough FrontConc.
From Verif Require ConcV2 Props_Conc.
Import ListNotations.
Open Scope Z_scope.
Open Scope list_scope.

(** The program: the text of the package that concerns [Buffer]. *)
Definition v2_program : list gdecl :=
  match parse v2_buffer, parse v2_errors, parse v2_utils with Some ds, Some es, Some us => ds ++ es ++ us | _, _, _ => [] end.
Lemma v2_program_text : v2_program = sources B2.
Proof. unfold v2_program. rewrite v2_buffer_ast_parsed, v2_errors_ast_parsed, v2_utils_ast_parsed. reflexivity. Qed.

Definition running (pol : Z -> Z -> Z) (n : nat) (c : call2 slice) : prog (rv slice) :=
  go_body v2_program pol n (go_call2 c).

(** Every goroutine makes calls of this kind. *)
Definition all_calls (programs : list (list (call2 slice))) (P : call2 slice -> Prop) : Prop := Forall (Forall P) programs.

Lemma all_impl (P Q : call2 slice -> Prop) programs : (forall c, P c -> Q c) -> all_calls programs P -> all_calls programs Q.
Proof. intros H. apply Forall_impl. intros l. apply Forall_impl. exact H. Qed.

(** ** The executions are those of the models *)

Theorem text_matched pol s programs : WF s -> all_calls programs (valid_call2 s) ->
  exists N, forall n, (N <= n)%nat -> matched (do2_call pol) (running pol n) (start s programs) (start s programs).
Proof.
  intros W F. apply (matched_start (do2_call pol) (running pol) (valid_call2 s)).
  - intros c _. unfold running. rewrite v2_program_text. apply body_conv, do2_call_text.
  - intros c V. apply do2_call_enough. eapply valid2_exists; [|exact V]. apply W.
  - apply (wf_slice_short (heap s)); apply W.
  - exact F.
Qed.

(** The same histories, and the same memory at every point of them. *)
Theorem C67_same_executions pol s programs : WF s -> all_calls programs (valid_call2 s) ->
  exists N, forall n, (N <= n)%nat -> forall h m,
    (exists cfg, exec (running pol n) (start s programs) h cfg /\ sh cfg = m) <->
    (exists cfg, exec (do2_call pol) (start s programs) h cfg /\ sh cfg = m).
Proof.
  intros W F. destruct (text_matched pol s programs W F) as [N HN]. exists N. intros n Hn h m. specialize (HN n Hn). split.
  - intros (cfg & E & <-). destruct (matched_exec' _ _ _ _ _ _ HN E) as (c2 & E2 & M). exists c2. split; auto.
    apply (matched_same _ _ _ _ M).
  - intros (cfg & E & <-). destruct (matched_exec _ _ _ _ _ _ HN E) as (c2 & E2 & M). exists c2. split; auto.
    symmetry. apply (matched_same _ _ _ _ M).
Qed.
Print Assumptions C67_same_executions.

(** ** What the goroutines can rely on *)

Theorem C67_bits_linearizable pol s programs :
  WF s -> mu s = false -> all_calls programs (fun c => valid_call2 s c /\ bit_call c) ->
  exists N, forall n, (N <= n)%nat -> forall h cfg,
    exec (running pol n) (start s programs) h cfg ->
    exists a, linearizable (seq_v2 (heap s)) (abs s) h a /\
      (quiescent cfg -> abs (sh cfg) = a /\ mu (sh cfg) = false).
Proof.
  intros W M F. destruct (text_matched pol s programs W) as [N HN]. { eapply all_impl; [|exact F]. cbv beta; tauto. }
  exists N. intros n Hn h cfg E. destruct (matched_exec' _ _ _ _ _ _ (HN n Hn) E) as (c2 & E2 & X%matched_same).
  destruct (Props_Conc.C44_bits_linearizable pol s programs h c2 W M F E2) as (a & L & Q). exists a. split; [exact L|].
  rewrite <- (proj1 X). intros H. apply Q. now apply (same_quiescent _ _ X).
Qed.
Print Assumptions C67_bits_linearizable.

Theorem C67_linearizable pol s programs :
  WF s -> mu s = false -> all_calls programs (fun c => valid_call2 s c /\ atomic_call s c) ->
  exists N, forall n, (N <= n)%nat -> forall h cfg,
    exec (running pol n) (start s programs) h cfg ->
    exists a, linearizable (seq_v2 (heap s)) (abs s) h a /\
      (quiescent cfg -> abs (sh cfg) = a /\ (mu (sh cfg) = true -> mutex_lost h)).
Proof.
  intros W M F. destruct (text_matched pol s programs W) as [N HN]. { eapply all_impl; [|exact F]. cbv beta; tauto. }
  exists N. intros n Hn h cfg E. destruct (matched_exec' _ _ _ _ _ _ (HN n Hn) E) as (c2 & E2 & X%matched_same).
  destruct (Props_Conc.C45_linearizable pol s programs h c2 W M F E2) as (a & L & Q). exists a. split; [exact L|].
  rewrite <- (proj1 X). intros H. apply Q. now apply (same_quiescent _ _ X).
Qed.
Print Assumptions C67_linearizable.

(** Every flip counts: in the end a bit is inverted when it was flipped an odd
    number of times. *)
Theorem C67_no_flip_lost pol s programs :
  WF s -> mu s = false ->
  all_calls programs (fun c => exists off, c = At2 off PFlipBit /\ 0 <= off < 8 * zlen (content s)) ->
  exists N, forall n, (N <= n)%nat -> forall h cfg,
    exec (running pol n) (start s programs) h cfg -> finished cfg ->
    forall i, 0 <= i < 8 * zlen (content s) ->
    bit_at (content (sh cfg)) i = xorb (bit_at (content s) i) (Nat.odd (Props_Conc.flips_of i (List.concat programs))).
Proof.
  intros W M F. destruct (text_matched pol s programs W) as [N HN].
  { eapply all_impl; [|exact F]. cbv beta. intros c (off & -> & Ho). split; [|exact I].
    rewrite content_zlen in Ho by auto. pose proof (ConcV2.hdr_small s W). unfold is_i64. lia. }
  exists N. intros n Hn h cfg E Fin i Hi. destruct (matched_exec' _ _ _ _ _ _ (HN n Hn) E) as (c2 & E2 & X%matched_same).
  rewrite <- (proj1 X). apply (Props_Conc.C44_no_flip_lost pol s programs h c2 i W M F E2); auto.
  now apply (same_finished _ _ X).
Qed.
Print Assumptions C67_no_flip_lost.

(** An integer that is only written whole is never read in part. *)
Theorem C67_not_torn pol s programs t off :
  WF s -> mu s = false -> 0 <= off -> off + tsize (fmt t) <= zlen (content s) ->
  all_calls programs (fun c => c = At2 off (PRead t 1) \/ exists v, in_format (fmt t) v /\ c = At2 off (PWrite t [v])) ->
  exists N, forall n, (N <= n)%nat -> forall h cfg u r,
    exec (running pol n) (start s programs) h cfg ->
    In (ERet u (At2 off (PRead t 1)) r) h ->
    exists x, r = Returned (RNums x) /\
      (x = decode_all (fmt t) (content s) off 1 \/
       exists v, In (At2 off (PWrite t [v])) (List.concat programs) /\ x = [v]).
Proof.
  intros W M Ho Hl F. destruct (text_matched pol s programs W) as [N HN].
  { eapply all_impl; [|exact F]. cbv beta.
    rewrite content_zlen in Hl by auto. pose proof (ConcV2.hdr_small s W).
    assert (T : 1 <= tsize (fmt t) <= 8) by (destruct t; vm_compute; split; discriminate).
    intros c [->|(v & _ & ->)]; (split; [unfold is_i64; lia|]); cbn.
    - unfold is_i64; lia.
    - unfold wf_data, maxAlloc. change (zlen [v]) with 1. lia. }
  exists N. intros n Hn h cfg u r E IN. destruct (matched_exec' _ _ _ _ _ _ (HN n Hn) E) as (c2 & E2 & _).
  exact (Props_Conc.C45_not_torn pol s programs h c2 t off u r W M Ho Hl F E2 IN).
Qed.
Print Assumptions C67_not_torn.

(** Nobody waits for ever: from every point of every execution all calls can be
    finished. *)
Theorem C67_all_calls_can_return pol s programs :
  WF s -> mu s = false ->
  all_calls programs (fun c => valid_call2 s c /\ atomic_call s c /\ Props_Conc.plain_write c) ->
  exists N, forall n, (N <= n)%nat -> forall h cfg,
    exec (running pol n) (start s programs) h cfg ->
    exists h' cfg', exec (running pol n) cfg h' cfg' /\ finished cfg'.
Proof.
  intros W M F. destruct (text_matched pol s programs W) as [N HN]. { eapply all_impl; [|exact F]. cbv beta; tauto. }
  exists N. intros n Hn h cfg E. destruct (matched_exec' _ _ _ _ _ _ (HN n Hn) E) as (c2 & E2 & X).
  destruct (Props_Conc.C62_all_calls_can_return pol s programs h c2 W M F E2) as (h' & c3 & E3 & D).
  destruct (matched_exec _ _ _ _ _ _ X E3) as (c3' & E3' & X'%matched_same). exists h', c3'. split; [exact E3'|].
  now apply (same_finished _ _ X').
Qed.
Print Assumptions C67_all_calls_can_return.

(** ** What they cannot rely on *)

(** Two WriteByteNext: both return, one byte is lost. *)
Theorem C67_WriteByteNext_lost_update pol s v w :
  WF s -> mu s = false -> is_byte v -> is_byte w -> 0 <= b_off (bb s) < zlen (content s) ->
  exists N, forall n, (N <= n)%nat ->
  exists h cfg, exec (running pol n) (start s [[Next2 (PWriteByte v)]; [Next2 (PWriteByte w)]]) h cfg /\
    finished cfg /\
    returns_of 0 h = [(Next2 (PWriteByte v), Returned RUnit)] /\
    returns_of 1 h = [(Next2 (PWriteByte w), Returned RUnit)] /\
    content (sh cfg) = put (content s) (b_off (bb s)) [w] /\
    b_off (bb (sh cfg)) = b_off (bb s) + 2.
Proof.
  intros W M Hv Hw Ho. destruct (text_matched pol s [[Next2 (PWriteByte v)]; [Next2 (PWriteByte w)]] W) as [N HN].
  { apply Forall_cons; [|apply Forall_cons; [|constructor]]; (apply Forall_cons; [assumption|constructor]). }
  exists N. intros n Hn.
  destruct (Props_Conc.C46_WriteByteNext_lost_update pol s v w W M Hv Hw Ho) as (h & c & E & Fin & R0 & R1 & C & B).
  destruct (matched_exec _ _ _ _ _ _ (HN n Hn) E) as (c2 & E2 & X%matched_same). exists h, c2. rewrite <- (proj1 X).
  repeat (split; [first [assumption | now apply (same_finished _ _ X)]|]). exact B.
Qed.
Print Assumptions C67_WriteByteNext_lost_update.

(** A write that loses a race with Reset panics while it holds the mutex: the
    goroutine that called Reset can never again finish a call that locks. *)
Theorem C67_WriteByte_deadlock pol s off v c :
  WF s -> mu s = false -> is_byte v -> 0 <= off < zlen (content s) -> Props_Conc.locks_first c -> valid_call2 s c ->
  exists N, forall n, (N <= n)%nat ->
  exists h cfg, exec (running pol n) (start s [[At2 off (PWriteByte v)]; [KReset; c]]) h cfg /\
    returns_of 0 h = [(At2 off (PWriteByte v), Raised index_error)] /\
    returns_of 1 h = [(KReset, Returned RUnit)] /\
    (forall h' cfg', exec (running pol n) cfg h' cfg' -> returns_of 1 h' = []).
Proof.
  intros W M Hv Ho HL V. destruct (text_matched pol s [[At2 off (PWriteByte v)]; [KReset; c]] W) as [N HN].
  { rewrite content_zlen in Ho by auto. pose proof (ConcV2.hdr_small s W).
    apply Forall_cons; [|apply Forall_cons; [|constructor]].
    - apply Forall_cons; [|constructor]. split; [unfold is_i64; lia|exact Hv].
    - apply Forall_cons; [exact I|]. apply Forall_cons; [exact V|constructor]. }
  exists N. intros n Hn.
  destruct (Props_Conc.C47_WriteByte_deadlock pol s off v c W M Hv Ho HL) as (h & cfg & E & R0 & R1 & Z).
  destruct (matched_exec _ _ _ _ _ _ (HN n Hn) E) as (c2 & E2 & X). exists h, c2.
  repeat (split; [assumption|]). intros h' cfg' E'.
  destruct (matched_exec' _ _ _ _ _ _ X E') as (c3 & E3 & _). eauto.
Qed.
Print Assumptions C67_WriteByte_deadlock.

(** ** A case: three goroutines, interleaved inside their calls *)

Example C67_case :
  WF ex /\ mu ex = false /\ all_calls Props_Conc.three_bits (fun c => valid_call2 ex c /\ bit_call c) /\
  exists h cfg, exec (running (fun _ n => n) 30) (start ex Props_Conc.three_bits) h cfg /\
    (quiescent cfg /\ List.length h = 10%nat /\ content (sh cfg) = [90; 240; 0; 247]).
Proof.
  split; [exact ex_WF|]. split; [reflexivity|]. split; [apply Props_Conc.C44_case|].
  unfold running. rewrite v2_program_text.
  apply (sched_exec _ [(0, 2); (1, 3); (2, 2); (1, 9); (0, 9); (2, 9); (1, 3); (2, 2); (1, 99); (2, 99)]%nat).
  vm_compute. split; [repeat constructor|]. split; reflexivity.
Qed.
