(** * Props_ConcV1: several goroutines and one v1 [Buffer] (C76).

    As Props_Conc.v for v2, with [v1_call pol] in place of [do2_call pol]: the calls
    of OldCalls.v run by the v1 methods, where the integer calls are WriteComplex
    and ReadComplex.  The sequential object is that of ConcSpec1.v. *)
From Coq Require Import ZArith List Bool Lia ZifyBool Arith Permutation.
From Verif Require Import GoSem Errors Spec GoLemmas BitLemmas CodecLemmas V3BitLemmas V3ByteLemmas Calls Abs Frame Sim History
  LockLemmas OldCalls V2Lemmas V2Agree V2Safe V1Lemmas V1Calls Witness Conc ConcLemmas ConcInv ConcSpec ConcSpec1 ConcV2 ConcV1
  ConcSched RaceSpec Props_Conc.
From Verif Require V3Buffer V2Buffer V1Buffer.
Import ListNotations.
Open Scope Z_scope.

(** ** One critical section each: linearizable *)

(** Bits, bytes, integers written by WriteComplex, seeking, aligning, the queries. *)
Theorem C76_linearizable pol s programs h cfg :
  WF s -> mu s = false -> gor programs (fun c => valid_call2 s c /\ atomic_call1 s c) ->
  exec (v1_call pol) (start s programs) h cfg ->
  exists a, linearizable (seq_v1 (heap s)) (abs s) h a /\
    (quiescent cfg -> abs (sh cfg) = a /\ (mu (sh cfg) = true -> mutex_lost h)).
Proof.
  intros W M F E. apply (class_result (v1_call pol) (seq_v1 (heap s)) s (fun c => valid_call2 s c /\ atomic_call1 s c) false) with programs; auto.
  intros c [V A]. now apply pre_atomic1.
Qed.
Print Assumptions C76_linearizable.

(** With ReadByte too, when every write is of one byte. *)
Theorem C76_single_byte_linearizable pol s programs h cfg :
  WF s -> mu s = false -> gor programs (fun c => valid_call2 s c /\ single_call1 s c) ->
  exec (v1_call pol) (start s programs) h cfg ->
  exists a, linearizable (seq_v1 (heap s)) (abs s) h a /\
    (quiescent cfg -> abs (sh cfg) = a /\ (mu (sh cfg) = true -> mutex_lost h)).
Proof.
  intros W M F E. apply (class_result (v1_call pol) (seq_v1 (heap s)) s (fun c => valid_call2 s c /\ single_call1 s c) true) with programs; auto.
  intros c [V A]. now apply pre_single1.
Qed.
Print Assumptions C76_single_byte_linearizable.

Lemma bit_atomic1 s c : bit_call c -> atomic_call1 s c.
Proof.
  destruct c as [off o|o| | | | | | | | | | | | | | | | | ]; intro H; try contradiction; try exact I.
  destruct o; try contradiction; exact I.
Qed.

(** The bit calls alone: the mutex is always given back. *)
Theorem C76_bits_linearizable pol s programs h cfg :
  WF s -> mu s = false -> gor programs (fun c => valid_call2 s c /\ bit_call c) ->
  exec (v1_call pol) (start s programs) h cfg ->
  exists a, linearizable (seq_v1 (heap s)) (abs s) h a /\
    (quiescent cfg -> abs (sh cfg) = a /\ mu (sh cfg) = false).
Proof.
  intros W M F E.
  destruct (C76_linearizable pol s programs h cfg W M) as (a & L & Q); auto.
  { eapply gor_impl; [|exact F]. cbv beta. intros c [V B]. split; auto. now apply bit_atomic1. }
  exists a. split; auto. intro X. destruct (Q X) as [Q1 Q2]. split; auto.
  destruct (mu (sh cfg)); auto. destruct (Q2 eq_refl) as (t & c & e & H & U & _). exfalso.
  assert (B : bit_call c).
  { eapply (Forall_forall (fun c => valid_call2 s c /\ bit_call c)); [|eapply history_calls; eauto]. now apply Forall_concat. }
  destruct c as [off o1|o1| | | | | | | | | | | | | | | | | ]; try contradiction; try discriminate.
  destruct o1; try contradiction; discriminate.
Qed.
Print Assumptions C76_bits_linearizable.

(** Two writers of overlapping integers, a writer of bytes, bits of a third. *)
Definition four_users1 : list (list (call2 slice)) :=
  [[At2 0 (PWrite NU32BE [0x01020304])]; [At2 1 (PWrite NU16LE [0x0506]); KSeek 1 true];
   [At2 7 PReadBit; At2 3 (PWrite NU16LE [7])]; [At2 2 (PWriteBytes (mkSlice 1 0 2 3)); At2 0 (PWriteByte 9); KFlipAllBits]].
Example C76_case :
  WF ex /\ mu ex = false /\
  gor four_users1 (fun c => valid_call2 ex c /\ atomic_call1 ex c) /\
  exists h cfg, exec (v1_call (fun _ n => n)) (start ex four_users1) h cfg /\
    (quiescent cfg /\ length h = 16%nat /\ content (sh cfg) = [246; 253; 252; 251] /\ b_off (bb (sh cfg)) = 2).
Proof.
  split; [exact ex_WF|]. split; [reflexivity|]. split.
  { repeat constructor; try hyp; cbn; try lia; try (vm_compute; discriminate). }
  apply (sched_exec _ [(0, 2); (1, 3); (2, 2); (3, 4); (0, 7); (1, 4); (3, 99); (1, 99); (2, 99); (0, 99); (1, 99); (2, 99);
                       (3, 99); (3, 99)]%nat).
  vm_compute. split; [repeat constructor|]. repeat split; reflexivity.
Qed.

(** ReadByte while other goroutines write single bytes. *)
Example C76_single_case :
  gor [[At2 0 (PWriteByte 7); At2 1 PReadByte]; [At2 0 PReadByte; KAfter None]]
    (fun c => valid_call2 ex c /\ single_call1 ex c) /\
  exists h cfg, exec (v1_call (fun _ n => n))
      (start ex [[At2 0 (PWriteByte 7); At2 1 PReadByte]; [At2 0 PReadByte; KAfter None]]) h cfg /\
    (quiescent cfg /\ returns_of 1 h = [(At2 0 PReadByte, Returned (RInt 7)); (KAfter None, Returned (RInt 2))]).
Proof.
  split. { repeat constructor; try hyp; cbn; lia. }
  apply (sched_exec _ [(0, 2); (1, 5); (0, 99); (1, 99); (0, 2); (1, 99); (0, 99)]%nat).
  vm_compute. split; [repeat constructor|reflexivity].
Qed.

(** *** No flip is lost *)

Lemma runs_ext {call state} (seq seq' : call -> state -> answer -> state -> Prop) a o a' :
  runs seq a o a' -> Forall (fun x => forall a r a', seq (fst (snd x)) a r a' -> seq' (fst (snd x)) a r a') o -> runs seq' a o a'.
Proof.
  intros R. induction R as [a|a o a1 t c r a2 R IH S]; intro F; [constructor|].
  apply Forall_app in F as [F1 F2]. inversion F2; subst. econstructor; eauto.
Qed.

Theorem C76_no_flip_lost pol s programs h cfg i :
  WF s -> mu s = false ->
  gor programs (fun c => exists off, c = At2 off PFlipBit /\ 0 <= off < 8 * zlen (content s)) ->
  exec (v1_call pol) (start s programs) h cfg -> finished cfg ->
  0 <= i < 8 * zlen (content s) ->
  bit_at (content (sh cfg)) i = xorb (bit_at (content s) i) (Nat.odd (flips_of i (concat programs))).
Proof.
  intros W M F E Fin Hi.
  assert (LM : 8 * zlen (content s) < 2 ^ 63).
  { rewrite content_zlen by auto. pose proof (hdr_small s W). lia. }
  destruct (C76_bits_linearizable pol s programs h cfg W M) as (a & (o & R & X & _) & Q); auto.
  { eapply gor_impl; [|exact F]. cbv beta. intros c (off & -> & Ho). split; [|exact I]. split; [|exact I].
    unfold is_i64. lia. }
  destruct Q as [<- _].
  { eapply Forall_impl; [|exact Fin]. cbv beta. now intros g ->. }
  assert (C : Forall (fun x => exists off, fst (snd x) = At2 off PFlipBit /\ 0 <= off < 8 * zlen (content s)) o).
  { apply Forall_forall. intros [t [c r]] IN. cbn [fst snd].
    apply (proj1 (Forall_forall _ _) (proj2 (Forall_concat _ _) F) c). eapply order_calls; eauto. }
  assert (R2 : runs (seq_v2 (heap s)) (abs s) o (abs (sh cfg))).
  { eapply runs_ext; [exact R|]. eapply Forall_impl; [|exact C]. cbv beta. intros x (off & -> & _) a r a' H. exact H. }
  destruct (runs_flips _ _ _ _ (zlen (content s)) i R2) as [_ B]; auto.
  rewrite (flips_perm i _ _ (finished_order _ _ _ _ _ _ E Fin X)) in B. exact B.
Qed.
Print Assumptions C76_no_flip_lost.

Example C76_flip_case :
  gor [[At2 9 PFlipBit]; [At2 9 PFlipBit; At2 9 PFlipBit]]
    (fun c => exists off, c = At2 off PFlipBit /\ 0 <= off < 8 * zlen (content ex)) /\
  exists h cfg, exec (v1_call (fun _ n => n)) (start ex [[At2 9 PFlipBit]; [At2 9 PFlipBit; At2 9 PFlipBit]]) h cfg /\
    (finished cfg /\ bit_at (content (sh cfg)) 9 = true).
Proof.
  split.
  { repeat constructor; exists 9; split; auto; vm_compute; split; congruence. }
  apply (sched_exec _ [(0, 2); (1, 9); (0, 9); (1, 3); (1, 99)]%nat).
  vm_compute. split; [repeat constructor|reflexivity].
Qed.

(** *** WriteComplex writes whole integers *)

(** Goroutines that write integers of one type at one place: whenever none is inside
    a call, the place holds the old integer or one that was written. *)
Theorem C76_writes_whole pol s programs h cfg t off :
  WF s -> mu s = false -> 0 <= off -> off + tsize (fmt t) <= zlen (content s) ->
  gor programs (fun c => exists v, in_format (fmt t) v /\ c = At2 off (PWrite t [v])) ->
  exec (v1_call pol) (start s programs) h cfg -> quiescent cfg ->
  decode_all (fmt t) (content (sh cfg)) off 1 = decode_all (fmt t) (content s) off 1 \/
  exists v, In (At2 off (PWrite t [v])) (concat programs) /\ decode_all (fmt t) (content (sh cfg)) off 1 = [v].
Proof.
  intros W M Ho Hl F E Qu.
  assert (LM : zlen (content s) < 2 ^ 60) by (rewrite content_zlen by auto; apply (hdr_small s W)).
  assert (T : 1 <= tsize (fmt t)) by (destruct t; vm_compute; discriminate).
  destruct (C76_linearizable pol s programs h cfg W M) as (a & (o & R & X & _) & Q); auto.
  { eapply gor_impl; [|exact F]. cbv beta. intros c (v & Hv & ->). split; [|exact I]. split; [unfold is_i64; lia|].
    unfold valid_op2, wf_data. destruct t; vm_compute; discriminate. }
  destruct (Q Qu) as [<- _].
  assert (C : Forall (fun x => exists v, in_format (fmt t) v /\ In (At2 off (PWrite t [v])) (concat programs) /\
                                         fst (snd x) = At2 off (PWrite t [v])) o).
  { apply Forall_forall. intros [u [c r]] IN. cbn [fst snd].
    pose proof (order_calls _ _ _ _ _ _ _ _ _ E X IN) as IC.
    destruct (proj1 (Forall_forall _ _) (proj2 (Forall_concat _ _) F) c IC) as (v & Hv & ->). eauto. }
  assert (R2 : runs (seq_v2 (heap s)) (abs s) o (abs (sh cfg))).
  { eapply runs_ext; [exact R|]. eapply Forall_impl; [|exact C]. cbv beta. intros x (v & _ & _ & ->) a r a' H. exact H. }
  destruct (runs_no_tear _ t off _ _ _ (fun v => In (At2 off (PWrite t [v])) (concat programs)) R2) as (_ & A & _); auto.
  eapply Forall_impl; [|exact C]. cbv beta. intros x (v & V1 & V2 & V3). right. eauto.
Qed.
Print Assumptions C76_writes_whole.

Example C76_writes_case :
  gor [[At2 0 (PWrite NU32BE [0x01020304])]; [At2 0 (PWrite NU32BE [0x05060708])]]
    (fun c => exists v, in_format (fmt NU32BE) v /\ c = At2 0 (PWrite NU32BE [v])) /\
  exists h cfg, exec (v1_call (fun _ n => n)) (start ex [[At2 0 (PWrite NU32BE [0x01020304])]; [At2 0 (PWrite NU32BE [0x05060708])]]) h cfg /\
    (quiescent cfg /\ content (sh cfg) = [1; 2; 3; 4]).
Proof.
  split.
  { constructor; [|constructor; [|constructor]]; (constructor; [|constructor]); [exists 0x01020304|exists 0x05060708];
      (split; [vm_compute; split; congruence|reflexivity]). }
  apply (sched_exec _ [(0, 12); (1, 16); (0, 2); (1, 99); (0, 99)]%nat). vm_compute. split; [repeat constructor|reflexivity].
Qed.

(** *** ReadComplex is not one section *)

(** It takes the lock only to slice the buffer and decodes afterwards, so it can
    return an integer that nobody wrote.  (v2's ReadU16LE and so on cannot:
    C45_not_torn.) *)
Definition half_read : list (list (call2 slice)) := [[At2 0 (PWrite NU16LE [0x0101])]; [At2 0 (PRead NU16LE 1)]].
Theorem C76_ReadComplex_refuted :
  ~ (forall pol s programs h cfg t off u r,
       WF s -> mu s = false -> 0 <= off -> off + tsize (fmt t) <= zlen (content s) ->
       gor programs (fun c => c = At2 off (PRead t 1) \/ exists v, in_format (fmt t) v /\ c = At2 off (PWrite t [v])) ->
       exec (v1_call pol) (start s programs) h cfg ->
       In (ERet u (At2 off (PRead t 1)) r) h ->
       exists x, r = Returned (RNums x) /\
         (x = decode_all (fmt t) (content s) off 1 \/
          exists v, In (At2 off (PWrite t [v])) (concat programs) /\ x = [v])).
Proof.
  intro H.
  assert (X : exists h cfg, exec (v1_call (fun _ n => n)) (start two_ones half_read) h cfg /\
    In (ERet 1 (At2 0 (PRead NU16LE 1)) (Returned (RNums [0x0100]))) h).
  { apply (sched_exec _ [(1, 6); (0, 99); (1, 99)]%nat). vm_compute. auto 9. }
  destruct X as (h & cfg & E & IN).
  destruct (H (fun _ n => n) two_ones half_read h cfg NU16LE 0 1%nat (Returned (RNums [0x0100]))) as (x & R & X).
  - wf_state.
  - reflexivity.
  - lia.
  - vm_compute. congruence.
  - constructor; [|constructor; [|constructor]]; (constructor; [|constructor]); [right; exists 0x0101|now left].
    split; auto. vm_compute. split; congruence.
  - exact E.
  - exact IN.
  - injection R as <-. destruct X as [X|(v & X & Y)]; [vm_compute in X; discriminate|].
    injection Y as <-. cbn in X. intuition congruence.
Qed.
Print Assumptions C76_ReadComplex_refuted.

(** ** Progress *)

Theorem C76_deadlock_free pol s programs h cfg :
  WF s -> mu s = false -> gor programs (fun c => valid_call2 s c /\ atomic_call1 s c) ->
  exec (v1_call pol) (start s programs) h cfg -> ~ mutex_lost h ->
  finished cfg \/ exists t h' cfg', gstep (v1_call pol) t cfg h' cfg'.
Proof.
  intros W M F E N.
  apply (class_progress (v1_call pol) (seq_v1 (heap s)) s (fun c => valid_call2 s c /\ atomic_call1 s c) false) with programs h; auto.
  intros c [V A]. now apply pre_atomic1.
Qed.
Print Assumptions C76_deadlock_free.

Theorem C76_mutex_never_lost pol s programs h cfg :
  WF s -> mu s = false -> gor programs (fun c => valid_call2 s c /\ atomic_call1 s c /\ plain_write c) ->
  exec (v1_call pol) (start s programs) h cfg -> ~ mutex_lost h.
Proof.
  intros W M F E (t & c & e & IN & U & k & ->).
  assert (F' : gor programs (fun c => valid_call2 s c /\ atomic_call1 s c)).
  { eapply gor_impl; [|exact F]. cbv beta. tauto. }
  destruct (C76_linearizable pol s programs h cfg W M F' E) as (a & (o & R & X & _) & _).
  pose proof (history_calls _ _ _ _ _ _ _ _ E IN) as IC.
  destruct (proj1 (Forall_forall _ _) (proj2 (Forall_concat _ _) F) c IC) as (V & A & P).
  assert (Q : In (t, (c, Raised (RuntimeError k))) o).
  { apply of_in. destruct (X t) as [[m ->] _]. apply in_or_app. left. unfold returns_of. apply in_flat_map.
    eexists. split; [exact IN|]. cbn. rewrite Nat.eqb_refl. now left. }
  destruct (runs_in _ _ _ _ _ _ _ R Q) as (a1 & a2 & S). unfold seq_v1 in S.
  destruct c as [off op|op| | | | | | | | | | | | | | | | | ]; try contradiction; try discriminate U.
  destruct op; try contradiction; try discriminate U; cbn [view_call2 view_op2 seq_call1 seq_call seq_at plain_write] in *;
    destruct (seq_store _ _ _) as [v1 a3|e1 a3] eqn:Es; destruct S as [S _]; try discriminate; injection S as <-.
  - assert (L : zlen (slice_bytes (heap s) d) = s_len d) by (apply wf_slice_bytes_zlen; apply V).
    eapply seq_store_err; eauto; lia.
  - eapply seq_store_err; eauto; change (zlen [v]) with 1; lia.
  - destruct P as [Nd P]. assert (L : zlen (encode_all (fmt t0) d) = zlen d * tsize (fmt t0)) by apply encode_all_zlen.
    assert (0 < zlen d) by (destruct d; [congruence|unfold zlen; cbn; lia]).
    assert (T : 1 <= tsize (fmt t0)) by (destruct t0; vm_compute; discriminate).
    eapply seq_store_err; eauto; nia.
Qed.
Print Assumptions C76_mutex_never_lost.

Theorem C76_all_calls_can_return pol s programs h cfg :
  WF s -> mu s = false -> gor programs (fun c => valid_call2 s c /\ atomic_call1 s c /\ plain_write c) ->
  exec (v1_call pol) (start s programs) h cfg ->
  exists h' cfg', exec (v1_call pol) cfg h' cfg' /\ finished cfg'.
Proof.
  intros W M F E.
  apply (class_return (v1_call pol) (seq_v1 (heap s)) s (fun c => valid_call2 s c /\ atomic_call1 s c /\ plain_write c) false) with programs h; auto.
  - intros c (V & A & _). now apply pre_atomic1.
  - intros h1 c1 E1. exact (C76_mutex_never_lost _ _ _ _ _ W M F E1).
Qed.
Print Assumptions C76_all_calls_can_return.

Example C76_progress_case :
  let programs := [[At2 0 (PWrite NU32BE [0x01020304]); KAlignBit]; [At2 2 (PWriteByte 7); At2 0 (PWrite NU16BE [1; 2])]] in
  WF ex /\ mu ex = false /\ gor programs (fun c => valid_call2 ex c /\ atomic_call1 ex c /\ plain_write c).
Proof.
  split; [exact ex_WF|]. split; [reflexivity|].
  repeat constructor; try hyp; vm_compute; congruence.
Qed.

(** ** Next calls are two sections *)

(** Bodies that agree on the calls made have the same executions. *)
Lemma exec_ext {call} (b b' : call -> prog (rv slice)) (P : call -> Prop) s programs h cfg :
  (forall c, P c -> b c = b' c) -> Forall (Forall P) programs ->
  exec b (start s programs) h cfg -> exec b' (start s programs) h cfg.
Proof.
  intros H F E. enough (X : exec b' (start s programs) h cfg /\ Forall (fun g => Forall P (todo g)) (gs cfg)) by apply X.
  remember (start s programs) as c0 eqn:E0. induction E as [|h c1 t h' c2 E IH St]; subst.
  - split; [constructor|]. unfold start; cbn [gs]. apply Forall_forall. intros g IN.
    apply in_map_iff in IN as (p & <- & IN). now apply (proj1 (Forall_forall _ _) F).
  - destruct IH as [E' Q].
    assert (SN : forall l t (g : goroutine call), Forall (fun g => Forall P (todo g)) l -> Forall P (todo g) ->
      Forall (fun g => Forall P (todo g)) (set_nth l t g)).
    { clear. intros l t g Hl Hg. apply Forall_forall. intros x IN. unfold set_nth in IN.
      apply in_app_or in IN as [IN|IN]; [apply firstn_In' in IN|].
      - now apply (proj1 (Forall_forall _ _) Hl).
      - destruct IN as [<-|IN]; auto. apply (proj1 (Forall_forall _ _) Hl). now apply skipn_In' in IN. }
    inversion St as [o os Ht|o os p p' s' Ht Hs|o os v Ht|o os e Ht]; subst;
      pose proof (proj1 (Forall_forall _ _) Q _ (nth_error_In _ _ Ht)) as PT; cbn [todo] in PT.
    + inversion PT as [|? ? P1 P2]; subst. split.
      * econstructor; [exact E'|]. rewrite (H o P1). now apply g_call.
      * apply SN; auto.
    + split; [econstructor; [exact E'|]; eapply g_step; eauto|apply SN; auto].
    + split; [econstructor; [exact E'|]; eapply g_return; eauto|apply SN; auto].
    + split; [econstructor; [exact E'|]; eapply g_panic; eauto|apply SN; auto].
Qed.

(** Two WriteByteNext calls: for every buffer with room at its offset and any two
    bytes there is a schedule in which both return, the offset advances by two and
    the first byte is lost. *)
Theorem C76_WriteByteNext_lost_update pol s v w :
  WF s -> mu s = false -> is_byte v -> is_byte w ->
  0 <= b_off (bb s) < zlen (content s) ->
  exists h cfg, exec (v1_call pol) (start s [[Next2 (PWriteByte v)]; [Next2 (PWriteByte w)]]) h cfg /\
    finished cfg /\
    returns_of 0 h = [(Next2 (PWriteByte v), Returned RUnit)] /\
    returns_of 1 h = [(Next2 (PWriteByte w), Returned RUnit)] /\
    content (sh cfg) = put (content s) (b_off (bb s)) [w] /\
    b_off (bb (sh cfg)) = b_off (bb s) + 2.
Proof.
  intros W M Hv Hw Ho. destruct (C46_WriteByteNext_lost_update pol s v w W M Hv Hw Ho) as (h & cfg & E & R).
  exists h, cfg. split; auto.
  apply (exec_ext (do2_call pol) (v1_call pol) (fun c => exists x, c = Next2 (PWriteByte x))); auto.
  - intros c [x ->]. reflexivity.
  - repeat constructor; eauto.
Qed.
Print Assumptions C76_WriteByteNext_lost_update.
