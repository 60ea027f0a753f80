(** * Props_Conc: several goroutines and one v2 [Buffer] (C44-C47, C62-C63).

    [exec (do2_call pol) (start s programs) h cfg] says: goroutines that make the
    calls [programs], starting from [s], can be scheduled so that the history [h]
    is observed and [cfg] is reached (Conc.v).  The theorems hold for any number
    of goroutines, any programs and any schedule. *)
From Coq Require Import ZArith List Bool Lia ZifyBool Arith Permutation.
From Verif Require Import GoSem Errors Spec GoLemmas BitLemmas CodecLemmas V3BitLemmas V3ByteLemmas Calls Abs Frame Sim History
  LockLemmas OldCalls V2Lemmas V2Agree V2Safe Witness Conc ConcLemmas ConcInv ConcSpec ConcV2 ConcSched.
From Verif Require V3Buffer V2Buffer.
Import ListNotations.
Open Scope Z_scope.

Definition gor (programs : list (list (call2 slice))) (P : call2 slice -> Prop) : Prop :=
  Forall (Forall P) programs.

(** ** Linearizability of the whole class *)

Section Class.
Variable body : call2 slice -> prog (rv slice).
Variable seq : call2 slice -> abuf -> answer -> abuf -> Prop.
Variable s : St.
Variable cls : call2 slice -> Prop.
Variable single : bool.
Hypothesis ready : forall c, cls c -> Pre seq keeps_mutex (b_buf (bb s)) single (heap s) c [] (body c).

Lemma class_inv programs h cfg :
  WF s -> mu s = false -> gor programs cls -> exec body (start s programs) h cfg ->
  exists G q own, inv seq keeps_mutex cls (b_buf (bb s)) single (heap s) (abs s) h cfg G q own.
Proof.
  intros W M F E.
  eapply (inv_exec body seq keeps_mutex cls (b_buf (bb s)) single (heap s) (abs s)); eauto.
Qed.

Lemma class_result programs h cfg :
  WF s -> mu s = false -> gor programs cls -> exec body (start s programs) h cfg ->
  exists a, linearizable seq (abs s) h a /\
    (quiescent cfg -> abs (sh cfg) = a /\ (mu (sh cfg) = true -> mutex_lost h)).
Proof.
  intros W M F E. destruct (class_inv programs h cfg W M F E) as (G & q & own & I).
  exists (abs G). split.
  - destruct I as [ks I]. eapply atomic_linearizable. exact (i_atomic _ _ _ _ _ _ _ _ _ _ _ _ _ I).
  - intro Q. destruct (inv_quiescent _ _ _ _ _ _ _ _ _ _ _ _ I Q) as [<- X]. auto.
Qed.

(** Some goroutine can go on, unless all are finished or a panic kept the mutex. *)
Lemma class_progress programs h cfg :
  WF s -> mu s = false -> gor programs cls -> exec body (start s programs) h cfg -> ~ mutex_lost h ->
  finished cfg \/ exists t h' cfg', gstep body t cfg h' cfg'.
Proof.
  intros W M F E N. destruct (class_inv programs h cfg W M F E) as (G & q & own & I).
  assert (D : forall g : goroutine (call2 slice), {g = mkG [] None} + {g <> mkG [] None}).
  { intros [[|x t] [y|]]; try (right; discriminate). now left. }
  destruct (Forall_Exists_dec _ D (gs cfg)) as [A|A].
  - left. exact A.
  - right. apply Exists_exists in A as (g & IN & Ng). apply In_nth_error in IN as [t Ht].
    eapply inv_progress; eauto.
Qed.

(** When no call can lose the mutex, all calls can be brought to return. *)
Lemma class_return programs h cfg :
  WF s -> mu s = false -> gor programs cls -> exec body (start s programs) h cfg ->
  (forall h cfg, exec body (start s programs) h cfg -> ~ mutex_lost h) ->
  exists h' cfg', exec body cfg h' cfg' /\ finished cfg'.
Proof.
  intros W M F E N. pose proof (steps_finite body cfg) as A. revert h E.
  induction A as [cfg _ IH]. intros h E.
  destruct (class_progress programs h cfg W M F E (N _ _ E)) as [D|(t & h1 & c1 & G)].
  - exists [], cfg. split; auto. constructor.
  - destruct (IH c1 (ex_intro _ t (ex_intro _ h1 G)) (h ++ h1)) as (h2 & c2 & E2 & D).
    { econstructor; eauto. }
    exists (h1 ++ h2), c2. split; auto. eapply exec_cons; eauto.
Qed.
End Class.

(** Calls of the history and of an order are calls of the programs. *)
Lemma history_calls (body : call2 slice -> prog (rv slice)) s programs h cfg t c r : exec body (start s programs) h cfg ->
  In (ERet t c r) h -> In c (concat programs).
Proof.
  intros E H. pose proof (history_programs body s programs h cfg E t) as P.
  assert (R : In (c, r) (returns_of t h)).
  { unfold returns_of. apply in_flat_map. eexists. split; [exact H|]. cbn. rewrite Nat.eqb_refl. now left. }
  destruct (nth_error (gs cfg) t) as [g|].
  - destruct P as [P Q]. apply nth_error_In in P. apply in_concat. eexists. split; [exact P|].
    apply in_or_app. left. rewrite Q. apply in_or_app. left. now apply (in_map fst _ (c, r)).
  - destruct P as (_ & _ & P). rewrite P in R. contradiction.
Qed.
Lemma order_calls (body : call2 slice -> prog (rv slice)) s programs h cfg o t c r : exec body (start s programs) h cfg ->
  explains o h -> In (t, (c, r)) o -> In c (concat programs).
Proof.
  intros E X H. pose proof (history_programs body s programs h cfg E t) as P.
  assert (R : In c (calls_of t h)).
  { destruct (X t) as [_ [n ->]]. apply in_or_app. left. apply (in_map fst _ (c, r)).
    unfold of. apply in_flat_map. eexists. split; [exact H|]. cbn. rewrite Nat.eqb_refl. now left. }
  destruct (nth_error (gs cfg) t) as [g|].
  - destruct P as [P Q]. apply nth_error_In in P. apply in_concat. eexists. split; [exact P|].
    apply in_or_app. now left.
  - destruct P as (_ & P & _). rewrite P in R. contradiction.
Qed.

Lemma of_in {call} (o : @order call) t x : In x (of t o) -> In (t, x) o.
Proof.
  unfold of. intro H. apply in_flat_map in H as ([u y] & H1 & H2). cbn in H2.
  destruct (Nat.eqb_spec u t) as [->|]; [|contradiction]. destruct H2 as [->|[]]. exact H1.
Qed.

(** *** C44 *)

Lemma bit_atomic s c : bit_call c -> atomic_call s c.
Proof.
  destruct c as [off o|o| | | | | | | | | | | | | | | | | ]; intro H; try contradiction; try exact I.
  destruct o; try contradiction; exact I.
Qed.

Lemma gor_impl programs (P Q : call2 slice -> Prop) : (forall c, P c -> Q c) -> gor programs P -> gor programs Q.
Proof. intros H. apply Forall_impl. intro l. now apply Forall_impl. Qed.

Theorem C44_bits_linearizable pol s programs h cfg :
  WF s -> mu s = false -> gor programs (fun c => valid_call2 s c /\ bit_call c) ->
  exec (do2_call pol) (start s programs) h cfg ->
  exists a, linearizable (seq_v2 (heap s)) (abs s) h a /\
    (quiescent cfg -> abs (sh cfg) = a /\ mu (sh cfg) = false).
Proof.
  intros W M F E.
  destruct (class_result (do2_call pol) (seq_v2 (heap s)) s (fun c => valid_call2 s c /\ bit_call c) false) with programs h cfg as (a & L & Q); auto.
  { intros c [V B]. apply pre_atomic; auto. now apply bit_atomic. }
  exists a. split; auto. intro X. destruct (Q X) as [Q1 Q2]. split; auto.
  destruct (mu (sh cfg)); auto. destruct (Q2 eq_refl) as (t & c & e & H & U & _). exfalso.
  assert (B : bit_call c).
  { eapply (Forall_forall (fun c => valid_call2 s c /\ bit_call c)); [|eapply history_calls; eauto]. now apply Forall_concat. }
  destruct c as [off o1|o1| | | | | | | | | | | | | | | | | ]; try contradiction; try discriminate.
  destruct o1; try contradiction; discriminate.
Qed.
Print Assumptions C44_bits_linearizable.

(** A concrete case: two goroutines flip bit 3 while a third reads it; the
    schedule interleaves all three. *)
Definition three_bits : list (list (call2 slice)) :=
  [[At2 3 PFlipBit]; [At2 3 PFlipBit; KFlipAllBits]; [At2 3 PReadBit; At2 3 (PSetBit 1)]].
Example C44_case :
  WF ex /\ mu ex = false /\ gor three_bits (fun c => valid_call2 ex c /\ bit_call c) /\
  exists h cfg, exec (do2_call (fun _ n => n)) (start ex three_bits) h cfg /\
    (quiescent cfg /\ length h = 10%nat /\ content (sh cfg) = [90; 240; 0; 247]).
Proof.
  split; [exact ex_WF|]. split; [reflexivity|]. split; [repeat constructor; hyp|].
  apply (sched_exec _ [(0, 2); (1, 3); (2, 2); (1, 9); (0, 9); (2, 9); (1, 3); (2, 2); (1, 99); (2, 99)]%nat).
  vm_compute. split; [repeat constructor|]. split; reflexivity.
Qed.

(** *** No flip is lost *)

Lemma nth_is {A} (l : list A) n d : nth n l d = match nth_error l n with Some x => x | None => d end.
Proof. now rewrite <- nth_default_eq. Qed.
Lemma concat_nils {A} (l : list (list A)) : (forall t, nth t l [] = []) -> concat l = [].
Proof.
  induction l as [|x l IH]; intro H; auto. cbn. rewrite (H 0%nat : x = []). cbn. apply IH. intro t. apply (H (S t)).
Qed.
Lemma concat_pop {A} (l : list (list A)) t c rest : nth t l [] = c :: rest ->
  Permutation (c :: concat (set_nth l t rest)) (concat l) /\ (t < length l)%nat.
Proof.
  revert t. induction l as [|x l IH]; intros [|t] H; cbn in H; try discriminate.
  - subst x. cbn. split; [reflexivity|lia].
  - destruct (IH t H) as [P L]. split; [|cbn; lia].
    change (set_nth (x :: l) (S t) rest) with (x :: set_nth l t rest). cbn [concat].
    rewrite Permutation_middle. now apply Permutation_app_head.
Qed.
Lemma order_perm {call} (o : @order call) : forall programs,
  (forall t, map fst (of t o) = nth t programs []) ->
  Permutation (map (fun x => fst (snd x)) o) (concat programs).
Proof.
  induction o as [|[t [c r]] o IH]; intros programs H.
  - rewrite concat_nils; auto. intro t. now rewrite <- H.
  - pose proof (H t) as Ht. cbn in Ht. rewrite Nat.eqb_refl in Ht. cbn in Ht. symmetry in Ht.
    destruct (concat_pop _ _ _ _ Ht) as [P L]. rewrite <- P. cbn. constructor. apply IH.
    intro u. rewrite nth_is.
    rewrite nth_error_set_nth by exact L. specialize (H u). cbn in H.
    destruct (Nat.eqb_spec u t) as [->|N]; auto.
    destruct (Nat.eqb_spec t u) as [->|_]; [congruence|]. now rewrite <- nth_is.
Qed.

(** In a finished run the order has all calls of all goroutines. *)
Lemma finished_order (body : call2 slice -> prog (rv slice)) s programs h cfg o :
  exec body (start s programs) h cfg -> finished cfg -> explains o h ->
  Permutation (map (fun x => fst (snd x)) o) (concat programs).
Proof.
  intros E F X. apply order_perm. intro t. pose proof (history_programs body s programs h cfg E t) as P.
  destruct (X t) as [[m A] [n B]]. rewrite (nth_is programs t).
  destruct (nth_error (gs cfg) t) as [g|] eqn:Eg.
  - pose proof (proj1 (Forall_forall _ _) F _ (nth_error_In _ _ Eg)) as ->. cbn in P. destruct P as [-> P].
    rewrite !app_nil_r in *. rewrite A, map_app in B. rewrite P in B. rewrite <- app_assoc in B.
    symmetry in B. rewrite <- (app_nil_r (map fst (returns_of t h))) in B at 2.
    apply app_inv_head in B. apply app_eq_nil in B as [B1 B2]. rewrite A, map_app, B1, app_nil_r. now rewrite P.
  - destruct P as (-> & P & _). rewrite P in B. symmetry in B. now apply app_eq_nil in B as [-> _].
Qed.

(** How many times the calls [l] flip bit [i]. *)
Definition flips_of (i : Z) (l : list (call2 slice)) : nat :=
  length (filter (fun c => match c with At2 off PFlipBit => off =? i | _ => false end) l).

Lemma flips_perm i l l' : Permutation l l' -> flips_of i l = flips_of i l'.
Proof.
  intro P. unfold flips_of. induction P; cbn; auto; try congruence.
  - destruct x; auto. destruct o; auto. destruct (_ =? _); cbn; auto.
  - destruct x as [? []| | | | | | | | | | | | | | | | | | ], y as [? []| | | | | | | | | | | | | | | | | | ]; auto;
      repeat destruct (_ =? _); cbn; auto.
Qed.

Lemma runs_flips h0 a o a' n i : runs (seq_v2 h0) a o a' ->
  zlen (a_bytes a) = n -> 0 <= i < 8 * n ->
  Forall (fun x => exists off, fst (snd x) = At2 off PFlipBit /\ 0 <= off < 8 * n) o ->
  zlen (a_bytes a') = n /\
  bit_at (a_bytes a') i = xorb (bit_at (a_bytes a) i) (Nat.odd (flips_of i (map (fun x => fst (snd x)) o))).
Proof.
  intros R L Hi. induction R as [a|a o a1 t c r a2 R IH S]; intro F.
  - cbn. split; auto. now rewrite xorb_false_r.
  - apply Forall_app in F as [F1 F2]. inversion F2 as [|x y [off [E Ho]] _]; subst. cbn [fst snd] in E. subst c.
    destruct (IH eq_refl F1) as [L1 B1]. unfold seq_v2 in S. cbn [view_call2 view_op2 seq_call seq_at] in S.
    rewrite L1 in S. replace (8 * zlen (a_bytes a) <=? off) with false in S by lia.
    replace (off <? 0) with false in S by lia. destruct S as [_ ->]. cbn [a_bytes set_bytes].
    assert (D : 0 <= off / 8 < zlen (a_bytes a1)).
    { rewrite L1. split; [apply Z.div_pos; lia|apply Z.div_lt_upper_bound; lia]. }
    split.
    + unfold flip_bit, put_bit. rewrite put_length; [exact L1|lia|]. change (zlen [_]) with 1. lia.
    + unfold flips_of. rewrite map_app, filter_app, app_length. cbn [map filter fst snd].
      unfold flip_bit. rewrite bit_at_put_bit by lia.
      rewrite Nat.odd_add. fold (flips_of i (map (fun x => fst (snd x)) o)).
      rewrite <- xorb_assoc, <- B1.
      destruct (Z.eqb_spec off i) as [->|N]; cbn.
      * now destruct (bit_at (a_bytes a1) i).
      * now rewrite xorb_false_r.
Qed.

Theorem C44_no_flip_lost pol s programs h cfg i :
  WF s -> mu s = false ->
  gor programs (fun c => exists off, c = At2 off PFlipBit /\ 0 <= off < 8 * zlen (content s)) ->
  exec (do2_call pol) (start s programs) h cfg -> finished cfg ->
  0 <= i < 8 * zlen (content s) ->
  bit_at (content (sh cfg)) i = xorb (bit_at (content s) i) (Nat.odd (flips_of i (concat programs))).
Proof.
  intros W M F E Fin Hi.
  assert (LM : 8 * zlen (content s) < 2 ^ 63).
  { rewrite content_zlen by auto. pose proof (hdr_small s W). lia. }
  destruct (C44_bits_linearizable pol s programs h cfg W M) as (a & (o & R & X & _) & Q); auto.
  { eapply gor_impl; [|exact F]. cbv beta. intros c (off & -> & Ho). split; [|exact I]. split; [|exact I].
    unfold is_i64. lia. }
  destruct Q as [<- _].
  { eapply Forall_impl; [|exact Fin]. cbv beta. now intros g ->. }
  destruct (runs_flips _ _ _ _ (zlen (content s)) i R) as [_ B]; auto.
  { apply Forall_forall. intros [t [c r]] IN. cbn [fst snd].
    apply (proj1 (Forall_forall _ _) (proj2 (Forall_concat _ _) F) c). eapply order_calls; eauto. }
  rewrite (flips_perm i _ _ (finished_order _ _ _ _ _ _ E Fin X)) in B. exact B.
Qed.
Print Assumptions C44_no_flip_lost.

Example C44_flip_case :
  gor [[At2 9 PFlipBit]; [At2 9 PFlipBit; At2 9 PFlipBit]]
    (fun c => exists off, c = At2 off PFlipBit /\ 0 <= off < 8 * zlen (content ex)) /\
  exists h cfg, exec (do2_call (fun _ n => n)) (start ex [[At2 9 PFlipBit]; [At2 9 PFlipBit; At2 9 PFlipBit]]) h cfg /\
    (finished cfg /\ bit_at (content (sh cfg)) 9 = true).
Proof.
  split.
  { repeat constructor; exists 9; split; auto; vm_compute; split; congruence. }
  apply (sched_exec _ [(0, 2); (1, 9); (0, 9); (1, 3); (1, 99)]%nat).
  vm_compute. split; [repeat constructor|reflexivity].
Qed.

(** ** C45 *)

(** Bytes, integers and everything else that is one locked section. *)
Theorem C45_linearizable pol s programs h cfg :
  WF s -> mu s = false -> gor programs (fun c => valid_call2 s c /\ atomic_call s c) ->
  exec (do2_call pol) (start s programs) h cfg ->
  exists a, linearizable (seq_v2 (heap s)) (abs s) h a /\
    (quiescent cfg -> abs (sh cfg) = a /\ (mu (sh cfg) = true -> mutex_lost h)).
Proof.
  intros W M F E. apply (class_result (do2_call pol) (seq_v2 (heap s)) s (fun c => valid_call2 s c /\ atomic_call s c) false) with programs; auto.
  intros c [V A]. now apply pre_atomic.
Qed.
Print Assumptions C45_linearizable.

(** With ReadByte too, when every write is of one byte. *)
Theorem C45_single_byte_linearizable pol s programs h cfg :
  WF s -> mu s = false -> gor programs (fun c => valid_call2 s c /\ single_call s c) ->
  exec (do2_call pol) (start s programs) h cfg ->
  exists a, linearizable (seq_v2 (heap s)) (abs s) h a /\
    (quiescent cfg -> abs (sh cfg) = a /\ (mu (sh cfg) = true -> mutex_lost h)).
Proof.
  intros W M F E. apply (class_result (do2_call pol) (seq_v2 (heap s)) s (fun c => valid_call2 s c /\ single_call s c) true) with programs; auto.
  intros c [V A]. now apply pre_single.
Qed.
Print Assumptions C45_single_byte_linearizable.

(** Two writers of overlapping integers, a reader, and a byte writer. *)
Definition four_ints : list (list (call2 slice)) :=
  [[At2 0 (PWrite NU32BE [0x01020304])]; [At2 1 (PWrite NU16LE [0x0506]); KSeek 1 true];
   [At2 0 (PRead NU32LE 1); At2 3 (PWrite NU16LE [7])]; [At2 2 (PWriteBytes (mkSlice 1 0 2 3)); At2 0 (PWriteByte 9)]].
Example C45_case :
  gor four_ints (fun c => valid_call2 ex c /\ atomic_call ex c) /\
  exists h cfg, exec (do2_call (fun _ n => n)) (start ex four_ints) h cfg /\
    (quiescent cfg /\ length h = 14%nat /\ content (sh cfg) = [9; 2; 3; 4] /\ b_off (bb (sh cfg)) = 2).
Proof.
  split.
  { repeat constructor; try hyp; cbn; try lia; try (vm_compute; discriminate). }
  apply (sched_exec _ [(0, 2); (1, 3); (2, 2); (3, 2); (1, 99); (2, 99); (3, 99); (1, 1); (2, 99);
                       (0, 6); (3, 1); (0, 99); (3, 99); (1, 99)]%nat).
  vm_compute. split; [repeat constructor|]. repeat split; reflexivity.
Qed.
Example C45_single_case :
  gor [[At2 0 (PWriteByte 7); At2 1 PReadByte]; [At2 0 PReadByte; At2 0 (PRead NU16LE 1)]]
    (fun c => valid_call2 ex c /\ single_call ex c) /\
  exists h cfg, exec (do2_call (fun _ n => n))
      (start ex [[At2 0 (PWriteByte 7); At2 1 PReadByte]; [At2 0 PReadByte; At2 0 (PRead NU16LE 1)]]) h cfg /\
    (quiescent cfg /\ returns_of 1 h = [(At2 0 PReadByte, Returned (RInt 7)); (At2 0 (PRead NU16LE 1), Returned (RNums [3847]))]).
Proof.
  split. { repeat constructor; try hyp; cbn; lia. }
  apply (sched_exec _ [(0, 2); (1, 5); (0, 99); (1, 99); (0, 2); (1, 99); (0, 99)]%nat).
  vm_compute. split; [repeat constructor|reflexivity].
Qed.

(** *** Never torn: a reader sees the old value or a written one *)

Lemma runs_no_tear h0 t off a o a' (W : Z -> Prop) : runs (seq_v2 h0) a o a' ->
  0 <= off -> off + tsize (fmt t) <= zlen (a_bytes a) < 2 ^ 60 ->
  Forall (fun x => fst (snd x) = At2 off (PRead t 1) \/ exists v, in_format (fmt t) v /\ W v /\ fst (snd x) = At2 off (PWrite t [v])) o ->
  let seen x := x = decode_all (fmt t) (a_bytes a) off 1 \/ exists v, W v /\ x = [v] in
  zlen (a_bytes a') = zlen (a_bytes a) /\ seen (decode_all (fmt t) (a_bytes a') off 1) /\
  forall u r, In (u, (At2 off (PRead t 1), r)) o -> exists x, r = Returned (RNums x) /\ seen x.
Proof.
  intros R Ho Hl F seen. induction R as [a|a o a1 u c r a2 R IH S].
  - split; auto. split; [now left|]. intros u r [].
  - apply Forall_app in F as [F1 F2]. destruct (IH Hl F1) as (L1 & S1 & A1).
    inversion F2 as [|x y C _]; subst. cbn [fst snd] in C.
    assert (T : 1 <= tsize (fmt t) <= 8) by (destruct t; vm_compute; split; discriminate).
    unfold seq_v2 in S. destruct C as [-> | (v & Iv & Wv & ->)]; cbn [view_call2 view_op2 seq_call seq_at] in S.
    + assert (X : off +! 1 *! tsize (fmt t) = off + tsize (fmt t)).
      { rewrite mul64_id by (unfold is_i64; lia). rewrite add64_id; [lia|]. unfold is_i64. lia. }
      rewrite X, L1 in S. pose proof max_alloc_val as MV.
      replace (off + tsize (fmt t) >? zlen (a_bytes a)) with false in S by lia.
      replace (off <? 0) with false in S by lia.
      replace ((1 <? 0) || (maxAlloc <? 1 * tsize (fmt t))) with false in S by lia.
      replace ((1 =? 0) || (zlen (a_bytes a) <? off + 1 * tsize (fmt t))) with false in S by lia.
      destruct S as [-> ->]. split; auto. split; auto.
      intros u' r' IN. apply in_app_or in IN as [IN|[IN|[]]]; eauto. injection IN as _ <-. eauto.
    + unfold seq_store in S. rewrite encode_all_zlen in S. change (zlen [v]) with 1 in S. rewrite L1 in S.
      replace (zlen (a_bytes a) <? off + 1 * tsize (fmt t)) with false in S by lia.
      replace (off <? 0) with false in S by lia. replace (1 * tsize (fmt t) =? 0) with false in S by lia.
      destruct S as [-> ->]. cbn [a_bytes set_bytes].
      assert (LE : zlen (encode_all (fmt t) [v]) = tsize (fmt t)) by (rewrite encode_all_zlen; change (zlen [v]) with 1; lia).
      split; [|split].
      * rewrite put_length; auto; lia.
      * right. exists v. split; auto. apply (decode_all_put (fmt t) (a_bytes a1) off [v]); auto.
        change (zlen [v]) with 1. lia.
      * intros u' r' IN. apply in_app_or in IN as [IN|[IN|[]]]; eauto. discriminate.
Qed.

Theorem C45_not_torn pol s programs h cfg t off u r :
  WF s -> mu s = false -> 0 <= off -> off + tsize (fmt t) <= zlen (content s) ->
  gor programs (fun c => c = At2 off (PRead t 1) \/ exists v, in_format (fmt t) v /\ c = At2 off (PWrite t [v])) ->
  exec (do2_call pol) (start s programs) h cfg ->
  In (ERet u (At2 off (PRead t 1)) r) h ->
  exists x, r = Returned (RNums x) /\
    (x = decode_all (fmt t) (content s) off 1 \/
     exists v, In (At2 off (PWrite t [v])) (concat programs) /\ x = [v]).
Proof.
  intros W M Ho Hl F E IN.
  assert (LM : zlen (content s) < 2 ^ 60) by (rewrite content_zlen by auto; apply (hdr_small s W)).
  assert (T : 1 <= tsize (fmt t)) by (destruct t; vm_compute; discriminate).
  destruct (C45_linearizable pol s programs h cfg W M) as (a & (o & R & X & _) & _); auto.
  { eapply gor_impl; [|exact F]. cbv beta. intros c [-> | (v & Hv & ->)]; (split; [|exact I]); (split; [unfold is_i64; lia|]).
    - unfold valid_op2, is_i64; lia.
    - unfold valid_op2, wf_data. destruct t; vm_compute; discriminate. }
  destruct (runs_no_tear _ t off _ _ _ (fun v => In (At2 off (PWrite t [v])) (concat programs)) R) as (_ & _ & A); auto.
  { apply Forall_forall. intros [w [c q]] Hin. cbn [fst snd].
    pose proof (order_calls _ _ _ _ _ _ _ _ _ E X Hin) as IC.
    destruct (proj1 (Forall_forall _ _) (proj2 (Forall_concat _ _) F) c IC) as [-> | (v & Hv & ->)]; auto.
    right. exists v. auto. }
  apply (A u). destruct (X u) as [[m P] _].
  assert (Q : In (At2 off (PRead t 1), r) (of u o)).
  { rewrite P. apply in_or_app. left. unfold returns_of. apply in_flat_map. eexists. split; [exact IN|]. cbn.
    rewrite Nat.eqb_refl. now left. }
  unfold of in Q. apply in_flat_map in Q as ([w [c q]] & Q1 & Q2). cbn in Q2.
  destruct (Nat.eqb_spec w u) as [->|]; [|contradiction]. destruct Q2 as [Q2|[]]. now injection Q2 as -> ->.
Qed.
Print Assumptions C45_not_torn.

Example C45_not_torn_case :
  gor [[At2 0 (PWrite NU32BE [0x01020304])]; [At2 0 (PRead NU32BE 1)]]
    (fun c => c = At2 0 (PRead NU32BE 1) \/ exists v, in_format (fmt NU32BE) v /\ c = At2 0 (PWrite NU32BE [v])) /\
  exists h cfg, exec (do2_call (fun _ n => n)) (start ex [[At2 0 (PWrite NU32BE [0x01020304])]; [At2 0 (PRead NU32BE 1)]]) h cfg /\
    In (ERet 1 (At2 0 (PRead NU32BE 1)) (Returned (RNums [0x01020304]))) h.
Proof.
  split.
  { constructor; [|constructor; [|constructor]]; (constructor; [|constructor]); [right; exists 0x01020304|now left].
    split; auto. vm_compute. split; congruence. }
  apply (sched_exec _ [(0, 6); (1, 2); (0, 99); (1, 99)]%nat). vm_compute. auto 8.
Qed.

(** *** ReadBytes returns a view, not a copy *)

(** ReadBytes takes the lock only to slice the buffer: its caller looks at the
    bytes after the lock is released and can see a WriteBytes half done. *)
Definition two_ones : St := mkSt [[0; 0]; [1; 1]] (mkBuf (mkSlice 0 0 2 2) 0 2 0 16) false [].
Definition torn_bytes : list (list (call2 slice)) :=
  [[At2 0 (PWriteBytes (mkSlice 1 0 2 2))]; [At2 0 (PReadBytes 2)]].

Lemma torn_bytes_order a o a' : runs (seq_v2 (heap two_ones)) a o a' ->
  Forall (fun x => fst (snd x) = At2 0 (PWriteBytes (mkSlice 1 0 2 2)) \/ fst (snd x) = At2 0 (PReadBytes 2)) o ->
  a_bytes a = [0; 0] ->
  (a_bytes a' = [0; 0] \/ a_bytes a' = [1; 1]) /\
  Forall (fun x => forall l, snd x = (At2 0 (PReadBytes 2), Returned (RBytes l)) -> l = [0; 0] \/ l = [1; 1]) o.
Proof.
  intros R F A. induction R as [a|a o a1 u c r a2 R IH S].
  - auto.
  - apply Forall_app in F as [F1 F2]. destruct (IH F1 A) as [B H]. inversion F2 as [|x y C _]; subst. cbn [fst snd] in C.
    unfold seq_v2 in S. destruct a1 as [l1 f1 g1 b1]; cbn [a_bytes] in B.
    destruct B as [-> | ->]; destruct C as [-> | ->]; vm_compute in S; destruct S as [-> ->]; cbn;
      (split; [auto|]); apply Forall_app; (split; [exact H|]); constructor; auto; cbn; intros l X; try discriminate;
      injection X as <-; auto.
Qed.

Theorem C45_ReadBytes_refuted :
  ~ (forall pol s programs h cfg, WF s -> mu s = false ->
       gor programs (fun c => valid_call2 s c /\ (atomic_call s c \/ exists i n, c = At2 i (PReadBytes n))) ->
       exec (do2_call pol) (start s programs) h cfg ->
       exists a, linearizable (seq_v2 (heap s)) (abs s) h a).
Proof.
  intro H.
  assert (X : exists h cfg, exec (do2_call (fun _ n => n)) (start two_ones torn_bytes) h cfg /\
    (returns_of 1 h = [(At2 0 (PReadBytes 2), Returned (RBytes [1; 0]))] /\ finished cfg)).
  { apply (sched_exec _ [(1, 5); (0, 6); (1, 99); (0, 99)]%nat). vm_compute. repeat constructor. }
  destruct X as (h & cfg & E & R & F).
  destruct (H (fun _ n => n) two_ones torn_bytes h cfg) as (a & (o & Q & X & _)); auto.
  { wf_state. }
  { constructor; [|constructor; [|constructor]]; (constructor; [|constructor]); cbv beta.
    - split; [repeat constructor; vm_compute; congruence|]. left. cbn. discriminate.
    - split; [repeat constructor; vm_compute; congruence|]. right. now exists 0, 2. }
  assert (C : Forall (fun x => fst (snd x) = At2 0 (PWriteBytes (mkSlice 1 0 2 2)) \/ fst (snd x) = At2 0 (PReadBytes 2)) o).
  { apply Forall_forall. intros [u [c r]] IN. pose proof (order_calls _ _ _ _ _ _ _ _ _ E X IN) as IC. cbn in *.
    intuition congruence. }
  assert (O1 : prefix [(At2 0 (PReadBytes 2), Returned (RBytes [1; 0]))] (of 1 o)) by (rewrite <- R; apply X).
  destruct O1 as [n O1].
  destruct (torn_bytes_order _ _ _ Q C eq_refl) as [_ Z0].
  assert (IN : In (At2 0 (PReadBytes 2), Returned (RBytes [1; 0])) (of 1 o)) by (rewrite O1; now left).
  apply of_in in IN. destruct (proj1 (Forall_forall _ _) Z0 _ IN [1; 0] eq_refl); discriminate.
Qed.
Print Assumptions C45_ReadBytes_refuted.

(** ** C46: Next calls are two sections *)

(** Two WriteByteNext calls on the same buffer: for every buffer with room at its
    offset and any two bytes there is a schedule in which both return normally,
    the offset advances by two, and the first byte is nowhere: the second call
    wrote over it. *)
Theorem C46_WriteByteNext_lost_update pol s v w :
  WF s -> mu s = false -> is_byte v -> is_byte w ->
  0 <= b_off (bb s) < zlen (content s) ->
  exists h cfg, exec (do2_call pol) (start s [[Next2 (PWriteByte v)]; [Next2 (PWriteByte w)]]) h cfg /\
    finished cfg /\
    returns_of 0 h = [(Next2 (PWriteByte v), Returned RUnit)] /\
    returns_of 1 h = [(Next2 (PWriteByte w), Returned RUnit)] /\
    content (sh cfg) = put (content s) (b_off (bb s)) [w] /\
    b_off (bb (sh cfg)) = b_off (bb s) + 2.
Proof.
  intros W M Hv Hw Ho. set (off := b_off (bb s)) in *.
  assert (LM : zlen (content s) < 2 ^ 60) by (rewrite content_zlen by auto; apply (hdr_small s W)).
  pose (rest := fun v : Z => ret_unit (bind (V2Buffer.WriteByte off v) (fun _ => V2Buffer.seek 1 true))).
  assert (RUN : forall s v, WF s -> mu s = false -> is_byte v -> is_i64 (b_off (bb s) + 1) -> zlen (content s) < 2 ^ 60 -> 0 <= off < zlen (content s) ->
    exists s', run (rest v) s = Done RUnit s' /\ WF s' /\ mu s' = false /\
      content s' = put (content s) off [v] /\ b_off (bb s') = b_off (bb s) + 1).
  { clearbody off. clear W M Hv Hw Ho LM s v w. intros s v W M Hv Hb HL Ho. unfold rest, ret_unit. rewrite !run_bind, v2_WriteByte by (auto; unfold is_i64; lia).
    replace (zlen (content s) <? off + 1) with false by lia. replace (off <? 0) with false by lia.
    set (s1 := with_content (alloc s [v]) (put (content s) off [v])).
    assert (A : content (alloc s [v]) = content s) by (now injection (abs_alloc s [v] W)).
    assert (W0 : WF (alloc s [v])). { apply alloc_WF; auto. rewrite max_alloc_val; now vm_compute. }
    assert (LP : zlen (put (content s) off [v]) = zlen (content (alloc s [v]))).
    { rewrite A. apply put_length. lia. change (zlen [v]) with 1. lia. }
    assert (BP : Forall is_byte (put (content s) off [v])) by (apply Forall_put; auto; now apply content_bytes).
    assert (W1 : WF s1) by (now apply with_content_WF).
    change (run (V2Buffer.seek 1 true) s1) with (run (V2Buffer.Seek 1 true) s1).
    rewrite v2_Seek by exact M. change (b_off (bb s)) with (b_off (bb s1)) in Hb.
    exists (with_off s1 (b_off (bb s1) +! 1)). split; [reflexivity|].
    rewrite add64_id by exact Hb. split; [now apply with_off_WF|]. split; [exact M|].
    split; [|reflexivity]. change (content s1 = put (content s) off [v]). now apply content_with_content. }
  destruct (RUN s v) as (s1 & R1 & W1 & M1 & C1 & O1); auto.
  { fold off. unfold is_i64. lia. }
  destruct (RUN s1 w) as (s2 & R2 & W2 & M2 & C2 & O2); auto.
  { rewrite O1. fold off. unfold is_i64. lia. }
  { rewrite C1, put_length; [lia|lia|]. change (zlen [v]) with 1. lia. }
  { rewrite C1, put_length; [lia|lia|]. change (zlen [v]) with 1. lia. }
  pose (c0 := Next2 (PWriteByte v) : call2 slice). pose (c1 := Next2 (PWriteByte w) : call2 slice).
  eexists. exists (mkC s2 [mkG [] None; mkG [] None]). split.
  - eapply exec_cons; [exact (g_call (do2_call pol) 0 (mkC s [mkG [c0] None; mkG [c1] None]) c0 [] eq_refl)|].
    eapply exec_cons; [exact (g_step (do2_call pol) 0 (mkC s [mkG [] (Some (c0, do2_call pol c0)); mkG [c1] None]) c0 [] _ (rest v) s eq_refl eq_refl)|].
    eapply exec_cons; [exact (g_call (do2_call pol) 1 (mkC s [mkG [] (Some (c0, rest v)); mkG [c1] None]) c1 [] eq_refl)|].
    eapply exec_cons; [exact (g_step (do2_call pol) 1 (mkC s [mkG [] (Some (c0, rest v)); mkG [] (Some (c1, do2_call pol c1))]) c1 [] _ (rest w) s eq_refl eq_refl)|].
    eapply exec_trans; [exact (solo_done (do2_call pol) 0 [] c0 (rest v) (mkC s [mkG [] (Some (c0, rest v)); mkG [] (Some (c1, rest w))]) RUnit s1 eq_refl R1)|].
    exact (solo_done (do2_call pol) 1 [] c1 (rest w) (mkC s1 [mkG [] None; mkG [] (Some (c1, rest w))]) RUnit s2 eq_refl R2).
  - split; [repeat constructor|]. split; [reflexivity|]. split; [reflexivity|]. cbn [sh]. split.
    + rewrite C2, C1. apply put_put_same; [lia| |reflexivity]. change (zlen [v]) with 1. lia.
    + rewrite O2, O1. fold off. lia.
Qed.
Print Assumptions C46_WriteByteNext_lost_update.

(** The same two calls made one after the other write two bytes. *)
Theorem C46_sequential_contrast pol s v w :
  WF s -> mu s = false -> is_byte v -> is_byte w ->
  0 <= b_off (bb s) -> b_off (bb s) + 2 <= zlen (content s) ->
  exists s1 s2, run (do2_call pol (Next2 (PWriteByte v))) s = Done RUnit s1 /\
    run (do2_call pol (Next2 (PWriteByte w))) s1 = Done RUnit s2 /\
    content s2 = put (content s) (b_off (bb s)) [v; w] /\ b_off (bb s2) = b_off (bb s) + 2.
Proof.
  intros W M Hv Hw H0 H2.
  assert (LM : zlen (content s) < 2 ^ 60) by (rewrite content_zlen by auto; apply (hdr_small s W)).
  assert (RUN : forall s v, WF s -> mu s = false -> is_byte v -> zlen (content s) < 2 ^ 60 -> 0 <= b_off (bb s) < zlen (content s) ->
    exists s', run (do2_call pol (Next2 (PWriteByte v))) s = Done RUnit s' /\ WF s' /\ mu s' = false /\
      content s' = put (content s) (b_off (bb s)) [v] /\ b_off (bb s') = b_off (bb s) + 1).
  { clear. intros s v W M Hv HL Ho.
    change (run (do2_call pol (Next2 (PWriteByte v))) s) with
      (run (ret_unit (bind (V2Buffer.WriteByte (b_off (bb s)) v) (fun _ => V2Buffer.seek 1 true))) s).
    unfold ret_unit. rewrite !run_bind, v2_WriteByte by (auto; unfold is_i64; lia).
    replace (zlen (content s) <? b_off (bb s) + 1) with false by lia. replace (b_off (bb s) <? 0) with false by lia.
    set (s1 := with_content (alloc s [v]) (put (content s) (b_off (bb s)) [v])).
    assert (A : content (alloc s [v]) = content s) by (now injection (abs_alloc s [v] W)).
    assert (W0 : WF (alloc s [v])). { apply alloc_WF; auto. rewrite max_alloc_val; now vm_compute. }
    assert (LP : zlen (put (content s) (b_off (bb s)) [v]) = zlen (content (alloc s [v]))).
    { rewrite A. apply put_length. lia. change (zlen [v]) with 1. lia. }
    assert (BP : Forall is_byte (put (content s) (b_off (bb s)) [v])) by (apply Forall_put; auto; now apply content_bytes).
    assert (W1 : WF s1) by (now apply with_content_WF).
    change (run (V2Buffer.seek 1 true) s1) with (run (V2Buffer.Seek 1 true) s1).
    rewrite v2_Seek by exact M. assert (Hb : is_i64 (b_off (bb s1) + 1)) by (cbn; unfold is_i64; lia).
    exists (with_off s1 (b_off (bb s1) +! 1)). split; [reflexivity|].
    rewrite add64_id by exact Hb. split; [now apply with_off_WF|]. split; [exact M|].
    split; [|reflexivity]. change (content s1 = put (content s) (b_off (bb s)) [v]). now apply content_with_content. }
  destruct (RUN s v) as (s1 & R1 & W1 & M1 & C1 & O1); auto. lia.
  assert (L1 : zlen (content s1) = zlen (content s)). { rewrite C1. apply put_length. lia. change (zlen [v]) with 1. lia. }
  destruct (RUN s1 w) as (s2 & R2 & W2 & M2 & C2 & O2); auto; try lia.
  exists s1, s2. split; [exact R1|]. split; [exact R2|]. split; [|lia].
  rewrite C2, C1, O1. change [v; w] with ([v] ++ [w]).
  replace (b_off (bb s) + 1) with (b_off (bb s) + zlen [v]) by reflexivity.
  apply put_put_adj; change (zlen [v]) with 1; change (zlen [w]) with 1; lia.
Qed.
Print Assumptions C46_sequential_contrast.

Example C46_case :
  (WF ex /\ mu ex = false /\ 0 <= b_off (bb ex) < zlen (content ex) /\ b_off (bb ex) + 2 <= zlen (content ex)) /\
  (put (content ex) (b_off (bb ex)) [2] = [165; 2; 255; 8] /\ put (content ex) (b_off (bb ex)) [1; 2] = [165; 1; 2; 8]).
Proof. split; [split; [exact ex_WF|hyp]|hyp]. Qed.

(** ** C47: the bounds check and the section it guards are two steps *)

(** ReadByte in range, and a Reset: there is a schedule in which ReadByte ends in
    a Go runtime error (not in a crunch error). *)
Theorem C47_ReadByte_runtime_error pol s off :
  WF s -> mu s = false -> 0 <= off < zlen (content s) ->
  exists h cfg, exec (do2_call pol) (start s [[At2 off PReadByte]; [KReset]]) h cfg /\ finished cfg /\
    returns_of 0 h = [(At2 off PReadByte, Raised slice_error)] /\
    returns_of 1 h = [(KReset, Returned RUnit)].
Proof.
  intros W M Ho.
  assert (LM : zlen (content s) < 2 ^ 60) by (rewrite content_zlen by auto; apply (hdr_small s W)).
  pose (c0 := At2 off PReadByte : call2 slice). pose (c1 := KReset : call2 slice).
  pose (rest := ret_int (bind (bind (panic_if (off +! 1 >? b_cap (bb s)) BufferOverreadError) (fun _ =>
    bind (panic_if (off <? 0) BufferUnderreadError) (fun _ =>
    locked (bind get_buf (fun s => reslice s off (off +! 1)))))) (fun s => slice_get s 0))).
  assert (R : run rest (reset2 s) = Panicked slice_error (reset2 s)).
  { unfold rest, ret_int. rewrite !run_bind.
    pose proof (wf_cap _ W) as Hc. rewrite <- content_zlen in Hc by auto.
    rewrite add64_id by (unfold is_i64; lia).
    replace (off + 1 >? b_cap (bb s)) with false by lia. replace (off <? 0) with false by lia. cbn [run panic_if].
    rewrite run_bind. cbn [run panic_if].
    rewrite run_locked; [|lockfree_tac|exact M].
    cbn [run bind get_buf]. unfold reslice. cbn.
    replace ((0 <=? off) && (off <=? off + 1) && (off + 1 <=? 0)) with false by lia. reflexivity. }
  eexists. exists (mkC (reset2 s) [mkG [] None; mkG [] None]). split.
  - eapply exec_cons; [exact (g_call (do2_call pol) 0 (mkC s [mkG [c0] None; mkG [c1] None]) c0 [] eq_refl)|].
    eapply exec_cons; [exact (g_step (do2_call pol) 0 (mkC s [mkG [] (Some (c0, do2_call pol c0)); mkG [c1] None]) c0 [] _ rest s eq_refl eq_refl)|].
    eapply exec_cons; [exact (g_call (do2_call pol) 1 (mkC s [mkG [] (Some (c0, rest)); mkG [c1] None]) c1 [] eq_refl)|].
    assert (RR : run (do2_call pol c1) s = Done RUnit (reset2 s)).
    { unfold c1, do2_call, ret_unit. rewrite run_bind, v2_Reset by exact M. reflexivity. }
    eapply exec_trans; [exact (solo_done (do2_call pol) 1 [] c1 (do2_call pol c1) (mkC s [mkG [] (Some (c0, rest)); mkG [] (Some (c1, do2_call pol c1))]) RUnit (reset2 s) eq_refl RR)|].
    exact (solo_panic (do2_call pol) 0 [] c0 rest (mkC (reset2 s) [mkG [] (Some (c0, rest)); mkG [] None]) _ _ eq_refl R).
  - split; [repeat constructor|]. split; reflexivity.
Qed.
Print Assumptions C47_ReadByte_runtime_error.

(** WriteByte in range, and a Reset: there is a schedule in which WriteByte ends
    in a Go runtime error and keeps the mutex.  From then on a call that starts
    by taking the mutex never returns, whatever the schedule. *)
Definition locks_first (c : call2 slice) : Prop :=
  match c with
  | KClearAllBits | KSetAllBits | KFlipAllBits | KSeekBit _ _ | KSeek _ _ | KAlignBit | KAlignByte
  | KGrow _ | KRefresh | KReset => True
  | _ => False
  end.
Lemma locks_first_spec pol c : locks_first c -> exists k, do2_call pol c = Lock k.
Proof. destruct c; intro H; try contradiction; eexists; reflexivity. Qed.

Lemma stuck_behind pol c k : do2_call pol c = Lock k ->
  forall cfg h' cfg', exec (do2_call pol) cfg h' cfg' ->
  mu (sh cfg) = true -> (gs cfg = [mkG [] None; mkG [c] None]) ->
  returns_of 1 h' = [] /\ mu (sh cfg') = true /\ sh cfg' = sh cfg /\
  (gs cfg' = [mkG [] None; mkG [c] None] \/ gs cfg' = [mkG [] None; mkG [] (Some (c, Lock k))]).
Proof.
  intros HL cfg h' cfg' E M G. induction E as [|h c1 t h' c2 E IH St].
  - auto.
  - destruct IH as (R & M1 & S1 & G1). rewrite returns_of_app, R. destruct c1 as [s1 g1]. cbn [gs sh] in *. subst s1.
    destruct G1 as [-> | ->]; inversion St as [o os Ht|o os p p' s' Ht Hs|o os v Ht|o os e Ht]; subst;
      destruct t as [|[|[|t]]]; cbn [gs nth_error] in Ht; try discriminate Ht.
    + injection Ht as <- <-. cbn. rewrite HL. auto 8.
    + injection Ht as <- <- <-. cbn [sh step1] in Hs. rewrite M1 in Hs. discriminate.
Qed.

Theorem C47_WriteByte_deadlock pol s off v c :
  WF s -> mu s = false -> is_byte v -> 0 <= off < zlen (content s) -> locks_first c ->
  exists h cfg, exec (do2_call pol) (start s [[At2 off (PWriteByte v)]; [KReset; c]]) h cfg /\
    returns_of 0 h = [(At2 off (PWriteByte v), Raised index_error)] /\
    returns_of 1 h = [(KReset, Returned RUnit)] /\
    (forall h' cfg', exec (do2_call pol) cfg h' cfg' -> returns_of 1 h' = []).
Proof.
  intros W M Hv Ho HL. destruct (locks_first_spec pol c HL) as [k HK].
  assert (LM : zlen (content s) < 2 ^ 60) by (rewrite content_zlen by auto; apply (hdr_small s W)).
  pose (c0 := At2 off (PWriteByte v) : call2 slice). pose (c1 := KReset : call2 slice).
  pose (d := mkSlice (length (heap s)) 0 1 1). pose (s1 := alloc s [v]).
  pose (rest := ret_unit (bind (panic_if (off +! s_len d >? b_cap (bb s)) BufferOverwriteError) (fun _ =>
    bind (panic_if (off <? 0) BufferUnderwriteError) (fun _ => bind lock (fun _ =>
    bind (goto_loop (s_len d) (fun i _ => bind (slice_get d i) (fun x => buf_set (off +! i) x)) tt) (fun _ => unlock)))))).
  assert (R : exists s2, run rest (reset2 s1) = Panicked index_error s2 /\ mu s2 = true).
  { unfold rest, ret_unit. rewrite !run_bind.
    pose proof (wf_cap _ W) as Hc. rewrite <- content_zlen in Hc by auto. cbn [s_len d].
    rewrite !add64_id by (unfold is_i64; lia).
    replace (off + 1 >? b_cap (bb s)) with false by lia. replace (off <? 0) with false by lia. cbn [run panic_if].
    rewrite run_bind. cbn [run panic_if]. rewrite run_bind. cbn [run lock].
    change (mu (reset2 s1)) with (mu s). rewrite M, run_bind. cbn [run].
    unfold goto_loop, d. change (S (Z.to_nat 1)) with 2%nat. cbn [dw]. rewrite !run_bind.
    assert (HR : heap_read (heap (set_mu (reset2 s1) true)) (length (heap s)) 0 1 = Some [v]).
    { unfold heap_read. change (heap (set_mu (reset2 s1) true)) with ((heap s ++ [[v]]) ++ [[]]).
      rewrite <- app_assoc, nth_error_app2, Nat.sub_diag by lia. reflexivity. }
    unfold slice_get. cbn [s_len s_blk s_off]. change ((0 <=? 0) && (0 <? 1)) with true. cbn [run].
    change (0 + 0) with 0. rewrite HR. unfold buf_set. cbn [run bind get_buf]. unfold slice_set.
    change (s_len (b_buf (bb (set_mu (reset2 s1) true)))) with 0.
    rewrite add64_id by (unfold is_i64; lia). replace ((0 <=? off + 0) && (off + 0 <? 0)) with false by lia. cbn [run].
    eexists. split; reflexivity. }
  destruct R as (s2 & R & M2).
  eexists. exists (mkC s2 [mkG [] None; mkG [c] None]). split; [|split; [|split]].
  - eapply exec_cons; [exact (g_call (do2_call pol) 0 (mkC s [mkG [c0] None; mkG [c1; c] None]) c0 [] eq_refl)|].
    eapply exec_trans; [exact (solo_steps (do2_call pol) 0 [] c0 2 (mkC s [mkG [] (Some (c0, do2_call pol c0)); mkG [c1; c] None]) (do2_call pol c0) rest s1 eq_refl eq_refl)|].
    eapply exec_cons; [exact (g_call (do2_call pol) 1 (mkC s1 [mkG [] (Some (c0, rest)); mkG [c1; c] None]) c1 [c] eq_refl)|].
    assert (RR : run (do2_call pol c1) s1 = Done RUnit (reset2 s1)).
    { unfold c1, do2_call, ret_unit. rewrite run_bind, v2_Reset by exact M. reflexivity. }
    eapply exec_trans; [exact (solo_done (do2_call pol) 1 [c] c1 (do2_call pol c1) (mkC s1 [mkG [] (Some (c0, rest)); mkG [c] (Some (c1, do2_call pol c1))]) RUnit (reset2 s1) eq_refl RR)|].
    exact (solo_panic (do2_call pol) 0 [] c0 rest (mkC (reset2 s1) [mkG [] (Some (c0, rest)); mkG [c] None]) _ _ eq_refl R).
  - reflexivity.
  - reflexivity.
  - intros h' cfg' E. exact (proj1 (stuck_behind pol c k HK _ _ _ E M2 eq_refl)).
Qed.
Print Assumptions C47_WriteByte_deadlock.

Example C47_case : WF ex /\ mu ex = false /\ is_byte 7 /\ 0 <= 3 < zlen (content ex) /\ locks_first KAlignBit.
Proof. split; [exact ex_WF|]. hyp. Qed.

(** SetBits writes bit by bit, each in its own section: a ReadBits of the same
    range can return a mixture of the old and the new bits. *)
Definition zero_byte : St := mkSt [[0]] (mkBuf (mkSlice 0 0 1 1) 0 1 0 8) false [].
Definition torn_bits : list (list (call2 slice)) := [[At2 0 (PSetBits 255 8)]; [At2 0 (PReadBits 8)]].

Lemma torn_bits_order a o a' : runs (seq_v2 (heap zero_byte)) a o a' ->
  Forall (fun x => fst (snd x) = At2 0 (PSetBits 255 8) \/ fst (snd x) = At2 0 (PReadBits 8)) o ->
  a_bytes a = [0] ->
  (a_bytes a' = [0] \/ a_bytes a' = [255]) /\
  Forall (fun x => forall v, snd x = (At2 0 (PReadBits 8), Returned (RInt v)) -> v = 0 \/ v = 255) o.
Proof.
  intros R F A. induction R as [a|a o a1 u c r a2 R IH S].
  - auto.
  - apply Forall_app in F as [F1 F2]. destruct (IH F1 A) as [B H]. inversion F2 as [|x y C _]; subst. cbn [fst snd] in C.
    unfold seq_v2 in S. destruct a1 as [l1 f1 g1 b1]; cbn [a_bytes] in B.
    destruct B as [-> | ->]; destruct C as [-> | ->]; vm_compute in S; destruct S as [-> ->]; cbn;
      (split; [auto|]); apply Forall_app; (split; [exact H|]); constructor; auto; cbn; intros l X; try discriminate;
      injection X as <-; auto.
Qed.

Theorem C47_ReadBits_SetBits_refuted :
  ~ (forall pol s programs h cfg, WF s -> mu s = false ->
       gor programs (fun c => valid_call2 s c /\ exists i, (exists v n, c = At2 i (PSetBits v n)) \/ (exists n, c = At2 i (PReadBits n))) ->
       exec (do2_call pol) (start s programs) h cfg ->
       exists a, linearizable (seq_v2 (heap s)) (abs s) h a).
Proof.
  intro H.
  assert (X : exists h cfg, exec (do2_call (fun _ n => n)) (start zero_byte torn_bits) h cfg /\
    (returns_of 1 h = [(At2 0 (PReadBits 8), Returned (RInt 240))] /\ finished cfg)).
  { apply (sched_exec _ [(0, 29); (1, 99); (0, 999)]%nat). vm_compute. repeat constructor. }
  destruct X as (h & cfg & E & R & F).
  destruct (H (fun _ n => n) zero_byte torn_bits h cfg) as (a & (o & Q & X & _)); auto.
  { wf_state. }
  { constructor; [|constructor; [|constructor]]; (constructor; [|constructor]); cbv beta.
    - split; [repeat constructor; vm_compute; congruence|]. exists 0. left. now exists 255, 8.
    - split; [repeat constructor; vm_compute; congruence|]. exists 0. right. now exists 8. }
  assert (C : Forall (fun x => fst (snd x) = At2 0 (PSetBits 255 8) \/ fst (snd x) = At2 0 (PReadBits 8)) o).
  { apply Forall_forall. intros [u [c r]] IN. pose proof (order_calls _ _ _ _ _ _ _ _ _ E X IN) as IC. cbn in *.
    intuition congruence. }
  assert (O1 : prefix [(At2 0 (PReadBits 8), Returned (RInt 240))] (of 1 o)) by (rewrite <- R; apply X).
  destruct O1 as [n O1].
  destruct (torn_bits_order _ _ _ Q C eq_refl) as [_ Z0].
  assert (IN : In (At2 0 (PReadBits 8), Returned (RInt 240)) (of 1 o)) by (rewrite O1; now left).
  apply of_in in IN. destruct (proj1 (Forall_forall _ _) Z0 _ IN 240 eq_refl); discriminate.
Qed.
Print Assumptions C47_ReadBits_SetBits_refuted.

(** ** C62: progress *)

(** No schedule goes on for ever: whatever the calls, every run of the goroutines
    is finite. *)
Theorem C62_no_infinite_schedule pol s programs (f : nat -> config (call2 slice)) :
  f 0%nat = start s programs -> ~ (forall n, exists t h, gstep (do2_call pol) t (f n) h (f (S n))).
Proof.
  intros _ H. pose proof (steps_finite (do2_call pol) (f 0%nat)) as A.
  remember (f 0%nat) as c eqn:Ec. assert (X : exists n, f n = c) by (exists 0%nat; auto). clear Ec.
  induction A as [c _ IH]. destruct X as [n En]. destruct (H n) as (t & h & G). rewrite En in G.
  apply (IH (f (S n))). { exists t, h. exact G. } now exists (S n).
Qed.
Print Assumptions C62_no_infinite_schedule.

(** With the calls that are one critical section, some goroutine can always go
    on until all are finished, unless a write ended by a Go runtime error kept
    the mutex. *)
Theorem C62_deadlock_free pol s programs h cfg :
  WF s -> mu s = false -> gor programs (fun c => valid_call2 s c /\ atomic_call s c) ->
  exec (do2_call pol) (start s programs) h cfg -> ~ mutex_lost h ->
  finished cfg \/ exists t h' cfg', gstep (do2_call pol) t cfg h' cfg'.
Proof.
  intros W M F E N.
  apply (class_progress (do2_call pol) (seq_v2 (heap s)) s (fun c => valid_call2 s c /\ atomic_call s c) false) with programs h; auto.
  intros c [V A]. now apply pre_atomic.
Qed.
Print Assumptions C62_deadlock_free.

(** A write that is neither empty nor at an offset near the end of int64. *)
Definition plain_write (c : call2 slice) : Prop :=
  match c with
  | At2 off (PWriteBytes d) => 0 < s_len d /\ off + s_len d < 2 ^ 63
  | At2 off (PWriteByte _) => off + 1 < 2 ^ 63
  | At2 off (PWrite t d) => d <> [] /\ off + zlen d * tsize (fmt t) < 2 ^ 63
  | _ => True
  end.

Lemma runs_in {call state} (seq : call -> state -> answer -> state -> Prop) a o a' t c r :
  runs seq a o a' -> In (t, (c, r)) o -> exists a1 a2, seq c a1 r a2.
Proof.
  intro R. induction R as [a|a o a1 u c' r' a2 R IH S]; intro IN; [contradiction|].
  apply in_app_or in IN as [IN|[IN|[]]]; auto. injection IN as -> -> ->. eauto.
Qed.

Lemma seq_store_err off d a e a' : seq_store off d a = Fail e a' -> 0 < zlen d -> off + zlen d < 2 ^ 63 ->
  forall k, e <> RuntimeError k.
Proof.
  unfold seq_store. intros H H1 H2 k.
  replace (off + zlen d <? 2 ^ 63) with true in H by lia. replace (zlen d =? 0) with false in H by lia.
  destruct (zlen (a_bytes a) <? off + zlen d); [|destruct (off <? 0)]; [| |discriminate]; injection H as <- _; discriminate.
Qed.

Theorem C62_mutex_never_lost pol s programs h cfg :
  WF s -> mu s = false -> gor programs (fun c => valid_call2 s c /\ atomic_call s c /\ plain_write c) ->
  exec (do2_call pol) (start s programs) h cfg -> ~ mutex_lost h.
Proof.
  intros W M F E (t & c & e & IN & U & k & ->).
  assert (F' : gor programs (fun c => valid_call2 s c /\ atomic_call s c)).
  { eapply gor_impl; [|exact F]. cbv beta. tauto. }
  destruct (C45_linearizable pol s programs h cfg W M F' E) as (a & (o & R & X & _) & _).
  pose proof (history_calls _ _ _ _ _ _ _ _ E IN) as IC.
  destruct (proj1 (Forall_forall _ _) (proj2 (Forall_concat _ _) F) c IC) as (V & A & P).
  assert (Q : In (t, (c, Raised (RuntimeError k))) o).
  { apply of_in. destruct (X t) as [[m ->] _]. apply in_or_app. left. unfold returns_of. apply in_flat_map.
    eexists. split; [exact IN|]. cbn. rewrite Nat.eqb_refl. now left. }
  destruct (runs_in _ _ _ _ _ _ _ R Q) as (a1 & a2 & S). unfold seq_v2 in S.
  destruct c as [off op|op| | | | | | | | | | | | | | | | | ]; try contradiction; try discriminate U.
  destruct op; try contradiction; try discriminate U; cbn [view_call2 view_op2 seq_call seq_at plain_write] in *;
    destruct (seq_store _ _ _) as [v1 a3|e1 a3] eqn:Es; destruct S as [S _]; try discriminate; injection S as <-.
  - assert (L : zlen (slice_bytes (heap s) d) = s_len d) by (apply wf_slice_bytes_zlen; apply V).
    eapply seq_store_err; eauto; lia.
  - eapply seq_store_err; eauto; change (zlen [v]) with 1; lia.
  - destruct P as [Nd P]. assert (L : zlen (encode_all (fmt t0) d) = zlen d * tsize (fmt t0)) by apply encode_all_zlen.
    assert (0 < zlen d) by (destruct d; [congruence|unfold zlen; cbn; lia]).
    assert (T : 1 <= tsize (fmt t0)) by (destruct t0; vm_compute; discriminate).
    eapply seq_store_err; eauto; nia.
Qed.
Print Assumptions C62_mutex_never_lost.

(** So from every point of every schedule all calls can be brought to return. *)
Theorem C62_all_calls_can_return pol s programs h cfg :
  WF s -> mu s = false -> gor programs (fun c => valid_call2 s c /\ atomic_call s c /\ plain_write c) ->
  exec (do2_call pol) (start s programs) h cfg ->
  exists h' cfg', exec (do2_call pol) cfg h' cfg' /\ finished cfg'.
Proof.
  intros W M F E.
  apply (class_return (do2_call pol) (seq_v2 (heap s)) s (fun c => valid_call2 s c /\ atomic_call s c /\ plain_write c) false) with programs h; auto.
  - intros c (V & A & _). now apply pre_atomic.
  - intros h1 c1 E1. exact (C62_mutex_never_lost _ _ _ _ _ W M F E1).
Qed.
Print Assumptions C62_all_calls_can_return.

Example C62_case :
  let programs := [[At2 0 (PWrite NU32BE [0x01020304]); KAlignBit]; [At2 2 (PWriteByte 7); At2 0 (PRead NU16BE 2)]] in
  WF ex /\ mu ex = false /\ gor programs (fun c => valid_call2 ex c /\ atomic_call ex c /\ plain_write c).
Proof.
  split; [exact ex_WF|]. split; [reflexivity|].
  repeat constructor; try hyp; vm_compute; congruence.
Qed.
