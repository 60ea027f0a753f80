(** * RaceMini: the methods of the v3 [MiniBuffer] access no more than RaceMiniSpec.v says. *)
From Coq Require Import ZArith List Bool Lia Arith ZifyBool.
From Verif Require Import GoSem Errors Spec GoLemmas Typed TypedCanon Calls MiniAbs Conc Race RaceSpec3 RaceLemmas RaceOld Race3 RaceMiniSpec.
From Verif Require V3Mini.
Import ListNotations.
Open Scope Z_scope.
Open Scope list_scope.

(** ** The variable behind the out pointer *)

(** A call with a variable of its own does what it does with [outs] as its variable. *)
Lemma own_out_run {A} (p : prog A) : forall out s,
  match run p (set_outs s out) with
  | Done a s' => run (own_out out p) s = Done a (set_outs s' (outs s))
  | Panicked e s' => run (own_out out p) s = Panicked e (set_outs s' (outs s))
  | Deadlock s' => run (own_out out p) s = Deadlock (set_outs s' (outs s))
  | Stuck => run (own_out out p) s = Stuck
  end.
Proof.
  assert (E : forall s, set_outs s (outs s) = s) by (intros [h b m o]; reflexivity).
  induction p; intros out st; cbn [run own_out]; try (rewrite ?E; destruct st; reflexivity).
  - apply (H _ out st).
  - apply (IHp out (set_bb st _)).
  - apply (H _ out st).
  - apply (IHp out (set_bb st _)).
  - change (heap (set_outs st out)) with (heap st). destruct (heap_read (heap st) blk i 1) as [[|v [|]]|]; auto. apply H.
  - change (heap (set_outs st out)) with (heap st). destruct (heap_write (heap st) blk i [v]); auto. apply (IHp out (set_heap st _)).
  - change (heap (set_outs st out)) with (heap st). destruct (heap_read (heap st) sb si n); auto. destruct (heap_write (heap st) db di l); auto. apply (IHp out (set_heap st _)).
  - apply (H _ out (set_heap st _)).
  - apply (H _ out st).
  - apply (IHp l st).
  - change (mu (set_outs st out)) with (mu st). destruct (mu st); [destruct st; reflexivity|]. apply (IHp out (set_mu st true)).
  - change (mu (set_outs st out)) with (mu st). destruct (mu st); auto. apply (IHp out (set_mu st false)).
Qed.

Section Own.
Variables (M : location -> mode) (Hd : slice -> Prop) (t : nat).
Notation disc := (disc M Hd t).
Notation post A := ((nat -> Prop) -> (nat -> Prop) -> bool -> A -> Prop).

Definition odisc {A} P K h (Q : post A) R (p : prog A) : Prop := forall out, disc P K h Q R (own_out out p).

Lemma odisc_plain {A} (Q : post A) R (p : prog A) : forall P K h, disc P K h Q R p -> odisc P K h Q R p.
Proof.
  unfold odisc. induction p; intros P K h' D out; cbn [own_out RaceLemmas.disc] in *; auto; try contradiction; intuition eauto.
Qed.
Lemma odisc_bind {A B} (Q : post B) R (p : prog A) (f : A -> prog B) : forall P K h,
  odisc P K h (fun P' K' h' a => odisc P' K' h' Q R (f a)) R p -> odisc P K h Q R (bind p f).
Proof.
  unfold odisc. intros P K h D out. specialize (D out). revert P K h out D.
  induction p; intros P K h' out D; cbn [own_out bind RaceLemmas.disc] in *; auto; intuition eauto.
Qed.
Lemma odisc_weaken {A} (Q Q' : post A) (R R' : bool -> Prop) (p : prog A) P K h :
  (forall h, R h -> R' h) -> (forall P K h a, Q P K h a -> Q' P K h a) -> odisc P K h Q R p -> odisc P K h Q' R' p.
Proof. intros H1 H2 D out. eapply disc_weaken; eauto. Qed.
Lemma odisc_ret {A B} (p : prog A) (f : A -> B) P K (Q : post B) R :
  odisc P K false (fun P' K' h a => Q P' K' h (f a)) R p -> odisc P K false Q R (x <- p ;; Ret (f x)).
Proof. intro H. apply odisc_bind. eapply odisc_weaken; [| |exact H]; auto. intros P1 K1 h a X out. exact X. Qed.

(** A loop; [J] holds at the start of each round. *)
Lemma odisc_dw {S} (R : bool -> Prop) (J : Z -> Prop) n (b : Z -> S -> prog S) P K h : n < 2 ^ 63 ->
  (forall i a P' K', round n i -> J i -> incl P P' -> incl K K' -> odisc P' K' h (keeps P K h (fun _ => J (i + 1))) R (b i a)) ->
  forall fuel i a P' K', round n i -> J i -> incl P P' -> incl K K' -> odisc P' K' h (keeps P K h (fun _ => True)) R (dw fuel n b i a).
Proof.
  intros Hn H. induction fuel as [|f IH]; intros i a P' K' HI HJ HP HK; cbn [dw]; [intro; exact I|].
  apply odisc_bind. refine (odisc_weaken (keeps P K h (fun _ => J (i + 1))) _ R R _ _ _ _ _ _ (H i a P' K' HI HJ HP HK)); auto.
  intros P1 K1 h1 a1 (X3 & X4 & -> & X5). cbv zeta. destruct (i +! 1 <? n) eqn:L.
  - destruct HI as [H1 H2]. apply IH; auto; rewrite add64_id in L |- * by (unfold is_i64; lia); [split; lia|auto].
  - intro out. cbn. repeat split; auto.
Qed.
Lemma odisc_goto {S} (R : bool -> Prop) (J : Z -> Prop) n (b : Z -> S -> prog S) a P K h (Q : post S) : n < 2 ^ 63 -> J 0 ->
  (forall i a P' K', round n i -> J i -> incl P P' -> incl K K' -> odisc P' K' h (keeps P K h (fun _ => J (i + 1))) R (b i a)) ->
  (forall P' K' a, incl P P' -> incl K K' -> Q P' K' h a) ->
  odisc P K h Q R (goto_loop n b a).
Proof.
  intros Hn H0 H HQ. unfold goto_loop. eapply (odisc_weaken (keeps P K h (fun _ => True))); [intros ? X; exact X| |apply (odisc_dw R J); auto using incl_refl].
  - intros P1 K1 h1 a1 (X3 & X4 & -> & X5). now apply HQ.
  - split; lia.
Qed.
End Own.

(** What is known is kept. *)
Ltac kept := split; [eapply incl_trans; eauto|split; [eapply incl_trans; eauto|split; [reflexivity|]]].

Section Methods.
Variables (M : location -> mode) (Hd : slice -> Prop) (t : nat).
Notation disc := (disc M Hd t).
Notation odisc := (odisc M Hd t).
Notation post A := ((nat -> Prop) -> (nat -> Prop) -> bool -> A -> Prop).
Notation all_end := (fun _ : bool => True).
Notation get_ok i := (may_get M Hd t i).
Notation put_ok i := (may_put M Hd t i).

(** The buffer never has more than [2 ^ 48] bytes (it does not change then). *)
Definition bounded : Prop := forall s, Hd s -> s_len s <= 2 ^ 48.

Hypothesis hdr : may_read (M LHeader) t false.

(** An access that returns was in range. *)
Lemma odisc_get i P K (Q : post Z) : (0 <= i -> get_ok i) ->
  (forall P' K' v, 0 <= i -> (bounded -> i < 2 ^ 48) -> incl P P' -> incl K K' -> Q P' K' false v) -> odisc P K false Q all_end (buf_get i).
Proof.
  intros H S. apply odisc_plain. unfold buf_get, get_buf. cbn [bind RaceLemmas.disc]. split; [exact hdr|]. intros s Hs.
  unfold slice_get. destruct (Z.leb_spec 0 i); cbn [andb]; [|exact I]. destruct (Z.ltb_spec i (s_len s)); cbn [RaceLemmas.disc]; [|exact I].
  split; [right; split; [right; reflexivity|now apply H]|]. intro v. apply S; auto using incl_refl, incl_add.
  intro B. specialize (B s Hs). lia.
Qed.
Lemma odisc_set i v P K (Q : post unit) : (0 <= i -> put_ok i) ->
  (forall P' K', 0 <= i -> (bounded -> i < 2 ^ 48) -> incl P P' -> incl K K' -> Q P' K' false tt) -> odisc P K false Q all_end (buf_set i v).
Proof.
  intros H S. apply odisc_plain. unfold buf_set, get_buf. cbn [bind RaceLemmas.disc]. split; [exact hdr|]. intros s Hs.
  unfold slice_set. destruct (Z.leb_spec 0 i); cbn [andb]; [|exact I]. destruct (Z.ltb_spec i (s_len s)); cbn [RaceLemmas.disc]; [|exact I].
  split; [right; split; [right; reflexivity|now apply H]|]. apply S; auto using incl_refl, incl_add.
  intro B. specialize (B s Hs). lia.
Qed.

(** ** Bits *)

(** What an access to bit [off] needs and tells. *)
Definition bit_ret {A} off (P K : nat -> Prop) (Q : post A) : Prop :=
  forall P' K' a, 0 <= quo off 8 -> (bounded -> quo off 8 < 2 ^ 48) -> incl P P' -> incl K K' -> Q P' K' false a.

Lemma odisc_ReadBit off P K (Q : post Z) : (0 <= quo off 8 -> get_ok (quo off 8)) -> bit_ret off P K Q ->
  odisc P K false Q all_end (V3Mini.ReadBit off).
Proof.
  intros H S. unfold V3Mini.ReadBit. apply odisc_bind. apply odisc_get; auto.
  intros P' K' v H1 H2 H3 H4 out. cbn. now apply S.
Qed.
Lemma odisc_change off (f : Z -> Z) P K (Q : post unit) : (0 <= quo off 8 -> get_ok (quo off 8)) -> (0 <= quo off 8 -> put_ok (quo off 8)) -> bit_ret off P K Q ->
  odisc P K false Q all_end (v <- buf_get (quo off 8) ;; buf_set (quo off 8) (f v)).
Proof.
  intros H H' S. apply odisc_bind. apply odisc_get; auto.
  intros P' K' v H1 H2 H3 H4. apply odisc_set; auto. intros P1 K1 _ _ X Y. apply S; auto; eapply incl_trans; eauto.
Qed.
Lemma odisc_SetBit off P K (Q : post unit) : (0 <= quo off 8 -> get_ok (quo off 8)) -> (0 <= quo off 8 -> put_ok (quo off 8)) -> bit_ret off P K Q ->
  odisc P K false Q all_end (V3Mini.SetBit off).
Proof. exact (odisc_change off _ P K Q). Qed.
Lemma odisc_ClearBit off P K (Q : post unit) : (0 <= quo off 8 -> get_ok (quo off 8)) -> (0 <= quo off 8 -> put_ok (quo off 8)) -> bit_ret off P K Q ->
  odisc P K false Q all_end (V3Mini.ClearBit off).
Proof. exact (odisc_change off _ P K Q). Qed.
Lemma odisc_FlipBit off P K (Q : post unit) : (0 <= quo off 8 -> get_ok (quo off 8)) -> (0 <= quo off 8 -> put_ok (quo off 8)) -> bit_ret off P K Q ->
  odisc P K false Q all_end (V3Mini.FlipBit off).
Proof. exact (odisc_change off _ P K Q). Qed.

(** Round [i] of a run of bits at [off]. *)
Definition bit_round (n off i : Z) : Prop := round n i /\ (bounded -> is_i64 off -> i = 0 \/ off + i <= 2 ^ 60).

Lemma next_round n off i : is_i64 n -> bit_round n off i -> 0 <= quo (off +! i) 8 -> (bounded -> quo (off +! i) 8 < 2 ^ 48) ->
  (bounded -> is_i64 off -> i + 1 = 0 \/ off + (i + 1) <= 2 ^ 60).
Proof.
  intros Hn [[R1 R2] HJ] H1 H2 B Ho. specialize (HJ B Ho). specialize (H2 B). right. change (2 ^ 60) with 1152921504606846976 in *.
  unfold quo in *. assert (Z.quot (off +! i) 8 < 2 ^ 48) as Q by (exact H2).
  assert (E : off +! i = off + i \/ 2 ^ 60 < off).
  { destruct (Z.le_gt_cases off 1152921504606846976); [left|right; exact H].
    apply add64_id. unfold is_i64 in *. destruct HJ; lia. }
  destruct E as [E|E].
  - rewrite E in *. assert (off + i < 8 * 2 ^ 48 + 8); [|lia]. destruct (Z.le_gt_cases 0 (off + i)); [|lia].
    rewrite Z.quot_div_nonneg in Q by lia. pose proof (Z.div_mod (off + i) 8). pose proof (Z.mod_pos_bound (off + i) 8). lia.
  - assert (i = 0) as -> by (destruct HJ; lia). replace (off +! 0) with off in Q.
    + rewrite Z.quot_div_nonneg in Q by lia. pose proof (Z.div_mod off 8). pose proof (Z.mod_pos_bound off 8). lia.
    + symmetry. rewrite add64_id; [lia|]. unfold is_i64 in *; lia.
Qed.

Lemma odisc_ReadBits off n P K (Q : post unit) : is_i64 n ->
  (forall i, bit_round n off i -> 0 <= quo (off +! i) 8 -> get_ok (quo (off +! i) 8)) -> stable P K Q ->
  odisc P K false Q all_end (V3Mini.ReadBits off n).
Proof.
  intros Hn H S. unfold V3Mini.ReadBits. apply (odisc_goto _ _ _ _ (fun i => bounded -> is_i64 off -> i = 0 \/ off + i <= 2 ^ 60)); auto.
  - unfold is_i64 in Hn; lia.
  - intros i a P' K' HI HJ HP HK. apply odisc_bind. apply odisc_ReadBit; [apply H; split; auto|].
    intros P1 K1 v X1 X2 X3 X4. intro out. cbn. kept. eapply (next_round n); eauto. split; auto.
Qed.
Lemma odisc_SetBits off data n P K (Q : post unit) : is_i64 n ->
  (forall i, bit_round n off i -> 0 <= quo (off +! i) 8 -> get_ok (quo (off +! i) 8)) ->
  (forall i, bit_round n off i -> 0 <= quo (off +! i) 8 -> put_ok (quo (off +! i) 8)) -> stable P K Q ->
  odisc P K false Q all_end (V3Mini.SetBits off data n).
Proof.
  intros Hn H H' S. unfold V3Mini.SetBits. apply (odisc_goto _ _ _ _ (fun i => bounded -> is_i64 off -> i = 0 \/ off + i <= 2 ^ 60)); auto.
  - unfold is_i64 in Hn; lia.
  - intros i a P' K' HI HJ HP HK.
    assert (B : bit_ret (A := unit) (off +! i) P' K' (keeps P K false (fun _ => bounded -> is_i64 off -> i + 1 = 0 \/ off + (i + 1) <= 2 ^ 60))).
    { intros P1 K1 v X1 X2 X3 X4. kept. eapply (next_round n); eauto. split; auto. }
    destruct (_ =? 0); [apply odisc_ClearBit|apply odisc_SetBit]; auto; first [apply H|apply H']; split; auto.
Qed.

(** ** Bytes and integers *)

Lemma odisc_WriteBytes off (d : slice) (P K : nat -> Prop) (Q : post unit) : P (s_blk d) \/ K (s_blk d) ->
  (forall i, s_off d <= i < s_off d + s_len d -> can_read M t P K false (s_blk d) i) ->
  (forall i, 0 <= off -> off <= i < off + s_len d -> put_ok i) -> stable P K Q ->
  odisc P K false Q all_end (V3Mini.WriteBytes off d).
Proof.
  intros HB HD HW S. apply odisc_plain. unfold V3Mini.WriteBytes, get_buf. cbn [bind RaceLemmas.disc].
  split; [exact hdr|]. intros s Hs. unfold reslice. destruct (Z.leb_spec 0 off); cbn [andb]; [|exact I]. destruct (_ && _); cbn [bind RaceLemmas.disc]; [|exact I].
  unfold copy. cbn [RaceLemmas.disc s_blk s_off s_len]. split; [right; right; reflexivity|]. split; [destruct HB; [left|right; left]; auto|]. split; [|split].
  - intros i Hi. right. split; [right; reflexivity|].
    replace i with (s_off s + (i - s_off s)) by lia. apply HW; auto; lia.
  - intros i Hi. eapply can_read_mono; [apply incl_refl|apply incl_add|]. apply HD. lia.
  - apply S; auto using incl_refl, incl_add.
Qed.
Lemma odisc_ReadBytes off n P K (Q : post slice) :
  stable P K Q -> odisc P K false Q all_end (V3Mini.ReadBytes off n).
Proof.
  intros S. apply odisc_plain. unfold V3Mini.ReadBytes, get_buf. cbn [bind RaceLemmas.disc].
  split; [exact hdr|]. intros s Hs. unfold reslice. destruct (_ && _); cbn [bind RaceLemmas.disc]; [|exact I].
  apply S; auto using incl_refl, incl_add.
Qed.

Lemma disc_MiniWriteT ty off data P K (Q : post unit) : zlen data < 2 ^ 63 ->
  (forall i k, 0 <= i < zlen data -> 0 <= k < tsize ty -> 0 <= off +! cidx (tsize ty) k i -> put_ok (off +! cidx (tsize ty) k i)) ->
  stable P K Q -> disc P K false Q all_end (MiniWriteT ty off data).
Proof.
  intros L HW S. rewrite MiniWriteT_canon. apply disc_goto_round; auto.
  intros i a P' K' [HI _] HP HK. apply disc_stores; auto; [|now apply stable_keeps].
  apply Forall_forall. intros x Hx Li. apply HW; [lia|].
  unfold wlayout in Hx. apply in_map_iff in Hx as (j & <- & Hj). cbn [fst].
  unfold iota in Hj. apply in_map_iff in Hj as (m & <- & Hm). apply in_seq in Hm. unfold tsize. lia.
Qed.

(** Round [i] of reading numbers of [w] bytes at [off]. *)
Definition num_round (w n off i : Z) : Prop := round n i /\ (bounded -> is_i64 off -> i = 0 \/ 0 <= off /\ off + i * w <= 2 ^ 50).

Lemma odisc_loads {A} w off i (ks : list Z) (k : list Z -> prog A) (Q : post A) :
  Forall (fun x => 0 <= off +! cidx w x i -> get_ok (off +! cidx w x i)) ks ->
  forall acc P K,
  (forall xs P' K', Forall (fun x => 0 <= off +! cidx w x i /\ (bounded -> off +! cidx w x i < 2 ^ 48)) ks -> incl P P' -> incl K K' ->
     odisc P' K' false Q all_end (k xs)) ->
  odisc P K false Q all_end (loads w off i ks acc k).
Proof.
  intros F. induction F as [|x ks F1 F2 IH]; intros acc P K H; cbn [loads]; [apply H; [apply Forall_nil|apply incl_refl|apply incl_refl]|].
  apply odisc_bind. apply odisc_get; auto. intros P' K' v X1 X2 HP HK. cbv beta. apply IH.
  intros xs P1 K1 H1 H2 H3. apply H; [apply Forall_cons; auto|eapply incl_trans; eauto|eapply incl_trans; eauto].
Qed.
Lemma odisc_MiniReadT ty off n P K (Q : post unit) : is_i64 n ->
  (forall i k, num_round (tsize ty) n off i -> 0 <= k < tsize ty -> 0 <= off +! cidx (tsize ty) k i -> get_ok (off +! cidx (tsize ty) k i)) ->
  stable P K Q -> odisc P K false Q all_end (MiniReadT ty off n).
Proof.
  intros Hn HW S. rewrite MiniReadT_canon. assert (TS : 1 <= tsize ty <= 8) by (destruct ty; cbv; split; discriminate).
  apply (odisc_goto _ _ _ _ (fun i => bounded -> is_i64 off -> i = 0 \/ 0 <= off /\ off + i * tsize ty <= 2 ^ 50)); auto.
  { unfold is_i64 in Hn; lia. }
  intros i a P' K' HI HJ HP HK. unfold mrbody. apply odisc_loads.
  - apply Forall_forall. intros x Hx. apply HW; [split; auto|]. unfold rlayout in Hx. apply in_map_iff in Hx as (j & <- & Hj).
    unfold iota in Hj. apply in_map_iff in Hj as (m & <- & Hm). apply in_seq in Hm. unfold tsize. destruct (ty_endian ty); lia.
  - intros xs P1 K1 F X1 X2 out. cbn [own_out]. unfold set_elem. destruct (_ && _); cbn; [|exact I]. kept.
    intros B Ho. right. rewrite Forall_forall in F. destruct (F 0) as [F1 F2].
    { unfold rlayout. apply in_map_iff. destruct (ty_endian ty).
      - exists 0. split; auto. unfold iota. apply in_map_iff. exists 0%nat. split; auto. apply in_seq. unfold tsize in TS. lia.
      - exists (tsize ty - 1). split; [lia|]. unfold iota. apply in_map_iff. exists (ty_bytes ty - 1)%nat. split; [unfold tsize in *; lia|]. apply in_seq. unfold tsize in TS. lia. }
    specialize (F2 B). specialize (HJ B Ho). unfold cidx in F1, F2. cbn [Z.eqb] in F1, F2. destruct HI as [I1 I2].
    destruct HJ as [->|[J1 J2]].
    + change (0 *! tsize ty) with 0 in F1, F2. rewrite add64_id in F1, F2 by (unfold is_i64 in *; lia). lia.
    + rewrite mul64_id in F1, F2 by (unfold is_i64; nia). rewrite add64_id in F1, F2 by (unfold is_i64; nia). nia.
Qed.
End Methods.

(** ** Calls *)

(** The bytes that an operation at [off] reaches, with the int arithmetic of the code. *)
Definition mtouched (Hd : slice -> Prop) (off : Z) (o : opn slice) (i : Z) : Prop :=
  match o with
  | OReadBit | OSetBit | OClearBit | OFlipBit => 0 <= quo off 8 /\ i = quo off 8
  | OReadBits n | OSetBits _ n => exists k, bit_round Hd n off k /\ 0 <= quo (off +! k) 8 /\ i = quo (off +! k) 8
  | OWriteBytes d => 0 <= off /\ off <= i < off + s_len d
  | OWriteByte _ | OReadByte | OReadBytes _ => False
  | OWrite t d => exists j k, 0 <= j < zlen d /\ 0 <= k < tsize t /\ 0 <= off +! cidx (tsize t) k j /\ i = off +! cidx (tsize t) k j
  | ORead t n => exists j k, num_round Hd (tsize t) n off j /\ 0 <= k < tsize t /\
      0 <= off +! cidx (tsize t) k j /\ i = off +! cidx (tsize t) k j
  end.
Lemma mtouched_nonneg Hd off o i : mtouched Hd off o i -> 0 <= i.
Proof. destruct o; cbn [mtouched]; intro H; try tauto; try lia; try (destruct H as (k & _ & H & ->); exact H); destruct H as (j & k & H); lia. Qed.

Lemma mtouched_span Hd s off o i : bounded Hd -> is_i64 off -> valid_opn s o -> mtouched Hd off o i -> mini_span off o i = true.
Proof.
  intros B H V T. pose proof (mtouched_nonneg _ _ _ _ T) as N. assert (TS : forall ty, 1 <= tsize ty <= 8) by (intros []; cbv; split; discriminate).
  unfold mini_span. apply andb_true_iff. split; [now apply Z.leb_le|]. unfold quo in T.
  assert (QM : forall a b, a <= b -> Z.quot a 8 <= Z.quot b 8) by (intros a b L; apply Z.quot_le_mono; lia).
  destruct o; cbn [mtouched valid_opn] in *; try contradiction.
  1, 3, 4, 5: destruct T as [T ->]; replace (off + Z.max 1 1 - 1) with off by lia; unfold quo; lia.
  1, 2: destruct T as (k & [[K1 K2] KB] & T & ->); specialize (KB B H); assert (E : off +! k = off + k);
    [apply add64_id; unfold is_i64 in *; destruct KB; lia|];
    unfold quo; rewrite E; apply andb_true_iff; split; apply Z.leb_le; apply QM; lia.
  - lia.
  - destruct T as (j & k & J & K & T & ->). specialize (TS t). unfold wf_data in V.
    rewrite idx_small in T |- * by nia. change maxAlloc with (2 ^ 48) in V.
    rewrite add_nonneg in T |- * by (auto; unfold is_i64; nia). nia.
  - destruct T as (j & k & [[J J'] JB] & K & T & ->). specialize (TS t). specialize (JB B H).
    assert (j * tsize t <= 2 ^ 50) by (destruct JB; nia).
    assert (C : cidx (tsize t) k j = j * tsize t + k).
    { unfold cidx. rewrite mul64_id by (unfold is_i64; nia). destruct (Z.eqb_spec k 0); [lia|]. rewrite add64_id by (unfold is_i64; nia). lia. }
    rewrite C in *. rewrite add_nonneg in T |- * by (auto; unfold is_i64; nia).
    apply andb_true_iff; split; nia.
Qed.

Section Call.
Variables (M : location -> mode) (Hd : slice -> Prop) (t : nat).
Notation odisc := (odisc M Hd t).
Notation post A := ((nat -> Prop) -> (nat -> Prop) -> bool -> A -> Prop).
Notation all_end := (fun _ : bool => True).
Notation get_ok f := (may_read (M (LField f)) t false).
Notation set_ok f := (may_write (M (LField f)) t false).

Lemma zlen_small ty d : wf_data (tsize ty) d -> zlen d < 2 ^ 63.
Proof.
  unfold wf_data. intro V. change maxAlloc with (2 ^ 48) in V. assert (1 <= tsize ty) by (destruct ty; cbv; discriminate).
  assert (zlen d <= 2 ^ 48) by nia. lia.
Qed.
Lemma stable_bit {A} off P K (Q : post A) : stable P K Q -> bit_ret Hd off P K Q.
Proof. intros S P' K' a _ _ X Y. now apply S. Qed.

Lemma odisc_at s off o P K (Q : post (rv slice)) : mini_opn o = true -> may_read (M LHeader) t false ->
  source_ok M t K o -> valid_opn s o ->
  (forall i, mtouched Hd off o i -> may_get M Hd t i) -> (is_write o = true -> forall i, mtouched Hd off o i -> may_put M Hd t i) ->
  stable P K Q -> odisc P K false Q all_end (mini_at off o).
Proof.
  intros MO H S V R W Q'.
  destruct o; cbn [mini_opn mtouched is_write source_ok valid_opn mini_at] in *; try discriminate MO; try specialize (W eq_refl);
    unfold ret_unit, ret_int, ret_bytes, out_int, out_nums;
    match goal with
    | |- RaceMini.odisc _ _ _ _ _ _ _ _ (bind ?p (fun x => Ret ?v)) => apply (odisc_ret _ _ _ p (fun x => v))
    | |- _ => apply odisc_bind
    end.
  - apply odisc_ReadBit; auto. apply stable_bit. intros P' K' a X Y; apply Q'; auto.
  - apply odisc_ReadBits; auto. { intros i X Y. apply R. eauto. } intros P' K' a X Y out. cbn. apply Q'; auto.
  - apply odisc_SetBit; auto. apply stable_bit. intros P' K' a X Y; apply Q'; auto.
  - apply odisc_ClearBit; auto. apply stable_bit. intros P' K' a X Y; apply Q'; auto.
  - apply odisc_FlipBit; auto. apply stable_bit. intros P' K' a X Y; apply Q'; auto.
  - apply odisc_SetBits; auto. { tauto. } { intros i X Y. apply R. eauto. } { intros i X Y. apply W. eauto. } intros P' K' a X Y; apply Q'; auto.
  - destruct S as [S1 S2]. apply odisc_WriteBytes; auto. intros P' K' a X Y; apply Q'; auto.
  - apply odisc_ReadBytes; auto. intros P' K' a X Y; apply Q'; auto.
  - apply odisc_plain. apply disc_MiniWriteT; auto; [now apply (zlen_small t0)| |].
    { intros i k X Y Z0. apply W. eauto 10. }
    intros P' K' a X Y; apply Q'; auto.
  - apply odisc_MiniReadT; auto. { intros i k X Y Z0. apply R. exists i, k. auto 10. } intros P' K' a X Y out. cbn. apply Q'; auto.
Qed.

Lemma odisc_SeekByte n P K (Q : post unit) : get_ok FOff -> set_ok FOff -> stable P K Q -> odisc P K false Q all_end (V3Mini.SeekByte n true).
Proof. intros H1 H2 S. apply odisc_plain. cbn. repeat split; auto. apply S; apply incl_refl. Qed.
Lemma odisc_SeekBit n P K (Q : post unit) : get_ok FBoff -> set_ok FBoff -> stable P K Q -> odisc P K false Q all_end (V3Mini.SeekBit n true).
Proof. intros H1 H2 S. apply odisc_plain. cbn. repeat split; auto. apply S; apply incl_refl. Qed.

Lemma odisc_getf {A} f (k : Z -> prog A) P K (Q : post A) : get_ok f -> (forall v, odisc P K false Q all_end (k v)) ->
  odisc P K false Q all_end (v <- get f ;; k v).
Proof. intros H1 H2 out. cbn. split; auto. intro v. apply H2. Qed.

Lemma odisc_next s o P K (Q : post (rv slice)) : mini_opn o = true -> may_read (M LHeader) t false ->
  (if bit_addressed o then get_ok FBoff /\ set_ok FBoff else get_ok FOff /\ set_ok FOff) ->
  source_ok M t K o -> valid_opn s o ->
  (no_bytes o = false -> forall i, 0 <= i -> may_get M Hd t i) -> (is_write o = true -> forall i, 0 <= i -> may_put M Hd t i) ->
  stable P K Q -> odisc P K false Q all_end (mini_next o).
Proof.
  intros MO H L S V R W Q'.
  destruct o; cbn [mini_opn bit_addressed no_bytes is_write source_ok valid_opn mini_next] in *; try discriminate MO; destruct L as (L2 & L3);
    try specialize (W eq_refl); try specialize (R eq_refl);
    unfold ret_unit, ret_int, ret_bytes, out_int, out_nums;
    match goal with
    | |- RaceMini.odisc _ _ _ _ _ _ _ _ (bind ?p (fun x => Ret ?v)) => apply (odisc_ret _ _ _ p (fun x => v))
    | |- _ => apply odisc_bind
    end;
    rewrite ?MiniWriteTNext_canon, ?MiniReadTNext_canon; try unfold V3Mini.ReadBitNext; try unfold V3Mini.ReadBitsNext;
    try unfold V3Mini.SetBitNext; try unfold V3Mini.ClearBitNext; try unfold V3Mini.FlipBitNext; try unfold V3Mini.SetBitsNext;
    try unfold V3Mini.WriteBytesNext; try unfold V3Mini.ReadBytesNext;
    (apply odisc_getf; [exact L2|]); intro off; apply odisc_bind.
  - apply odisc_ReadBit; auto. apply stable_bit. intros P' K' a X Y. apply odisc_bind, odisc_SeekBit; auto. intros P1 K1 b X1 Y1 out. cbn. apply Q'; eapply incl_trans; eauto.
  - apply odisc_ReadBits; auto. intros P' K' a X Y. apply odisc_SeekBit; auto. intros P1 K1 b X1 Y1 out. cbn. apply Q'; eapply incl_trans; eauto.
  - apply odisc_SetBit; auto. apply stable_bit. intros P' K' a X Y. apply odisc_SeekBit; auto. intros P1 K1 b X1 Y1. apply Q'; eapply incl_trans; eauto.
  - apply odisc_ClearBit; auto. apply stable_bit. intros P' K' a X Y. apply odisc_SeekBit; auto. intros P1 K1 b X1 Y1. apply Q'; eapply incl_trans; eauto.
  - apply odisc_FlipBit; auto. apply stable_bit. intros P' K' a X Y. apply odisc_SeekBit; auto. intros P1 K1 b X1 Y1. apply Q'; eapply incl_trans; eauto.
  - apply odisc_SetBits; auto. { tauto. } intros P' K' a X Y. apply odisc_SeekBit; auto. intros P1 K1 b X1 Y1. apply Q'; eapply incl_trans; eauto.
  - destruct S as [S1 S2]. apply odisc_WriteBytes; auto. { intros i X Y. apply W. lia. } intros P' K' a X Y. apply odisc_SeekByte; auto. intros P1 K1 b X1 Y1. apply Q'; eapply incl_trans; eauto.
  - apply odisc_ReadBytes; auto. intros P' K' a X Y. apply odisc_bind, odisc_SeekByte; auto. intros P1 K1 b X1 Y1 out. cbn. apply Q'; eapply incl_trans; eauto.
  - apply odisc_plain, disc_MiniWriteT; auto; [now apply (zlen_small t0)|].
    intros P' K' a X Y. apply odisc_SeekByte; auto. intros P1 K1 b X1 Y1. apply Q'; eapply incl_trans; eauto.
  - apply odisc_MiniReadT; auto. intros P' K' a X Y. apply odisc_SeekByte; auto. intros P1 K1 b X1 Y1 out. cbn. apply Q'; eapply incl_trans; eauto.
Qed.
End Call.

(** ** Modes *)

Section Modes.
Variables (hd0 : slice) (h0 : nat) (pm : piece -> mode) (t : nat).
Notation modes3 := (modes3 hd0 h0 pm).
Notation headers3 := (headers3 hd0 h0 pm).
Notation odisc := (odisc modes3 headers3 t).
Hypothesis h0_pos : (s_blk hd0 < h0)%nat.
Hypothesis short : s_len hd0 <= 2 ^ 48.

Lemma frozen_bounded : pm Slice = Frozen -> bounded headers3.
Proof. intros E s. unfold Race3.headers3. rewrite E. now intros ->. Qed.
Lemma owner_gets i : pm Slice = Exclusive t -> may_get modes3 headers3 t i.
Proof. intros E s Hs. cbn [Race3.modes3]. rewrite (headers_inside _ _ _ s Hs), E. reflexivity. Qed.
Lemma owner_puts i : pm Slice = Exclusive t -> may_put modes3 headers3 t i.
Proof. intros E s Hs. cbn [Race3.modes3]. rewrite (headers_inside _ _ _ s Hs), E. reflexivity. Qed.

Lemma odisc_call s c : length (heap s) = h0 -> b_buf (bb s) = hd0 -> mini_method c = true -> valid_call s c -> separate s c ->
  (pm Slice = Frozen \/ exists u, pm Slice = Exclusive u) ->
  (forall x, reads_mini c x = true -> may_read (pm x) t false) -> (forall x, writes_mini c x = true -> may_write (pm x) t false) ->
  odisc RaceLemmas.none (initial h0) false yes (fun _ => True) (mini_call c).
Proof.
  intros E1 E2 MM V X F R W.
  assert (ST : forall A, stable (A := A) RaceLemmas.none (initial h0) yes) by (intros A P K a _ _; exact I).
  assert (GS : reads_mini c Slice = true -> may_read (modes3 LHeader) t false) by apply (R Slice).
  assert (GF : forall f, reads_mini c (Fields f) = true -> may_read (modes3 (LField f)) t false) by (intro f; apply (R (Fields f))).
  assert (PF : forall f, writes_mini c (Fields f) = true -> may_write (modes3 (LField f)) t false) by (intro f; apply (W (Fields f))).
  assert (BX : reads_mini c Slice = true -> pm Slice = Frozen /\ bounded headers3 \/ pm Slice = Exclusive t).
  { intro A. apply R in A. destruct F as [F|[u F]]; [left; split; auto; now apply frozen_bounded|right]. rewrite F in A. cbn in A. now subst. }
  assert (GB : reads_mini c Slice = true -> forall i, (pm Slice = Frozen -> bounded headers3 -> reads_mini c (Byte i) = true) -> may_get modes3 headers3 t i).
  { intros A i B. destruct (BX A) as [[Fr Bo]|Ex]; [|now apply owner_gets]. apply get_byte; auto. }
  assert (PB : reads_mini c Slice = true -> forall i, (pm Slice = Frozen -> bounded headers3 -> writes_mini c (Byte i) = true) -> may_put modes3 headers3 t i).
  { intros A i B. destruct (BX A) as [[Fr Bo]|Ex]; [|now apply owner_puts]. apply put_byte; auto; congruence. }
  assert (NF : writes_mini c Slice = true -> pm Slice <> Frozen) by (intros A B; apply W in A; rewrite B in A; exact A).
  assert (PS : writes_mini c Slice = true -> may_write (modes3 LHeader) t false) by apply (W Slice).
  assert (PN : writes_mini c Slice = true -> forall b, ~ initial h0 b -> forall i, may_write (modes3 (LByte b i)) t false).
  { intros A b N i. cbn. replace (outside hd0 h0 b) with false; [|unfold outside; destruct (Nat.ltb_spec b h0); auto; now destruct N].
    apply W in A. destruct (pm Slice) eqn:E; cbn in *; auto; contradiction. }
  clear F R W BX.
  Ltac fin2 := first [ exact I | match goal with
    | H : forall f, _ -> may_read (Race3.modes3 _ _ _ (LField f)) _ _ |- _ => first [exact (H FOff eq_refl)|exact (H FCap eq_refl)|exact (H FBoff eq_refl)|exact (H FBcap eq_refl)]
    | H : forall f, _ -> may_write (Race3.modes3 _ _ _ (LField f)) _ _ |- _ => first [exact (H FOff eq_refl)|exact (H FCap eq_refl)|exact (H FBoff eq_refl)|exact (H FBcap eq_refl)]
    | H : _ -> may_read (Race3.modes3 _ _ _ LHeader) _ _ |- _ => exact (H eq_refl)
    | H : _ -> may_write (Race3.modes3 _ _ _ LHeader) _ _ |- _ => exact (H eq_refl) end | intro; fin2 ].
  destruct c as [off o|o| | | |off r|off r|off|off| | |n|n|n| | | | | | |]; cbn [reads_mini writes_mini reads3 writes3 mini_method] in *.
  - destruct V as [V1 V2]. apply (odisc_at modes3 headers3 t s); auto.
    + eapply source_fine; eauto. apply incl_refl.
    + intros i T. apply GB; auto. intros _ Bo. eapply mtouched_span; eauto.
    + intros Wr i T. apply PB; auto. intros _ Bo. rewrite Wr. eapply mtouched_span; eauto.
  - apply (odisc_next modes3 headers3 t s); auto.
    + destruct (bit_addressed o); split; first [apply GF; reflexivity|apply PF; reflexivity].
    + eapply source_fine; eauto. apply incl_refl.
    + intros E i Hi. apply GB; auto. intros _ _. rewrite E. apply Z.leb_le in Hi. now rewrite Hi.
  - apply odisc_plain. cbn [mini_call]. unfold ret_unit. apply (disc_ret _ _ _ _ (fun _ => RUnit)). unfold V3Mini.ClearAllBits, get_buf. cbn [bind RaceLemmas.disc]. split; auto. intros sl Hs.
    apply (disc_goto _ _ _ (fun _ => True)); [exact I| |intros; exact I].
    intros i a P K HP HK _. apply disc_buf_set; auto. apply stable_keeps; auto.
  - apply odisc_plain. cbn [mini_call]. unfold ret_unit. apply (disc_ret _ _ _ _ (fun _ => RUnit)). unfold V3Mini.SetAllBits, get_buf. cbn [bind RaceLemmas.disc]. split; auto. intros sl Hs.
    apply (disc_goto _ _ _ (fun _ => True)); [exact I| |intros; exact I].
    intros i a P K HP HK _. apply disc_buf_set; auto. apply stable_keeps; auto.
  - apply odisc_plain. cbn [mini_call]. unfold ret_unit. apply (disc_ret _ _ _ _ (fun _ => RUnit)). unfold V3Mini.FlipAllBits, get_buf. cbn [bind RaceLemmas.disc]. split; auto. intros sl Hs.
    apply (disc_goto _ _ _ (fun _ => True)); [exact I| |intros; exact I].
    intros i a P K HP HK _. apply disc_bind. apply disc_buf_get; auto. intros P1 K1 v H1 H2. apply disc_buf_set; auto.
    apply stable_keeps; eapply incl_trans; eauto.
  - apply odisc_plain. destruct r; cbn; repeat split; try solve [fin2].
  - apply odisc_plain. destruct r; cbn; repeat split; try solve [fin2].
  - apply odisc_plain. destruct off; cbn; repeat split; try solve [fin2].
  - apply odisc_plain. destruct off; cbn; repeat split; try solve [fin2].
  - apply odisc_plain. cbn; repeat split; try solve [fin2].
  - apply odisc_plain. cbn; repeat split; try solve [fin2].
  - apply odisc_plain. cbn [mini_call]. unfold ret_unit. apply (disc_ret _ _ _ _ (fun _ => RUnit)). unfold V3Mini.TruncateLeft, get_buf, get, set_buf, reslice.
    cbn [bind RaceLemmas.disc]. split; try solve [fin2]. intros sl Hs. split; try solve [fin2]. intros v.
    destruct (_ && _); cbn [bind RaceLemmas.disc]; [|exact I].
    repeat split; try solve [fin2]. { apply headers3_again; auto. } { left. right. reflexivity. }
  - apply odisc_plain. cbn [mini_call]. unfold ret_unit. apply (disc_ret _ _ _ _ (fun _ => RUnit)). unfold V3Mini.TruncateRight, get_buf, get, set_buf, reslice.
    cbn [bind RaceLemmas.disc]. split; try solve [fin2]. intros sl Hs. split; try solve [fin2]. intros v.
    destruct (_ && _); cbn [bind RaceLemmas.disc]; [|exact I].
    repeat split; try solve [fin2]. { apply headers3_again; auto. } { left. right. reflexivity. }
  - apply odisc_plain. cbn [mini_call]. unfold ret_unit. apply (disc_ret _ _ _ _ (fun _ => RUnit)). unfold V3Mini.Grow, get_buf, get, set_buf, reslice, make_bytes.
    cbn [bind RaceLemmas.disc]. split; try solve [fin2]. intros sl Hs. split; try solve [fin2]. intros v.
    destruct (_ <=? _); cbn [bind RaceLemmas.disc].
    + split; try solve [fin2]. intros s1 Hs1. split; try solve [fin2]. intros v1.
      destruct (_ && _); cbn [bind RaceLemmas.disc]; [|exact I].
      repeat split; try solve [fin2]. { apply headers3_again; auto. } { left. right. reflexivity. }
    + split; try solve [fin2]. intros v1. split; try solve [fin2]. intros s1 Hs1.
      destruct (_ && _); cbn [bind RaceLemmas.disc]; [|exact I]. intros b Nb.
      split; try solve [fin2]. intros s2 Hs2.
      assert (I0 : incl (initial h0) (add (add (initial h0) (s_blk sl)) (s_blk s1))) by (eapply incl_trans; apply incl_add).
      unfold copy. cbn [bind RaceLemmas.disc s_blk s_off]. repeat split; try solve [fin2].
      * left. right. reflexivity.
      * right. right. reflexivity.
      * intros i Hi. left. right. reflexivity.
      * intros i Hi. right. split; [right; reflexivity|].
        replace i with (s_off s2 + (i - s_off s2)) by lia. apply GB; auto.
      * eapply headers3_fresh; eauto.
      * right. split; [right; reflexivity|]. intro i. apply PN; auto.
  - apply odisc_plain. cbn. repeat split; try solve [fin2].
  - apply odisc_plain. cbn [mini_call]. unfold ret_unit. apply (disc_ret _ _ _ _ (fun _ => RUnit)). unfold V3Mini.Reset, get_buf, set, set_buf, reslice.
    cbn [bind RaceLemmas.disc]. split; try solve [fin2]. intros sl Hs.
    destruct (_ && _); cbn [bind RaceLemmas.disc]; [|exact I].
    repeat split; try solve [fin2]. { apply headers3_again; auto. } { left. right. reflexivity. }
  - apply odisc_plain. cbn. repeat split; try solve [fin2].
  - apply odisc_plain. cbn. repeat split; try solve [fin2].
  - apply odisc_plain. cbn. repeat split; try solve [fin2].
  - apply odisc_plain. cbn. repeat split; try solve [fin2].
  - apply odisc_plain. cbn. repeat split; try solve [fin2].
Qed.
End Modes.

(** ** Programs *)

Section Programs.
Variable programs : list (list mini_use).

(** The goroutine that writes [x], if there is one. *)
Definition mowner (x : piece) : option nat :=
  find (fun t => existsb (fun u : mini_use => writes_mini (fst u) x) (nth t programs [])) (seq 0 (length programs)).
Definition mowner_mode (x : piece) : mode := match mowner x with Some t => Exclusive t | None => Frozen end.

Lemma mowner_some x u : mowner x = Some u -> exists cs c, nth_error programs u = Some cs /\ In c cs /\ writes_mini (fst c) x = true.
Proof.
  intro H. apply find_some in H as [H1 H2]. apply in_seq in H1. apply existsb_exists in H2 as (c & C1 & C2).
  exists (nth u programs []), c. split; auto. apply nth_error_nth'. lia.
Qed.
Lemma mowner_none x t cs c : mowner x = None -> nth_error programs t = Some cs -> In c cs -> writes_mini (fst c) x = false.
Proof.
  intros H E I. destruct (writes_mini (fst c) x) eqn:W; auto.
  assert (L : (t < length programs)%nat) by (apply nth_error_Some; congruence).
  pose proof (find_none _ _ H t) as N. rewrite in_seq in N. specialize (N ltac:(lia)). cbv beta in N.
  rewrite (nth_error_nth _ _ _ E) in N. rewrite <- N. symmetry. apply existsb_exists. eauto.
Qed.
Hypothesis comp : compatible_mini programs.
Lemma mowner_reads x t cs c : nth_error programs t = Some cs -> In c cs -> reads_mini (fst c) x = true -> may_read (mowner_mode x) t false.
Proof.
  intros E I R. unfold mowner_mode. destruct (mowner x) as [u|] eqn:O; cbn; auto.
  apply mowner_some in O as (ds & d & E' & I' & W). destruct (Nat.eq_dec t u) as [|N]; auto.
  exfalso. apply (comp u t ds cs d c); auto. exists x. auto.
Qed.
Lemma mowner_writes x t cs c : nth_error programs t = Some cs -> In c cs -> writes_mini (fst c) x = true -> may_write (mowner_mode x) t false.
Proof.
  intros E I R. unfold mowner_mode. destruct (mowner x) as [u|] eqn:O; cbn.
  - apply mowner_some in O as (ds & d & E' & I' & W). destruct (Nat.eq_dec t u) as [|N]; auto.
    exfalso. apply (comp u t ds cs d c); auto. exists x. auto.
  - rewrite (mowner_none x t cs c O E I) in R. discriminate.
Qed.

Theorem compatible_mini_race_free s tr c : (s_blk (b_buf (bb s)) < length (heap s))%nat -> s_len (b_buf (bb s)) <= 2 ^ 48 ->
  Forall (Forall (fun u : mini_use => mini_method (fst u) = true /\ valid_call s (fst u) /\ separate s (fst u))) programs ->
  traced mini_body (start s programs) tr c -> race_free tr.
Proof.
  intros B L V T. set (h := length (heap s)) in *.
  apply (disciplined (modes3 (b_buf (bb s)) h mowner_mode) (headers3 (b_buf (bb s)) h mowner_mode) mini_body h s programs tr c); auto.
  - unfold headers3. destruct (mowner_mode Slice); auto; unfold outside; now rewrite Nat.eqb_refl, andb_false_r.
  - intros t cs E. apply Forall_forall. intros d D. unfold good.
    assert (Ic : In cs programs) by (eapply nth_error_In; eauto).
    rewrite Forall_forall in V. specialize (V cs Ic). rewrite Forall_forall in V. destruct (V d D) as (V1 & V2 & V3).
    apply (odisc_call _ _ _ _ B L s); auto.
    + unfold mowner_mode. destruct (mowner Slice); eauto.
    + intros x. eapply mowner_reads; eauto.
    + intros x. eapply mowner_writes; eauto.
Qed.
End Programs.
