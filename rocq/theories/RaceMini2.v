(** * RaceMini2: the methods of the v1 and v2 [MiniBuffer] access no more than RaceMiniSpec2.v says. *)
From Coq Require Import ZArith List Bool Lia Arith ZifyBool.
From Verif Require Import GoSem Errors Spec GoLemmas GoBinary Typed TypedCanon Calls OldCalls V1Lemmas V1Calls MiniAbs Abs2 MiniAbs2 MiniSim2.
From Verif Require Import Conc Race RaceSpec RaceSpec3 RaceLemmas Race3 RaceMiniSpec RaceMini RaceMiniSpec2.
From Verif Require V1Buffer V1Mini V2Mini.
Import ListNotations.
Open Scope Z_scope.
Open Scope list_scope.

(** ** Loops *)

(** The rounds of a loop. *)
Definition turn (v : version) (n i : Z) : Prop := 0 <= i /\ (i < n \/ v = V2 /\ i = 0).
Lemma turn_round v n i : turn v n i -> round n i.
Proof. unfold turn, round. tauto. Qed.
Definition loop {S} (v : version) (n : Z) (b : Z -> S -> prog S) (a : S) : prog S :=
  match v with V1 => for_loop n b a | V2 => goto_loop n b a end.

Section Loops.
Variables (M : location -> mode) (Hd : slice -> Prop) (t : nat).
Notation disc := (disc M Hd t).
Notation odisc := (odisc M Hd t).
Notation post A := ((nat -> Prop) -> (nat -> Prop) -> bool -> A -> Prop).

Lemma odisc_fl {S} (R : bool -> Prop) (J : Z -> Prop) n (b : Z -> S -> prog S) P K h : n < 2 ^ 63 ->
  (forall i a P' K', 0 <= i < n -> J i -> incl P P' -> incl K K' -> odisc P' K' h (keeps P K h (fun _ => J (i + 1))) R (b i a)) ->
  forall fuel i a P' K', 0 <= i -> J i -> incl P P' -> incl K K' -> odisc P' K' h (keeps P K h (fun _ => True)) R (fl fuel n b i a).
Proof.
  intros Hn H. induction fuel as [|f IH]; intros i a P' K' HI HJ HP HK; cbn [fl]; destruct (Z.ltb_spec i n); try (intro out; cbn; repeat split; auto; fail).
  apply odisc_bind. refine (odisc_weaken _ _ _ (keeps P K h (fun _ => J (i + 1))) _ R R _ _ _ _ _ _ (H i a P' K' _ HJ HP HK)); auto.
  intros P1 K1 h1 a1 (X3 & X4 & -> & X5). rewrite add64_id by (unfold is_i64; lia). apply IH; auto. lia.
Qed.
Lemma odisc_loop {S} v (R : bool -> Prop) (J : Z -> Prop) n (b : Z -> S -> prog S) a P K h (Q : post S) : n < 2 ^ 63 -> J 0 ->
  (forall i a P' K', turn v n i -> J i -> incl P P' -> incl K K' -> odisc P' K' h (keeps P K h (fun _ => J (i + 1))) R (b i a)) ->
  (forall P' K' a, incl P P' -> incl K K' -> Q P' K' h a) ->
  odisc P K h Q R (loop v n b a).
Proof.
  intros Hn H0 H HQ. destruct v; cbn [loop].
  - unfold for_loop. eapply (odisc_weaken _ _ _ (keeps P K h (fun _ => True))); [intros ? X; exact X| |apply (odisc_fl R J); auto using incl_refl; try lia].
    + intros P1 K1 h1 a1 (X3 & X4 & -> & X5). now apply HQ.
    + intros i a0 P' K' HI. apply H. split; [lia|left; lia].
  - apply (odisc_goto _ _ _ R J); auto. intros i a0 P' K' [H1 H2]. apply H. split; [lia|]. tauto.
Qed.
Lemma disc_fl_round {S} (R : bool -> Prop) n (b : Z -> S -> prog S) P K h : n < 2 ^ 63 ->
  (forall i a P' K', 0 <= i < n -> incl P P' -> incl K K' -> disc P' K' h (keeps P K h (fun _ => True)) R (b i a)) ->
  forall fuel i a P' K', 0 <= i -> incl P P' -> incl K K' -> disc P' K' h (keeps P K h (fun _ => True)) R (fl fuel n b i a).
Proof.
  intros Hn H. induction fuel as [|f IH]; intros i a P' K' HI HP HK; cbn [fl]; destruct (Z.ltb_spec i n); try (cbn; repeat split; auto; fail).
  apply disc_bind. refine (disc_weaken _ _ _ (keeps P K h (fun _ => True)) _ R R _ _ _ _ _ _ (H i a P' K' _ HP HK)); auto.
  intros P1 K1 h1 a1 (X3 & X4 & -> & X5). rewrite add64_id by (unfold is_i64; lia). apply IH; auto. lia.
Qed.
Lemma disc_for_round {S} (R : bool -> Prop) n (b : Z -> S -> prog S) a P K h (Q : post S) : n < 2 ^ 63 ->
  (forall i a P' K', 0 <= i < n -> incl P P' -> incl K K' -> disc P' K' h (keeps P K h (fun _ => True)) R (b i a)) ->
  (forall P' K' a, incl P P' -> incl K K' -> Q P' K' h a) ->
  disc P K h Q R (for_loop n b a).
Proof.
  intros Hn H HQ. unfold for_loop. eapply (disc_weaken _ _ _ (keeps P K h (fun _ => True))); [intros ? X; exact X| |apply disc_fl_round; auto using incl_refl; lia].
  intros P1 K1 h1 a1 (X3 & X4 & -> & X5). now apply HQ.
Qed.
End Loops.

Section Methods.
Variables (M : location -> mode) (Hd : slice -> Prop) (t : nat).
Notation disc := (disc M Hd t).
Notation odisc := (odisc M Hd t).
Notation post A := ((nat -> Prop) -> (nat -> Prop) -> bool -> A -> Prop).
Notation all_end := (fun _ : bool => True).
Notation get_ok i := (may_get M Hd t i).
Notation put_ok i := (may_put M Hd t i).
Notation bounded := (bounded Hd).
Hypothesis hdr : may_read (M LHeader) t false.

(** ** Bits *)

Definition v_readbit v := match v with V1 => V1Mini.readbit | V2 => V2Mini.readbit end.
Definition v_setbit v := match v with V1 => V1Mini.setbit | V2 => V2Mini.setbit end.
Definition v_flipbit v := match v with V1 => V1Mini.flipbit | V2 => V2Mini.flipbit end.
Definition v_readbits v := match v with V1 => V1Mini.readbits | V2 => V2Mini.readbits end.
Definition v_setbits v := match v with V1 => V1Mini.setbits | V2 => V2Mini.setbits end.

Lemma odisc_readbit v off P K (Q : post Z) : (0 <= quo off 8 -> get_ok (quo off 8)) -> bit_ret Hd off P K Q ->
  odisc P K false Q all_end (v_readbit v off).
Proof.
  intros H S. destruct v; cbn [v_readbit]; [unfold V1Mini.readbit|unfold V2Mini.readbit]; (apply odisc_bind; apply odisc_get; auto;
  intros P' K' x H1 H2 H3 H4 out; cbn; now apply S).
Qed.
Lemma odisc_setbit v off d P K (Q : post unit) : (0 <= quo off 8 -> get_ok (quo off 8)) -> (0 <= quo off 8 -> put_ok (quo off 8)) -> bit_ret Hd off P K Q ->
  odisc P K false Q all_end (v_setbit v off d).
Proof.
  intros H H' S. destruct v; cbn [v_setbit]; [unfold V1Mini.setbit|unfold V2Mini.setbit];
    (destruct (d =? 0); [apply (odisc_change M Hd t hdr off (fun x => Z.land x _)); auto|]; destruct (d =? 1); [apply (odisc_change M Hd t hdr off (fun x => Z.lor x _)); auto|intro out; exact I]).
Qed.
Lemma odisc_flipbit v off P K (Q : post unit) : (0 <= quo off 8 -> get_ok (quo off 8)) -> (0 <= quo off 8 -> put_ok (quo off 8)) -> bit_ret Hd off P K Q ->
  odisc P K false Q all_end (v_flipbit v off).
Proof.
  intros H H' S. destruct v; cbn [v_flipbit]; [unfold V1Mini.flipbit|unfold V2Mini.flipbit]; now apply (odisc_change M Hd t hdr off (fun x => Z.lxor x _)).
Qed.

(** Round [i] of a run of bits at [off]. *)
Definition bit_turn (v : version) (n off i : Z) : Prop := turn v n i /\ (bounded -> is_i64 off -> i = 0 \/ off + i <= 2 ^ 60).

Lemma odisc_readbits v off n P K (Q : post unit) : is_i64 n ->
  (forall i, bit_turn v n off i -> 0 <= quo (off +! i) 8 -> get_ok (quo (off +! i) 8)) -> stable P K Q ->
  odisc P K false Q all_end (v_readbits v off n).
Proof.
  intros Hn H S.
  assert (E : v_readbits v off n = loop v n (fun i _ => bout <- v_readbit v (off +! i) ;; GetOuts (fun out => SetOuts [Z.lor (ushl 64 (hd 0 out) 1) bout] (Ret tt))) tt) by (destruct v; reflexivity).
  rewrite E. apply (odisc_loop _ _ _ _ _ (fun i => bounded -> is_i64 off -> i = 0 \/ off + i <= 2 ^ 60)); auto.
  - unfold is_i64 in Hn; lia.
  - intros i a P' K' HI HJ HP HK. apply odisc_bind. apply odisc_readbit; [apply H; split; auto|].
    intros P1 K1 x X1 X2 X3 X4. intro out. cbn. kept. eapply (next_round _ n); eauto. split; auto. eapply turn_round; eauto.
Qed.
Lemma odisc_setbits v off data n P K (Q : post unit) : is_i64 n ->
  (forall i, bit_turn v n off i -> 0 <= quo (off +! i) 8 -> get_ok (quo (off +! i) 8)) ->
  (forall i, bit_turn v n off i -> 0 <= quo (off +! i) 8 -> put_ok (quo (off +! i) 8)) -> stable P K Q ->
  odisc P K false Q all_end (v_setbits v off data n).
Proof.
  intros Hn H H' S.
  assert (E : v_setbits v off data n = loop v n (fun i _ => v_setbit v (off +! i) (byte (Z.land (shr 64 data (uconv 64 (n -! i -! 1))) 1))) tt) by (destruct v; reflexivity).
  rewrite E. apply (odisc_loop _ _ _ _ _ (fun i => bounded -> is_i64 off -> i = 0 \/ off + i <= 2 ^ 60)); auto.
  - unfold is_i64 in Hn; lia.
  - intros i a P' K' HI HJ HP HK. apply odisc_setbit; [apply H; split; auto|apply H'; split; auto|].
    intros P1 K1 x X1 X2 X3 X4. kept. eapply (next_round _ n); eauto. split; auto. eapply turn_round; eauto.
Qed.

(** ** Bytes and integers *)

Definition v_write v := match v with V1 => V1Mini.write | V2 => V2Mini.write end.
Lemma disc_write v off (d : slice) (P K : nat -> Prop) (Q : post unit) : s_len d < 2 ^ 63 -> 
  (forall i P' K', incl P P' -> incl K K' -> can_read M t P' K' false (s_blk d) i) ->
  (forall i, 0 <= i < s_len d -> 0 <= off +! i -> put_ok (off +! i)) -> stable P K Q ->
  disc P K false Q all_end (v_write v off d).
Proof.
  intros L HD HW S.
  assert (E : v_write v off d = goto_loop (s_len d) (fun i _ => x <- slice_get d i ;; buf_set (off +! i) x) tt) by (destruct v; reflexivity).
  rewrite E. apply disc_goto_round; auto.
  intros i a P' K' [HI _] HP HK. apply disc_bind. unfold slice_get. destruct (Z.leb_spec 0 i); cbn [andb]; [|exact I].
  destruct (Z.ltb_spec i (s_len d)); cbn [RaceLemmas.disc]; [|exact I]. split; [now apply HD|]. intro x.
  apply disc_buf_set; auto. now apply stable_keeps.
Qed.
Lemma odisc_read v off n P K (Q : post slice) :
  stable P K Q -> odisc P K false Q all_end (match v with V1 => V1Mini.read off n | V2 => V2Mini.read off n end).
Proof.
  intros S. apply odisc_plain. destruct v; [unfold V1Mini.read|unfold V2Mini.read]; unfold get_buf; cbn [bind RaceLemmas.disc];
  (split; [exact hdr|]; intros s Hs; unfold reslice; destruct (_ && _); cbn [bind RaceLemmas.disc]; [|exact I];
  apply S; auto using incl_refl, incl_add).
Qed.

(** The temporary arrays of v1. *)
Lemma disc_store_all (P K : nat -> Prop) held (Q : post unit) b : P (s_blk b) -> Q P K held tt ->
  forall l k, disc P K held Q all_end (GoBinary.store_all b k l).
Proof.
  intros HP HQ. induction l as [|x l IH]; intro k; cbn [GoBinary.store_all]; [exact HQ|].
  apply disc_bind. unfold slice_set. destruct (_ && _); cbn [RaceLemmas.disc]; [|exact I].
  split; [now left|]. apply IH.
Qed.
Lemma disc_copy_digits (P K : nat -> Prop) held (Q : post unit) b d w i : P (s_blk b) -> P (s_blk d) -> Q P K held tt ->
  forall l, disc P K held Q all_end (V1Buffer.copy_digits b d w i l).
Proof.
  intros HP HD HQ. induction l as [|x l IH]; cbn [V1Buffer.copy_digits]; [exact HQ|].
  apply disc_bind. unfold slice_get. destruct (_ && _); cbn [RaceLemmas.disc]; [|exact I].
  split; [now left|]. intro y. apply disc_bind.
  unfold slice_set. destruct (_ && _); cbn [RaceLemmas.disc]; [|exact I].
  split; [now left|]. apply IH.
Qed.
Lemma disc_writeComplex ty off data P K (Q : post unit) : wf_data (tsize (fmt ty)) data ->
  (forall i, 0 <= i < zlen data * tsize (fmt ty) -> 0 <= off +! i -> put_ok (off +! i)) -> stable P K Q ->
  disc P K false Q all_end (V1Mini.writeComplex off (idata_of ty data) (tsize (fmt ty)) (order_of ty)).
Proof.
  intros D HW S. unfold V1Mini.writeComplex. rewrite complex_bytes_canon.
  assert (TS : 1 <= tsize (fmt ty) <= 8) by (destruct ty; cbv; split; discriminate).
  assert (Z0 : 0 <= zlen data) by (unfold zlen; lia).
  assert (MB : tsize (fmt ty) *! zlen data = zlen data * tsize (fmt ty)).
  { unfold wf_data in D. change maxAlloc with (2 ^ 48) in D. rewrite mul64_id; [lia|unfold is_i64; nia]. }
  rewrite MB. apply disc_bind, disc_bind. unfold make_bytes. destruct (_ && _); cbn [RaceLemmas.disc]; [|exact I].
  intros b Nb. apply disc_bind. unfold V1Buffer.put_loop.
  apply (disc_for _ _ _ (fun _ => True)); auto.
  - intros i a P' K' HP HK _. apply disc_bind. unfold lit_bytes. cbn [RaceLemmas.disc]. intros b2 N2. apply disc_bind.
    unfold elem. destruct (_ && _); cbn [RaceLemmas.disc]; [|exact I]. apply disc_bind. apply disc_store_all; [right; reflexivity|].
    apply disc_copy_digits; [left; apply HP; right; reflexivity|right; reflexivity|]. repeat split; auto. eapply incl_trans; [exact HP|apply incl_add].
  - intros P' K' [] HP HK _. cbn [RaceLemmas.disc].
    apply (disc_write V1).
    + cbn [s_len]. unfold wf_data in D. change maxAlloc with (2 ^ 48) in D. lia.
    + intros i P1 K1 X _. left. apply X, HP. right. reflexivity.
    + cbn [s_len]. exact HW.
    + intros P1 K1 a X Y. apply S; [|eapply incl_trans; eauto]. eapply incl_trans; [apply incl_add|]. eapply incl_trans; eauto.
Qed.

Lemma disc_loads (s : slice) (P K : nat -> Prop) (Q : post Z) (e : endian) (f : endian -> slice -> prog Z) :
  f = GoBinary.uint16 \/ f = GoBinary.uint32 \/ f = GoBinary.uint64 ->
  (forall i, 0 <= i < s_len s -> can_read M t P K false (s_blk s) (s_off s + i)) -> (forall a, Q P K false a) ->
  disc P K false Q all_end (f e s).
Proof.
  intros F H HQ.
  assert (one : forall i (k : Z -> prog Z), (forall x, disc P K false Q all_end (k x)) -> disc P K false Q all_end (bind (slice_get s i) k)).
  { intros i k Hk. apply disc_bind. unfold slice_get. destruct (Z.leb_spec 0 i); cbn [andb]; [|exact I]. destruct (Z.ltb_spec i (s_len s)); cbn [RaceLemmas.disc]; [|exact I]. split; [now apply H|exact Hk]. }
  destruct F as [->|[->| ->]]; [unfold GoBinary.uint16|unfold GoBinary.uint32|unfold GoBinary.uint64];
    repeat (apply one; intro); apply HQ.
Qed.
Lemma disc_decode w (f : endian -> slice -> prog Z) e off n b (P K : nat -> Prop) (Q : post (list Z)) d :
  f = GoBinary.uint16 \/ f = GoBinary.uint32 \/ f = GoBinary.uint64 ->
  1 <= w <= 8 -> n < 2 ^ 63 -> s_blk d = b -> K b ->
  (forall i, 0 <= i < n * w -> n * w <= maxAlloc -> may_read (M (LByte b (off + i))) t false) -> s_off d = off ->
  stable P K Q -> disc P K false Q all_end (V1Buffer.decode_loop w (f e) d n).
Proof.
  intros F TS Hn B KB H O S. unfold V1Buffer.decode_loop, make_elems. apply disc_bind. destruct (Z.leb_spec 0 n); cbn [andb]; [|exact I].
  destruct (Z.leb_spec (n * w) maxAlloc) as [L|]; cbn [RaceLemmas.disc]; [|exact I].
  apply disc_for_round; auto. intros i a P' K' HI HP HK. apply disc_bind.
  change maxAlloc with (2 ^ 48) in L. assert (i * w + w <= n * w) by nia.
  rewrite (add64_id i 1) by (unfold is_i64; lia). rewrite !mul64_id by (unfold is_i64; nia).
  unfold reslice. destruct (_ && _); cbn [RaceLemmas.disc]; [|exact I]. apply disc_bind.
  apply disc_loads; auto.
  - cbn [s_len s_blk s_off]. intros j Hj. right. rewrite B. split; [now apply HK|].
    rewrite O. replace (off + i * w + j) with (off + (i * w + j)) by ring. apply H; [nia|exact L].
  - intro x. cbv beta. unfold set_elem. destruct (_ && _); cbn [RaceLemmas.disc]; [|exact I]. repeat split; auto.
Qed.
Lemma disc_readComplex ty off n P K (Q : post V1Buffer.idata) : n < 2 ^ 63 ->
  (forall i, 0 <= off -> 0 <= i < n * tsize (fmt ty) -> n * tsize (fmt ty) <= maxAlloc -> get_ok (off + i)) -> stable P K Q ->
  disc P K false Q all_end (V1Mini.readComplex off n (tsize (fmt ty)) (order_of ty)).
Proof.
  intros Hn H S. unfold V1Mini.readComplex, V1Mini.read, get_buf. cbn [bind RaceLemmas.disc]. split; [exact hdr|]. intros s Hs.
  unfold reslice. destruct (Z.leb_spec 0 off); cbn [andb]; [|exact I]. destruct (_ && _); cbn [bind RaceLemmas.disc]; [|exact I].
  assert (D : forall w f, f = GoBinary.uint16 \/ f = GoBinary.uint32 \/ f = GoBinary.uint64 -> w = tsize (fmt ty) ->
    forall (g : list Z -> V1Buffer.idata), disc P (add K (s_blk s)) false Q all_end
      (l <- V1Buffer.decode_loop w (f (order_of ty)) (mkSlice (s_blk s) (s_off s + off) (off +! n - off) (s_cap s - off)) n ;; Ret (g l))).
  { intros w f F -> g. apply disc_bind. apply (disc_decode _ _ _ (s_off s + off) _ (s_blk s)); auto.
    - destruct ty; cbv; split; discriminate.
    - right. reflexivity.
    - intros i Hi L. replace (s_off s + off + i) with (s_off s + (off + i)) by lia. now apply H.
    - intros P' K' a X Y. cbn. apply S; auto. eapply incl_trans; [apply incl_add|exact Y]. }
  destruct ty; first [exact (D 2 GoBinary.uint16 (or_introl eq_refl) eq_refl V1Buffer.IU16) | exact (D 4 GoBinary.uint32 (or_intror (or_introl eq_refl)) eq_refl V1Buffer.IU32)
    | exact (D 8 GoBinary.uint64 (or_intror (or_intror eq_refl)) eq_refl V1Buffer.IU64)].
Qed.
End Methods.

(** ** Calls *)

(** The bytes that an operation at [off] reaches, with the int arithmetic of the code. *)
Definition otouched (Hd : slice -> Prop) (v : version) (off : Z) (o : op2 slice) (i : Z) : Prop :=
  let reached n := exists k, 0 <= k < n /\ 0 <= off +! k /\ i = off +! k in
  match o with
  | PReadBit | PSetBit _ | PFlipBit => 0 <= quo off 8 /\ i = quo off 8
  | PReadBits n | PSetBits _ n => exists k, bit_turn Hd v n off k /\ 0 <= quo (off +! k) 8 /\ i = quo (off +! k) 8
  | PWriteBytes d => reached (s_len d)
  | PWriteByte _ | PReadByte | PReadBytes _ => False
  | PWrite t d => match v with V1 => reached (zlen d * tsize (fmt t)) | V2 => mtouched Hd off (OWrite (fmt t) d) i end
  | PRead t n =>
      match v with
      | V1 => exists k, 0 <= off /\ 0 <= k < n * tsize (fmt t) /\ n * tsize (fmt t) <= maxAlloc /\ i = off + k
      | V2 => mtouched Hd off (ORead (fmt t) n) i
      end
  end.
Lemma otouched_nonneg Hd v off o i : otouched Hd v off o i -> 0 <= i.
Proof.
  destruct o; cbn [otouched]; intro H; try tauto; try lia; try (destruct H as (k & _ & H & ->); exact H).
  - destruct v; [destruct H as (k & _ & H & ->); exact H|eapply mtouched_nonneg; eauto].
  - destruct v; [destruct H as (k & H); lia|eapply mtouched_nonneg; eauto].
Qed.

Lemma arg_small s d : wf_heap (heap s) -> wf_arg s d -> s_len d <= 2 ^ 48.
Proof.
  intros H (H1 & H2 & H3 & H4). pose proof (proj1 (Forall_forall _ _) H (nth (s_blk d) (heap s) [])) as B.
  destruct B as [_ B]. { apply nth_In. exact H1. } change maxAlloc with (2 ^ 48) in B. lia.
Qed.
Lemma otouched_span Hd v s off o i : wf_heap (heap s) -> bounded Hd -> is_i64 off -> valid_op2 s o -> otouched Hd v off o i -> old_span v off o i = true.
Proof.
  intros WH B H V T. pose proof (otouched_nonneg _ _ _ _ _ T) as N.
  assert (Q1 : forall b, b = off + 1 - 1 -> Z.quot b 8 = Z.quot off 8) by (intros b ->; f_equal; lia).
  assert (QM : forall a b, a <= b -> Z.quot a 8 <= Z.quot b 8) by (intros a b L; apply Z.quot_le_mono; lia).
  assert (RC : forall n, n <= 2 ^ 60 -> (exists k, 0 <= k < n /\ 0 <= off +! k /\ i = off +! k) -> (off <=? i) && (i <? off + n) = true).
  { intros n Hn (k & K & T' & ->). rewrite add_nonneg in T' |- * by (auto; unfold is_i64; lia). lia. }
  unfold old_span. apply andb_true_iff. split; [now apply Z.leb_le|].
  destruct o; cbn [otouched valid_op2] in *; try contradiction.
  1, 3, 5: destruct T as [T ->]; unfold quo in *; rewrite (Q1 _ eq_refl); lia.
  1, 2: destruct T as (k & [K KB] & T & ->); specialize (KB B H); assert (KN : 0 <= k /\ k < match v with V1 => n | V2 => Z.max n 1 end);
    [unfold turn in K; destruct v; [intuition congruence|lia]|];
    assert (E : off +! k = off + k); [apply add64_id; unfold is_i64 in *; destruct KB; lia|];
    unfold quo; rewrite E; apply andb_true_iff; split; [apply Z.ltb_lt; lia|]; apply andb_true_iff; split; apply Z.leb_le; apply QM; lia.
  - apply RC; auto. pose proof (arg_small s d WH V). lia.
  - destruct v; [apply RC; auto; unfold wf_data in V; change maxAlloc with (2 ^ 48) in V; lia|].
    pose proof (mtouched_span Hd s off (OWrite (fmt t) d) i B H V T) as X. unfold mini_span in X. now apply andb_true_iff in X.
  - destruct v; [destruct T as (k & T); lia|].
    pose proof (mtouched_span Hd s off (ORead (fmt t) n) i B H V T) as X. unfold mini_span in X. now apply andb_true_iff in X.
Qed.

Section Call.
Variables (M : location -> mode) (Hd : slice -> Prop) (t : nat).
Notation odisc := (odisc M Hd t).
Notation post A := ((nat -> Prop) -> (nat -> Prop) -> bool -> A -> Prop).
Notation all_end := (fun _ : bool => True).
Notation get_ok f := (may_read (M (LField f)) t false).
Notation set_ok f := (may_write (M (LField f)) t false).

Definition source_old (K : nat -> Prop) (o : op2 slice) : Prop :=
  match o with PWriteBytes d => s_len d < 2 ^ 63 /\ forall i P' K', incl K K' -> can_read M t P' K' false (s_blk d) i | _ => True end.

Lemma odisc_idata ty p P K (Q : post (rv slice)) : odisc P K false (fun P' K' h a => odisc P' K' h Q all_end (match nums_of ty a with Some l => Ret (RNums l) | None => Panic (RuntimeError TypeAssertion) end)) all_end p ->
  odisc P K false Q all_end (ret_idata ty p).
Proof. intro H. unfold ret_idata. now apply odisc_bind. Qed.
Lemma odisc_nums ty x P K (Q : post (rv slice)) : stable P K Q ->
  odisc P K false Q all_end (match nums_of ty x with Some l => Ret (RNums l) | None => Panic (RuntimeError TypeAssertion) end).
Proof. intros S out. destruct (nums_of ty x); cbn; [apply S; apply incl_refl|exact I]. Qed.

Ltac opened :=
  unfold ret_unit, ret_int, ret_bytes, out_int, out_nums;
  match goal with
  | |- RaceMini.odisc _ _ _ _ _ _ _ _ (ret_idata _ _) => apply odisc_idata
  | |- RaceMini.odisc _ _ _ _ _ _ _ _ (bind ?p (fun x => Ret ?v)) => apply (odisc_ret _ _ _ p (fun x => v))
  | |- _ => apply odisc_bind
  end.

Lemma odisc_old_at v s off o P K (Q : post (rv slice)) : old_mini_op o = true -> may_read (M LHeader) t false ->
  source_old K o -> valid_op2 s o ->
  (forall i, otouched Hd v off o i -> may_get M Hd t i) -> (writing o = true -> forall i, otouched Hd v off o i -> may_put M Hd t i) ->
  stable P K Q -> odisc P K false Q all_end (old_mini_at v off o).
Proof.
  intros MO H S V R W Q'.
  assert (ST : forall A (f : A -> rv slice), stable (A := A) P K (fun P' K' h a => Q P' K' h (f a))) by (intros A f P' K' a X Y; now apply Q').
  destruct o; cbn [old_mini_op otouched writing source_old valid_op2] in *; try discriminate MO; try specialize (W eq_refl).
  - destruct v; cbn [old_mini_at mini1_at mini2_at]; opened; [apply (odisc_readbit _ _ _ H V1)|apply (odisc_readbit _ _ _ H V2)]; auto; apply stable_bit, ST.
  - assert (G : stable (A := unit) P K (fun P' K' h _ => odisc P' K' h Q all_end (GetOuts (fun o => Ret (RInt (hd 0 o)))))) by (intros P' K' a X Y out; cbn; apply Q'; auto).
    destruct v; cbn [old_mini_at mini1_at mini2_at]; opened; [apply (odisc_readbits _ _ _ H V1)|apply (odisc_readbits _ _ _ H V2)]; auto; intros i X Y; apply R; eauto.
  - destruct v; cbn [old_mini_at mini1_at mini2_at]; opened; [apply (odisc_setbit _ _ _ H V1)|apply (odisc_setbit _ _ _ H V2)]; auto; apply stable_bit; intros P' K' a X Y; apply Q'; auto.
  - destruct v; cbn [old_mini_at mini1_at mini2_at]; opened; [apply (odisc_setbits _ _ _ H V1)|apply (odisc_setbits _ _ _ H V2)]; try tauto;
      try (intros i X Y; first [apply R; eauto; fail|apply W; eauto; fail]); intros P' K' a X Y; apply Q'; auto.
  - destruct v; cbn [old_mini_at mini1_at mini2_at]; opened; [apply (odisc_flipbit _ _ _ H V1)|apply (odisc_flipbit _ _ _ H V2)]; auto; apply stable_bit; intros P' K' a X Y; apply Q'; auto.
  - destruct S as [S1 S2]. destruct v; cbn [old_mini_at mini1_at mini2_at]; opened; apply odisc_plain; [apply (disc_write _ _ _ H V1)|apply (disc_write _ _ _ H V2)]; auto;
      try (intros i X Y; apply W; eauto); intros P' K' a X Y; apply Q'; auto.
  - destruct v; cbn [old_mini_at mini1_at mini2_at]; opened; [apply (odisc_read _ _ _ H V1)|apply (odisc_read _ _ _ H V2)]; auto; intros P' K' a X Y; apply Q'; auto.
  - destruct v; cbn [old_mini_at mini1_at mini2_at]; opened; apply odisc_plain.
    + apply disc_writeComplex; auto; intros i X Y; apply W; eauto.
    + rewrite MiniWriteU_v3. apply disc_MiniWriteT; auto; [now apply (zlen_small (fmt t0))|].
      intros i k X Y Z0. apply W. cbn [mtouched]. eauto 10.
  - destruct v; cbn [old_mini_at mini1_at mini2_at]; opened.
    + apply odisc_plain. apply disc_readComplex; auto; [unfold is_i64 in V; lia|intros i X Y Z0; apply R; exists i; auto|].
      intros P' K' a X Y. apply odisc_nums. intros P1 K1 b X1 Y1. apply Q'; eapply incl_trans; eauto.
    + rewrite MiniReadU_v3. apply odisc_MiniReadT; auto. { intros i k X Y Z0. apply R. exists i, k. auto 10. } intros P' K' a X Y out. cbn. apply Q'; auto.
Qed.

Lemma odisc_seek v n P K (Q : post unit) : get_ok FOff -> set_ok FOff -> stable P K Q -> odisc P K false Q all_end (match v with V1 => V1Mini.seek n true | V2 => V2Mini.seek n true end).
Proof. intros H1 H2 S. apply odisc_plain. destruct v; cbn; repeat split; auto; apply S; apply incl_refl. Qed.
Lemma odisc_seekbit v n P K (Q : post unit) : get_ok FBoff -> set_ok FBoff -> stable P K Q -> odisc P K false Q all_end (match v with V1 => V1Mini.seekbit n true | V2 => V2Mini.seekbit n true end).
Proof. intros H1 H2 S. apply odisc_plain. destruct v; cbn; repeat split; auto; apply S; apply incl_refl. Qed.

Lemma odisc_old_next v s o P K (Q : post (rv slice)) : old_mini_op o = true -> may_read (M LHeader) t false ->
  (if bits_op o then get_ok FBoff /\ set_ok FBoff else get_ok FOff /\ set_ok FOff) ->
  source_old K o -> valid_op2 s o ->
  (only_header o = false -> forall i, 0 <= i -> may_get M Hd t i) -> (writing o = true -> forall i, 0 <= i -> may_put M Hd t i) ->
  stable P K Q -> odisc P K false Q all_end (old_mini_next v o).
Proof.
  intros MO H L S V R W Q'.
  destruct o; cbn [old_mini_op bits_op only_header writing source_old valid_op2] in *; try discriminate MO; destruct L as (L2 & L3);
    try specialize (W eq_refl); try specialize (R eq_refl);
    destruct v; cbn [old_mini_next mini1_next mini2_next]; opened; rewrite ?MiniWriteUNext_v3, ?MiniReadUNext_v3, ?MiniWriteTNext_canon, ?MiniReadTNext_canon;
    try unfold V1Mini.ReadBitNext; try unfold V1Mini.ReadBitsNext; try unfold V1Mini.SetBitNext; try unfold V1Mini.FlipBitNext; try unfold V1Mini.SetBitsNext;
    try unfold V1Mini.WriteBytesNext; try unfold V1Mini.ReadBytesNext; try unfold V1Mini.WriteComplexNext; try unfold V1Mini.ReadComplexNext;
    try unfold V2Mini.ReadBitNext; try unfold V2Mini.ReadBitsNext; try unfold V2Mini.SetBitNext; try unfold V2Mini.FlipBitNext; try unfold V2Mini.SetBitsNext;
    try unfold V2Mini.WriteBytesNext; try unfold V2Mini.ReadBytesNext;
    (apply odisc_getf; [exact L2|]); intro off; apply odisc_bind.
  Ltac fin1 Q' := intros ? ? ? ? ?; lazymatch goal with |- RaceMini.odisc _ _ _ _ _ _ _ _ (bind _ _) => apply odisc_bind | _ => idtac end; first [apply (odisc_seekbit V1)|apply (odisc_seek V1)]; auto; intros ? ? ? ? ?; try (intro; cbn); apply Q'; eapply incl_trans; eauto.
  Ltac fin3 Q' := intros ? ? ? ? ?; lazymatch goal with |- RaceMini.odisc _ _ _ _ _ _ _ _ (bind _ _) => apply odisc_bind | _ => idtac end; first [apply (odisc_seekbit V2)|apply (odisc_seek V2)]; auto; intros ? ? ? ? ?; try (intro; cbn); apply Q'; eapply incl_trans; eauto.
  - apply (odisc_readbit _ _ _ H V1); auto. apply stable_bit. fin1 Q'.
  - apply (odisc_readbit _ _ _ H V2); auto. apply stable_bit. fin3 Q'.
  - apply (odisc_readbits _ _ _ H V1); auto. fin1 Q'.
  - apply (odisc_readbits _ _ _ H V2); auto. fin3 Q'.
  - apply (odisc_setbit _ _ _ H V1); auto. apply stable_bit. fin1 Q'.
  - apply (odisc_setbit _ _ _ H V2); auto. apply stable_bit. fin3 Q'.
  - apply (odisc_setbits _ _ _ H V1); auto. { tauto. } fin1 Q'.
  - apply (odisc_setbits _ _ _ H V2); auto. { tauto. } fin3 Q'.
  - apply (odisc_flipbit _ _ _ H V1); auto. apply stable_bit. fin1 Q'.
  - apply (odisc_flipbit _ _ _ H V2); auto. apply stable_bit. fin3 Q'.
  - destruct S as [S1 S2]. apply odisc_plain. apply (disc_write _ _ _ H V1); auto. fin1 Q'.
  - destruct S as [S1 S2]. apply odisc_plain. apply (disc_write _ _ _ H V2); auto. fin3 Q'.
  - apply (odisc_read _ _ _ H V1); auto. fin1 Q'.
  - apply (odisc_read _ _ _ H V2); auto. fin3 Q'.
  - apply odisc_plain. apply disc_writeComplex; auto.
    intros P' K' a X Y. destruct t0; (apply (odisc_seek V1); auto; intros P1 K1 b X1 Y1; apply Q'; eapply incl_trans; eauto).
  - apply odisc_plain, disc_MiniWriteT; auto; [now apply (zlen_small (fmt t0))|].
    intros P' K' a X Y. apply odisc_SeekByte; auto. intros P1 K1 b X1 Y1. apply Q'; eapply incl_trans; eauto.
  - apply odisc_plain. apply disc_readComplex; auto. { unfold is_i64 in V; lia. } { intros i X Y Z0. apply R. lia. }
    intros P' K' a X Y. apply odisc_bind, (odisc_seek V1); auto. intros P1 K1 b X1 Y1. apply odisc_plain. cbn [RaceLemmas.disc].
    apply odisc_nums. intros P2 K2 c X2 Y2. apply Q'; (eapply incl_trans; [|eapply incl_trans]); eauto.
  - apply odisc_MiniReadT; auto. intros P' K' a X Y. apply odisc_SeekByte; auto. intros P1 K1 b X1 Y1 out. cbn. apply Q'; eapply incl_trans; eauto.
Qed.
End Call.

(** ** Modes *)

Section Modes.
Variables (hd0 : slice) (h0 : nat) (pm : piece -> mode) (t : nat).
Notation modes3 := (modes3 hd0 h0 pm).
Notation headers3 := (headers3 hd0 h0 pm).
Notation odisc := (odisc modes3 headers3 t).
Hypothesis h0_pos : (s_blk hd0 < h0)%nat.
Hypothesis short : s_len hd0 <= 2 ^ 48.

Lemma source_old_fine (K : nat -> Prop) s o : wf_heap (heap s) -> length (heap s) = h0 -> b_buf (bb s) = hd0 -> incl (initial h0) K -> valid_op2 s o -> separate_old s (Next2 o) ->
  source_old modes3 t K o.
Proof.
  intros WH E1 E2 HK V X. destruct o; cbn in *; auto.
  assert (L : (s_blk d < h0)%nat). { unfold wf_arg, wf_slice in V. rewrite E1 in V. tauto. }
  split; [pose proof (arg_small s d WH V); lia|]. intros i P' K' HK'. right.
  split; [apply HK'; now apply HK|]. cbn. unfold outside. rewrite E2 in X.
  apply Nat.ltb_lt in L. apply Nat.eqb_neq in X. now rewrite L, X.
Qed.

(** What Grow does to the memory. *)
Lemma disc_append pol sl z (P K : nat -> Prop) (Q : (nat -> Prop) -> (nat -> Prop) -> bool -> slice -> Prop) :
  (forall i, may_read (modes3 (LByte (s_blk sl) i)) t false) -> (forall i, may_write (modes3 (LByte (s_blk sl) i)) t false) ->
  K (s_blk sl) -> P (s_blk z) ->
  Q P K false (mkSlice (s_blk sl) (s_off sl) (s_len sl + s_len z) (s_cap sl)) ->
  (forall b c, ~ K b -> Q (add P b) K false (mkSlice b 0 (s_len sl + s_len z) c)) ->
  disc modes3 headers3 t P K false Q (fun _ => True) (append pol sl z).
Proof.
  intros R W HK HP Q1 Q2. unfold append. cbv zeta. destruct (_ <=? _); [|destruct (_ <=? _)]; cbn [RaceLemmas.disc].
  - split; [right; auto|]. split; [left; auto|]. split; [|split]; auto; intros i Hi; [right|left]; auto.
  - intros b Nb. split; [left; right; reflexivity|]. split; [right; auto|]. split; [|split].
    + intros i Hi. left. right. reflexivity.
    + intros i Hi. right. auto.
    + split; [left; right; reflexivity|]. split; [left; left; auto|]. split; [|split].
      * intros i Hi. left. right. reflexivity.
      * intros i Hi. left. left. auto.
      * now apply Q2.
  - exact I.
Qed.

Lemma odisc_old_call v pol s c : wf_heap (heap s) -> length (heap s) = h0 -> b_buf (bb s) = hd0 -> old_mini_method v c = true -> valid_call2 s c -> separate_old s c ->
  (pm Slice = Frozen \/ exists u, pm Slice = Exclusive u) ->
  (forall x, reads_old v c x = true -> may_read (pm x) t false) -> (forall x, writes_old v c x = true -> may_write (pm x) t false) ->
  odisc RaceLemmas.none (initial h0) false yes (fun _ => True) (old_mini v pol c).
Proof.
  intros WH E1 E2 MM V X F R W.
  assert (ST : forall A, stable (A := A) RaceLemmas.none (initial h0) yes) by (intros A P K a _ _; exact I).
  assert (GS : reads_old v c Slice = true -> may_read (modes3 LHeader) t false) by apply (R Slice).
  assert (GF : forall f, reads_old v c (Fields f) = true -> may_read (modes3 (LField f)) t false) by (intro f; apply (R (Fields f))).
  assert (PF : forall f, writes_old v c (Fields f) = true -> may_write (modes3 (LField f)) t false) by (intro f; apply (W (Fields f))).
  assert (BX : reads_old v c Slice = true -> pm Slice = Frozen /\ bounded headers3 \/ pm Slice = Exclusive t).
  { intro A. apply R in A. destruct F as [F|[u F]]; [left; split; auto; now apply frozen_bounded|right]. rewrite F in A. cbn in A. now subst. }
  assert (GB : reads_old v c Slice = true -> forall i, (pm Slice = Frozen -> bounded headers3 -> reads_old v c (Byte i) = true) -> may_get modes3 headers3 t i).
  { intros A i B. destruct (BX A) as [[Fr Bo]|Ex]; [|now apply owner_gets]. apply get_byte; auto. }
  assert (PB : reads_old v c Slice = true -> forall i, (pm Slice = Frozen -> bounded headers3 -> writes_old v c (Byte i) = true) -> may_put modes3 headers3 t i).
  { intros A i B. destruct (BX A) as [[Fr Bo]|Ex]; [|now apply owner_puts]. apply put_byte; auto; congruence. }
  assert (NF : writes_old v c Slice = true -> pm Slice <> Frozen) by (intros A B; apply W in A; rewrite B in A; exact A).
  assert (PS : writes_old v c Slice = true -> may_write (modes3 LHeader) t false) by apply (W Slice).
  assert (EX : writes_old v c Slice = true -> pm Slice = Exclusive t).
  { intro A. apply W in A. destruct F as [F|[u F]]; rewrite F in A; [contradiction|]. cbn in A. now subst. }
  assert (PN : writes_old v c Slice = true -> forall b, outside hd0 h0 b = false -> forall i, may_write (modes3 (LByte b i)) t false).
  { intros A b N i. cbn. rewrite N, (EX A). reflexivity. }
  assert (GN : writes_old v c Slice = true -> forall b, outside hd0 h0 b = false -> forall i, may_read (modes3 (LByte b i)) t false).
  { intros A b N i. cbn. rewrite N, (EX A). reflexivity. }
  assert (FR : forall (K : nat -> Prop) b, incl (initial h0) K -> ~ K b -> outside hd0 h0 b = false).
  { intros K b HK N. unfold outside. destruct (Nat.ltb_spec b h0); auto. destruct N. now apply HK. }
  clear F R W BX.
  Ltac fin4 := first [ exact I | match goal with
    | H : forall f, _ -> may_read (Race3.modes3 _ _ _ (LField f)) _ _ |- _ => first [exact (H FOff eq_refl)|exact (H FCap eq_refl)|exact (H FBoff eq_refl)|exact (H FBcap eq_refl)]
    | H : forall f, _ -> may_write (Race3.modes3 _ _ _ (LField f)) _ _ |- _ => first [exact (H FOff eq_refl)|exact (H FCap eq_refl)|exact (H FBoff eq_refl)|exact (H FBcap eq_refl)]
    | H : _ -> may_read (Race3.modes3 _ _ _ LHeader) _ _ |- _ => exact (H eq_refl)
    | H : _ -> may_write (Race3.modes3 _ _ _ LHeader) _ _ |- _ => exact (H eq_refl) end | intro; fin4 ].
  destruct c as [off o|o| | | |off r|off r|off|off| | |n| | | | | | |]; cbn [reads_old writes_old old_mini_method] in *.
  - destruct V as [V1 V2]. replace (old_mini v pol (At2 off o)) with (old_mini_at v off o) by (destruct v; reflexivity). apply (odisc_old_at modes3 headers3 t v s); auto.
    + eapply source_old_fine; eauto. apply incl_refl.
    + intros i T. apply GB; auto. intros _ Bo. eapply otouched_span; eauto.
    + intros Wr i T. apply PB; auto. intros _ Bo. rewrite Wr. eapply otouched_span; eauto.
  - replace (old_mini v pol (Next2 o)) with (old_mini_next v o) by (destruct v; reflexivity). apply (odisc_old_next modes3 headers3 t v s); auto.
    + destruct (bits_op o); split; first [apply GF; reflexivity|apply PF; reflexivity].
    + eapply source_old_fine; eauto. apply incl_refl.
    + intros E i Hi. apply GB; auto. intros _ _. rewrite E. apply Z.leb_le in Hi. now rewrite Hi.
  - apply odisc_plain. destruct v; cbn [old_mini mini1_call mini2_call]; unfold ret_unit; apply (disc_ret _ _ _ _ (fun _ => RUnit));
      [unfold V1Mini.ClearAllBits, V1Mini.clearallbits, get_buf|unfold V2Mini.ClearAllBits, V2Mini.clearallbits, get_buf]; cbn [bind RaceLemmas.disc]; (split; auto; intros sl Hs);
      [apply (disc_for _ _ _ (fun _ => True))|apply (disc_goto _ _ _ (fun _ => True))]; try exact I; try (intros; exact I);
      (intros i a P K HP HK _; apply disc_buf_set; auto; apply stable_keeps; auto).
  - apply odisc_plain. destruct v; cbn [old_mini mini1_call mini2_call]; unfold ret_unit; apply (disc_ret _ _ _ _ (fun _ => RUnit));
      [unfold V1Mini.SetAllBits, V1Mini.setallbits, get_buf|unfold V2Mini.SetAllBits, V2Mini.setallbits, get_buf]; cbn [bind RaceLemmas.disc]; (split; auto; intros sl Hs);
      [apply (disc_for _ _ _ (fun _ => True))|apply (disc_goto _ _ _ (fun _ => True))]; try exact I; try (intros; exact I);
      (intros i a P K HP HK _; apply disc_buf_set; auto; apply stable_keeps; auto).
  - apply odisc_plain. destruct v; cbn [old_mini mini1_call mini2_call]; unfold ret_unit; apply (disc_ret _ _ _ _ (fun _ => RUnit));
      [unfold V1Mini.FlipAllBits, V1Mini.flipallbits, get_buf|unfold V2Mini.FlipAllBits, V2Mini.flipallbits, get_buf]; cbn [bind RaceLemmas.disc]; (split; auto; intros sl Hs);
      [apply (disc_for _ _ _ (fun _ => True))|apply (disc_goto _ _ _ (fun _ => True))]; try exact I; try (intros; exact I);
      (intros i a P K HP HK _; apply disc_bind; apply disc_buf_get; auto; intros P1 K1 x H1 H2; apply disc_buf_set; auto; apply stable_keeps; eapply incl_trans; eauto).
  - apply odisc_plain. destruct v, r; cbn; repeat split; try solve [fin4].
  - apply odisc_plain. destruct v, r; cbn; repeat split; try solve [fin4].
  - apply odisc_plain. destruct v, off; cbn; repeat split; try solve [fin4].
  - apply odisc_plain. destruct v, off; cbn; repeat split; try solve [fin4].
  - apply odisc_plain. destruct v; cbn; repeat split; try solve [fin4].
  - apply odisc_plain. destruct v; cbn; repeat split; try solve [fin4].
  - assert (G : forall (ref : prog unit), (forall P K, disc modes3 headers3 t P K false yes (fun _ => True) ref) ->
      disc modes3 headers3 t RaceLemmas.none (initial h0) false yes (fun _ => True)
        (sl <- get_buf ;; z <- make_bytes n n ;; s' <- append pol sl z ;; set_buf s' ;; ref)).
    { intros ref HR. unfold get_buf, make_bytes. cbn [bind RaceLemmas.disc]. split; try solve [fin4]. intros sl Hs. destruct (_ && _); cbn [bind RaceLemmas.disc]; [|exact I].
      intros z Nz. pose proof (headers_inside _ _ _ sl Hs) as HI. apply disc_bind. apply disc_append; auto; try (right; reflexivity).
      - cbn. repeat split; try solve [fin4]; auto. { apply headers3_again; auto. } left. right. reflexivity.
      - intros b c Nb. cbn. repeat split; try solve [fin4]; auto. { eapply headers3_fresh; eauto. apply incl_add. }
        right. split; [right; reflexivity|]. apply PN; auto. apply (FR (add (initial h0) (s_blk sl))); auto. apply incl_add. }
    apply odisc_plain. destruct v; cbn [old_mini mini1_call mini2_call]; unfold ret_unit; apply (disc_ret _ _ _ _ (fun _ => RUnit)); apply G; intros P K; cbn; repeat split; try solve [fin4].
  - apply odisc_plain. destruct v; cbn; repeat split; try solve [fin4].
  - apply odisc_plain. destruct v; [discriminate MM|]. cbn. intros b Nb. repeat split; try solve [fin4].
    + eapply headers3_fresh; eauto. apply incl_refl.
    + right. split; [right; reflexivity|]. intro i. apply PN; auto. apply (FR (initial h0)); auto. apply incl_refl.
  - apply odisc_plain. destruct v; cbn; repeat split; try solve [fin4].
  - apply odisc_plain. destruct v; cbn; repeat split; try solve [fin4].
  - apply odisc_plain. destruct v; cbn; repeat split; try solve [fin4].
  - apply odisc_plain. destruct v; cbn; repeat split; try solve [fin4].
  - apply odisc_plain. destruct v; cbn; repeat split; try solve [fin4].
Qed.
End Modes.

(** ** Programs *)

Section Programs.
Variables (v : version) (pol : Z -> Z -> Z) (programs : list (list old_use)).

(** The goroutine that writes [x], if there is one. *)
Definition oowner (x : piece) : option nat :=
  find (fun t => existsb (fun u : old_use => writes_old v (fst u) x) (nth t programs [])) (seq 0 (length programs)).
Definition oowner_mode (x : piece) : mode := match oowner x with Some t => Exclusive t | None => Frozen end.

Lemma oowner_some x u : oowner x = Some u -> exists cs c, nth_error programs u = Some cs /\ In c cs /\ writes_old v (fst c) x = true.
Proof.
  intro H. apply find_some in H as [H1 H2]. apply in_seq in H1. apply existsb_exists in H2 as (c & C1 & C2).
  exists (nth u programs []), c. split; auto. apply nth_error_nth'. lia.
Qed.
Lemma oowner_none x t cs c : oowner x = None -> nth_error programs t = Some cs -> In c cs -> writes_old v (fst c) x = false.
Proof.
  intros H E I. destruct (writes_old v (fst c) x) eqn:W; auto.
  assert (L : (t < length programs)%nat) by (apply nth_error_Some; congruence).
  pose proof (find_none _ _ H t) as N. rewrite in_seq in N. specialize (N ltac:(lia)). cbv beta in N.
  rewrite (nth_error_nth _ _ _ E) in N. rewrite <- N. symmetry. apply existsb_exists. eauto.
Qed.
Hypothesis comp : compatible_old v programs.
Lemma oowner_reads x t cs c : nth_error programs t = Some cs -> In c cs -> reads_old v (fst c) x = true -> may_read (oowner_mode x) t false.
Proof.
  intros E I R. unfold oowner_mode. destruct (oowner x) as [u|] eqn:O; cbn; auto.
  apply oowner_some in O as (ds & d & E' & I' & W). destruct (Nat.eq_dec t u) as [|N]; auto.
  exfalso. apply (comp u t ds cs d c); auto. exists x. auto.
Qed.
Lemma oowner_writes x t cs c : nth_error programs t = Some cs -> In c cs -> writes_old v (fst c) x = true -> may_write (oowner_mode x) t false.
Proof.
  intros E I R. unfold oowner_mode. destruct (oowner x) as [u|] eqn:O; cbn.
  - apply oowner_some in O as (ds & d & E' & I' & W). destruct (Nat.eq_dec t u) as [|N]; auto.
    exfalso. apply (comp u t ds cs d c); auto. exists x. auto.
  - rewrite (oowner_none x t cs c O E I) in R. discriminate.
Qed.

Theorem compatible_old_race_free s tr c : wf_heap (heap s) -> (s_blk (b_buf (bb s)) < length (heap s))%nat -> s_len (b_buf (bb s)) <= 2 ^ 48 ->
  Forall (Forall (fun u : old_use => old_mini_method v (fst u) = true /\ valid_call2 s (fst u) /\ separate_old s (fst u))) programs ->
  traced (old_use_body v pol) (start s programs) tr c -> race_free tr.
Proof.
  intros WH B L V T. set (h := length (heap s)) in *.
  apply (disciplined (modes3 (b_buf (bb s)) h oowner_mode) (headers3 (b_buf (bb s)) h oowner_mode) (old_use_body v pol) h s programs tr c); auto.
  - unfold headers3. destruct (oowner_mode Slice); auto; unfold outside; now rewrite Nat.eqb_refl, andb_false_r.
  - intros t cs E. apply Forall_forall. intros d D. unfold good.
    assert (Ic : In cs programs) by (eapply nth_error_In; eauto).
    rewrite Forall_forall in V. specialize (V cs Ic). rewrite Forall_forall in V. destruct (V d D) as (V1 & V2 & V3).
    apply (odisc_old_call _ _ _ _ B L v pol s); auto.
    + unfold oowner_mode. destruct (oowner Slice); eauto.
    + intros x. eapply oowner_reads; eauto.
    + intros x. eapply oowner_writes; eauto.
Qed.
End Programs.
