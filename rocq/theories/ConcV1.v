(** * ConcV1: the v1 [Buffer] methods as locked sections.

    Most are v2's.  New: the [for] loops over all bytes, and WriteComplex, which
    builds the bytes to write in memory of its own, before it takes the lock. *)
From Coq Require Import ZArith List Bool Lia ZifyBool.
From Verif Require Import GoSem Errors Spec GoLemmas BitLemmas CodecLemmas Typed V3BitLemmas V3ByteLemmas
  TypedCanon TypedLemmas TypedReadLemmas Calls Abs Frame Sim History LockLemmas OldCalls V2Lemmas V2Agree
  V2Safe V1Lemmas V1Calls Conc ConcLemmas ConcInv ConcSpec ConcSpec1 ConcV2 RaceSpec.
From Verif Require GoBinary V3Buffer V2Buffer V1Buffer V2Mini V1Mini.
Import ListNotations.
Open Scope Z_scope.
Open Scope go_scope.

(** ** Sequential behaviour *)

Lemma same_visible_abs a b : WF b -> same_visible a b -> abs a = abs b.
Proof.
  intros W (E1 & _ & _ & x & E2). pose proof (wf_blk b W). unfold abs, spare, content, slice_bytes. rewrite E1, E2.
  rewrite app_nth1 by auto. reflexivity.
Qed.

Definition seq1 (c : call2 slice) : Prop :=
  match c with
  | At2 _ (PReadBits _ | PSetBits _ _ | PReadBytes _ | PRead _ _) => False
  | Next2 _ | KGrow _ | KReset | KBytes => False
  | _ => True
  end.
Lemma seq1_plain pol c s v s' : seq1 c -> run (v1_call pol c) s = Done v s' -> plain_rv v.
Proof.
  intros NN.
  assert (X : forall X (p : prog X) (f : X -> rv slice), (forall x, plain_rv (f x)) ->
    run (x <- p ;; Ret (f x)) s = Done v s' -> plain_rv v).
  { intros X p f Hf. rewrite run_bind. destruct (run p s); try discriminate. cbn. intro Y. injection Y as <- _. auto. }
  unfold v1_call. intro R. destruct c as [off o|o| | | | | | | | | | | | | | | | | ]; try contradiction;
    [destruct o; try contradiction|..];
    cbn [do1_call do1_at] in R; unfold ret_unit, ret_int in R; (eapply X in R; [exact R|intro; exact I]).
Qed.
Lemma seq1_plain2 pol c s v s' : seq1 c -> run (do2_call pol c) s = Done v s' -> plain_rv v.
Proof.
  intros NN.
  assert (X : forall X (p : prog X) (f : X -> rv slice), (forall x, plain_rv (f x)) ->
    run (x <- p ;; Ret (f x)) s = Done v s' -> plain_rv v).
  { intros X p f Hf. rewrite run_bind. destruct (run p s); try discriminate. cbn. intro Y. injection Y as <- _. auto. }
  intro R. destruct c as [off o|o| | | | | | | | | | | | | | | | | ]; try contradiction;
    [destruct o; try contradiction|..];
    cbn [do2_call do2_at] in R; unfold ret_unit, ret_int in R; (eapply X in R; [exact R|intro; exact I]).
Qed.
Lemma plain_view v a b : plain_rv v -> view_rv a v = view_rv b v.
Proof. destruct v; cbn; auto; contradiction. Qed.

Theorem v1_sequential pol s c : WF s -> mu s = false -> valid_call2 s c -> seq1 c ->
  (match c with At2 _ (PWriteBytes d) => apart s d | _ => True end) ->
  match seq_call1 (view_call2 (heap s) c) (abs s) with
  | Some o => outcome_of (run (v1_call pol c) s) o
  | None => True
  end.
Proof.
  intros W M V S1 Ap. pose proof (v2_sequential pol s c W M V Ap) as Q.
  assert (E1 : do1_call pol c = Some (v1_call pol c)).
  { unfold v1_call. destruct c; try contradiction; reflexivity. }
  assert (K : common_call s c -> forall o, outcome_of (run (do2_call pol c) s) o -> outcome_of (run (v1_call pol c) s) o).
  { intros C o O. pose proof (v1_call_agrees pol s c _ W M V C E1) as SR.
    pose proof (v1_call_safe pol s c _ W M V E1) as LS.
    pose proof (seq1_plain2 pol c s) as P2.
    destruct (run (v1_call pol c) s) as [v1 s1|e1 s1|s1|], (run (do2_call pol c) s) as [v2 s2|e2 s2|s2|];
      cbn [same_res outcome_of lock_ok] in *; try contradiction.
    - destruct SR as [-> SV]. destruct O as (-> & W2 & M2). pose proof SV as (_ & Mu & _).
      rewrite (same_visible_abs _ _ W2 SV). rewrite (plain_view v2 s1 s2) by eauto. split; [reflexivity|exact LS].
    - destruct SR as [-> SV]. destruct O as (-> & W2 & M2). pose proof SV as (_ & Mu & _).
      rewrite (same_visible_abs _ _ W2 SV). split; auto. split; [destruct e2; apply LS|rewrite Mu; auto]. }
  assert (AB : (c = KClearAllBits \/ c = KSetAllBits \/ c = KFlipAllBits) \/ ~ (c = KClearAllBits \/ c = KSetAllBits \/ c = KFlipAllBits)).
  { destruct c; try (right; intros [|[|]]; discriminate); left; auto. }
  destruct AB as [AB|AB].
  - destruct (Z.eqb_spec (zlen (content s)) 0) as [Z0|Z0].
    + assert (R : run (v1_call pol c) s = Done RUnit s).
      { destruct AB as [-> |[-> | ->]]; unfold v1_call; cbn [do1_call]; unfold ret_unit; rewrite run_bind;
          [rewrite v1_ClearAllBits by auto|rewrite v1_SetAllBits by auto|rewrite v1_FlipAllBits by auto];
          rewrite Z0; reflexivity. }
      rewrite R. assert (C0 : content s = []) by (destruct (content s) as [|x l]; auto; rewrite zlen_cons in Z0; pose proof (zlen_nonneg l); lia).
      assert (A0 : forall f, set_bytes (abs s) (map f (a_bytes (abs s))) = abs s).
      { intro f. cbn [abs a_bytes]. rewrite C0. unfold set_bytes, abs. cbn. rewrite C0. reflexivity. }
      destruct AB as [-> |[-> | ->]]; cbn [view_call2 seq_call1]; rewrite A0; cbn [outcome_of view_rv]; auto.
    + assert (C1 : common_call s c).
      { pose proof (zlen_nonneg (content s)). destruct AB as [-> |[-> | ->]]; cbn; lia. }
      destruct AB as [-> |[-> | ->]]; cbn [view_call2 seq_call1 seq_call] in *; cbn [abs a_bytes] in Q;
        replace (zlen (content s) =? 0) with false in Q by lia; apply K; auto.
  - assert (C1 : common_call s c).
    { destruct c as [off o|o| | | | | | | | | | | | | | | | | ]; try contradiction; try exact I; try (exfalso; tauto).
      destruct o; try contradiction; exact I. }
    replace (seq_call1 (view_call2 (heap s) c) (abs s)) with (seq_call (view_call2 (heap s) c) (abs s)).
    + destruct (seq_call _ _); auto.
    + destruct c as [off o|o| | | | | | | | | | | | | | | | | ]; try contradiction; try reflexivity; try (exfalso; tauto).
      destruct o; try contradiction; reflexivity.
Qed.

(** ** Shapes *)

Section V1Shapes.
Variable hdr : slice.
Variable single : bool.
Variable rd : nat -> Prop.
Hypothesis rd_hdr : rd (s_blk hdr).

Lemma sec_fl {S} n (b : Z -> S -> prog S) u (E : bool -> S -> Prop) :
  (forall w i a, sec hdr single rd false w (fun _ _ => True) (b i a)) -> (forall w a, E w a) ->
  forall fuel w i a, sec hdr single rd u w E (fl fuel n b i a).
Proof.
  intros H HE. induction fuel as [|f IH]; intros w i a; cbn [fl]; destruct (_ <? _); try (cbn; auto; fail).
  eapply sec_bind; [|apply H]. intros w' a' _. apply IH.
Qed.
Lemma shape_fill1 f : single = false ->
  shape hdr single rd false (locked (s <- get_buf ;; for_loop (s_len s) (fun i (_ : unit) => buf_set i f) tt)).
Proof.
  intro S. apply (shape_locked hdr single rd any). cbn [get_buf bind ConcLemmas.sec]. apply sec_fl; [|exact (fun _ _ => I)].
  intros. apply sec_buf_set; [congruence|exact I].
Qed.
Lemma shape_flipall1 : single = false -> shape hdr single rd false V1Buffer.flipallbits.
Proof.
  intro S. apply (shape_locked hdr single rd any). cbn [get_buf bind ConcLemmas.sec]. apply sec_fl; [|exact (fun _ _ => I)].
  intros. apply (sec_bind hdr single rd any); [|apply sec_buf_get; auto; intro; exact I].
  intros. apply sec_buf_set; [congruence|exact I].
Qed.
End V1Shapes.

(** ** Work in memory of its own *)

Definition priv_mem := list (nat * list Z).
Inductive priv_to {A} (Q : priv_mem -> A -> Prop) : priv_mem -> prog A -> Prop :=
| priv_ret K a : Q K a -> priv_to Q K (Ret a)
| priv_alloc K l k : Forall is_byte l -> zlen l <= maxAlloc ->
    (forall n, ~ In n (map fst K) -> priv_to Q ((n, l) :: K) (k n)) -> priv_to Q K (Alloc l k)
| priv_store K n l i v k : In (n, l) K -> 0 <= i < zlen l -> is_byte v ->
    priv_to Q (update n (splice l (Z.to_nat i) [v]) K) k -> priv_to Q K (Store n i v k)
| priv_load K n l i k : In (n, l) K -> 0 <= i < zlen l -> priv_to Q K (k (nth (Z.to_nat i) l 0)) -> priv_to Q K (Load n i k).
Notation priv K p Q := (priv_to Q K p).

Lemma priv_bind {A B} K (p : prog A) R (f : A -> prog B) Q :
  priv K p R -> (forall K' a, R K' a -> priv K' (f a) Q) -> priv K (bind p f) Q.
Proof.
  intros P H. induction P; cbn [bind]; auto.
  - now apply priv_alloc.
  - eapply priv_store; eauto.
  - eapply priv_load; eauto.
Qed.

Lemma priv_weaken {A} K (p : prog A) (R Q : priv_mem -> A -> Prop) :
  priv K p R -> (forall K' a, R K' a -> Q K' a) -> priv K p Q.
Proof.
  intros P H. induction P.
  - constructor; auto.
  - apply priv_alloc; auto.
  - eapply priv_store; eauto.
  - eapply priv_load; eauto.
Qed.

Section PrivPre.
Variables (seq : call2 slice -> abuf -> answer -> abuf -> Prop) (poisoner : call2 slice -> err -> Prop).
Variables (hdr : slice) (single : bool) (h0 : heap_t).

Lemma pre_priv {A B} c K (p : prog A) R (f : A -> prog B) (g : B -> prog (rv slice)) :
  priv K p R -> (forall K' a, R K' a -> Pre seq poisoner hdr single h0 c K' (bind (f a) g)) ->
  Pre seq poisoner hdr single h0 c K (bind (bind p f) g).
Proof.
  intros P H. induction P; cbn [bind]; auto.
  - now apply Pre_alloc.
  - eapply Pre_store; eauto.
  - eapply Pre_load; eauto.
Qed.
End PrivPre.

Lemma in_update n l x K : In (n, x) K -> In (n, l) (update n l K).
Proof. intro H. apply in_map_iff. exists (n, x). cbn. now rewrite Nat.eqb_refl. Qed.
Lemma in_update_other n l m x K : In (m, x) K -> m <> n -> In (m, x) (update n l K).
Proof.
  intros H N. apply in_map_iff. exists (m, x). cbn. split; auto.
  destruct (Nat.eqb_spec m n); congruence.
Qed.

(** Stores into and loads from a block. *)
Lemma priv_set n L l j v K (Q : priv_mem -> unit -> Prop) : In (n, l) K -> zlen l = L -> 0 <= j < L -> is_byte v ->
  Q (update n (put l j [v]) K) tt -> priv K (slice_set (block n L) j v) Q.
Proof.
  intros Hin HL Hj Hv H. unfold slice_set, block; cbn [s_len s_blk s_off].
  replace ((0 <=? j) && (j <? L)) with true by lia. rewrite Z.add_0_l.
  eapply priv_store; eauto. lia. constructor. exact H.
Qed.
Lemma priv_get n L l j K (Q : priv_mem -> Z -> Prop) : In (n, l) K -> zlen l = L -> 0 <= j < L ->
  Q K (byte_at l j) -> priv K (slice_get (block n L) j) Q.
Proof.
  intros Hin HL Hj H. unfold slice_get, block; cbn [s_len s_blk s_off].
  replace ((0 <=? j) && (j <? L)) with true by lia. rewrite Z.add_0_l.
  eapply priv_load; eauto. lia. constructor. exact H.
Qed.

(** What is known of the blocks other than [n] stays known. *)
Definition keeps (n : nat) (K K' : priv_mem) : Prop := forall m x, In (m, x) K -> m <> n -> In (m, x) K'.
Lemma keeps_update n l K : keeps n K (update n l K).
Proof. intros m x H N. now apply in_update_other. Qed.
Lemma keeps_trans n a b c : keeps n a b -> keeps n b c -> keeps n a c.
Proof. intros X Y m x H N. apply Y; auto. Qed.

Lemma priv_store_all n L xs : forall k a K,
  In (n, a) K -> zlen a = L -> 0 <= k -> k + zlen xs <= L -> Forall is_byte xs ->
  priv K (GoBinary.store_all (block n L) k xs) (fun K' _ => In (n, put a k xs) K' /\ keeps n K K').
Proof.
  induction xs as [|x xs IH]; intros k a K Hin HL Hk Hs Hb; cbn [GoBinary.store_all].
  - constructor. rewrite put_nil. split; auto. intros m y H _. exact H.
  - inversion Hb as [|? ? B1 B2]; subst. rewrite zlen_cons in *. pose proof (zlen_nonneg xs).
    assert (Lp : zlen (put a k [x]) = zlen a) by (rewrite put_length; auto; change (zlen [x]) with 1; lia).
    eapply priv_bind.
    + apply (priv_set n (zlen a) a k x K (fun K' _ => K' = update n (put a k [x]) K)); auto. lia.
    + cbv beta. intros K' [] ->.
      eapply priv_weaken; [apply (IH (k + 1) (put a k [x]))|]; auto; try lia.
      * eapply in_update; eauto.
      * cbv beta. intros K' _ [H1 H2]. split.
        -- change (x :: xs) with ([x] ++ xs). rewrite <- put_put_adj by (change (zlen [x]) with 1; lia). exact H1.
        -- eapply keeps_trans; [apply keeps_update|exact H2].
Qed.

Lemma priv_copy_digits nd nt d w i n : forall k a K,
  nd <> nt -> In (nd, a) K -> In (nt, d) K -> Forall is_byte d ->
  zlen d = w -> Z.of_nat k + Z.of_nat n = w -> w <= 8 -> 0 <= i * w <= 2 ^ 60 -> (i + 1) * w <= zlen a ->
  priv K (V1Buffer.copy_digits (block nd (zlen a)) (block nt w) w i (map Z.of_nat (seq k n)))
    (fun K' _ => In (nd, put a (Z.of_nat k + i * w) (sub d (Z.of_nat k) (Z.of_nat n))) K').
Proof.
  induction n as [|n IH]; intros k a K N Ia It Bd Hd Hk Hw Hi Ha; cbn [seq map V1Buffer.copy_digits].
  - constructor. replace (sub d (Z.of_nat k) (Z.of_nat 0)) with (@nil Z) by reflexivity. now rewrite put_nil.
  - rewrite mul64_id by (unfold is_i64; lia). rewrite add64_id by (unfold is_i64; lia).
    eapply priv_bind; [apply (priv_get nt w d (Z.of_nat k) K (fun K' x => K' = K /\ x = byte_at d (Z.of_nat k))); auto; lia|].
    cbv beta. intros K' x [-> ->].
    set (v := byte_at d (Z.of_nat k)).
    assert (Bv : is_byte v).
    { apply (proj1 (Forall_forall _ _) Bd). unfold v, byte_at. apply nth_In. unfold zlen in Hd. lia. }
    set (a1 := put a (Z.of_nat k + i * w) [v]).
    assert (L1 : zlen a1 = zlen a) by (apply put_length; change (zlen [v]) with 1; lia).
    eapply priv_bind.
    + apply (priv_set nd (zlen a) a (Z.of_nat k + i * w) v K (fun K' _ => K' = update nd a1 K)); auto. lia.
    + cbv beta. intros K' [] ->. rewrite <- L1. eapply priv_weaken; [apply IH|]; auto; try lia.
      * eapply in_update; eauto.
      * apply in_update_other; auto.
      * cbv beta. intros K' _ H. revert H. unfold a1.
        replace (sub d (Z.of_nat k) (Z.of_nat (S n))) with ([v] ++ sub d (Z.of_nat (S k)) (Z.of_nat n)).
        -- rewrite <- put_put_adj by (change (zlen [v]) with 1; rewrite ?sub_length; lia).
           change (zlen [v]) with 1. replace (Z.of_nat k + i * w + 1) with (Z.of_nat (S k) + i * w) by lia. auto.
        -- replace (Z.of_nat (S n)) with (1 + Z.of_nat n) by lia.
           rewrite sub_app_split by lia. rewrite sub_one by lia. unfold v. do 2 f_equal. lia.
Qed.

Lemma priv_for n (b : Z -> unit -> prog unit) (I : Z -> priv_mem -> Prop) K : 0 <= n < 2 ^ 62 ->
  (forall i K, 0 <= i < n -> I i K -> priv K (b i tt) (fun K' _ => I (i + 1) K')) ->
  I 0 K -> priv K (for_loop n b tt) (fun K' _ => I n K').
Proof.
  intros Hn Hb. unfold for_loop.
  assert (X : forall fuel i K, 0 <= i <= n -> n - i <= Z.of_nat fuel -> I i K -> priv K (fl fuel n b i tt) (fun K' _ => I n K')).
  { induction fuel as [|f IH]; intros i K' Hi Hf HI; cbn [fl].
    - replace (i <? n) with false by lia. constructor. replace n with i by lia. exact HI.
    - destruct (Z.ltb_spec i n).
      + eapply priv_bind; [apply Hb; [lia|exact HI]|]. cbv beta. intros K2 [] H2.
        rewrite add64_id by (unfold is_i64; lia). apply IH; auto; lia.
      + constructor. replace n with i by lia. exact HI. }
  intro H. apply X; auto; lia.
Qed.

(** The byte slice WriteComplex builds: a block of its own with the encoding. *)
Theorem priv_complex_bytes t l K : wf_data (tsize (fmt t)) l ->
  priv K (V1Buffer.complex_bytes (idata_of t l) (tsize (fmt t)) (order_of t))
    (fun K' d => exists n, d = block n (zlen l * tsize (fmt t)) /\ In (n, encode_all (fmt t) l) K').
Proof.
  intro Hd. pose proof (tsize_pos (fmt t)) as TP. pose proof (zlen_nonneg l) as Ln.
  assert (T8 : tsize (fmt t) <= 8) by lia.
  unfold wf_data in Hd. pose proof max_alloc_val as MV. rewrite complex_bytes_canon.
  set (w := tsize (fmt t)) in *.
  assert (0 <= zlen l * w) by (apply Z.mul_nonneg_nonneg; lia).
  rewrite mul64_id by (unfold is_i64; lia). replace (w * zlen l) with (zlen l * w) by ring.
  set (N := zlen l * w) in *. unfold make_bytes.
  replace ((0 <=? N) && (N <=? N) && (N <=? maxAlloc)) with true by lia.
  assert (Z0 : zlen (zeros N) = N) by (apply zlen_zeros; lia).
  cbn [bind]. apply priv_alloc.
  { unfold zeros. apply Forall_forall. intros x X. apply repeat_spec in X as ->. unfold is_byte. lia. }
  { lia. }
  intros n Fn. change (mkSlice n 0 N N) with (block n N).
  set (J := fun i (K' : priv_mem) => In (n, put (zeros N) 0 (encode_all (fmt t) (firstn (Z.to_nat i) l))) K').
  apply (priv_bind _ _ (fun K' _ => J (zlen l) K')).
  2:{ cbv beta. intros K' [] H1. constructor. exists n. split; auto. unfold J in H1.
      rewrite (firstn_all2 l) in H1 by (unfold zlen; lia).
      rewrite put_zeros in H1 by (rewrite encode_all_zlen; fold w N; lia).
      rewrite encode_all_zlen in H1. fold w N in H1. rewrite Z.sub_diag in H1. cbn [zeros] in H1. now rewrite app_nil_r in H1. }
  unfold V1Buffer.put_loop. apply priv_for.
  - lia.
  - intros i K' Hi HJ. unfold J in HJ.
    assert (0 <= i * w) by (apply Z.mul_nonneg_nonneg; lia).
    assert ((i + 1) * w <= N) by (unfold N; apply Z.mul_le_mono_nonneg_r; lia).
    assert (Ew : (i + 1) * w = i * w + w) by ring.
    set (pre := firstn (Z.to_nat i) l) in *.
    assert (Le : zlen (encode_all (fmt t) pre) = i * w).
    { unfold pre. rewrite encode_all_zlen, firstn_zlen by lia. reflexivity. }
    set (a := put (zeros N) 0 (encode_all (fmt t) pre)) in *.
    assert (La : zlen a = N) by (unfold a; rewrite put_length; lia).
    set (z0 := map (fun _ : Z => 0) (digits w)).
    assert (Lz : zlen z0 = w).
    { unfold z0, digits, zlen. rewrite !map_length, seq_length. lia. }
    unfold lit_bytes. cbn [bind]. apply priv_alloc.
    { apply Forall_forall. intros x X. apply in_map_iff in X as (y & <- & _). unfold is_byte. lia. }
    { lia. }
    intros m Fm. rewrite Lz. change (mkSlice m 0 w w) with (block m w).
    assert (Nm : n <> m).
    { intros ->. apply Fm. apply (in_map fst _ _ HJ). }
    unfold elem. replace ((0 <=? i) && (i <? zlen l)) with true by lia. cbn [bind]. set (v := nth (Z.to_nat i) l 0).
    rewrite puts_encode.
    assert (LE : zlen (encode (fmt t) v) = w) by apply encode_zlen.
    eapply priv_bind; [apply (priv_store_all m w (encode (fmt t) v) 0 z0)|]; auto; try lia.
    { now left. } { apply encode_bytes. }
    cbv beta. intros K2 [] [G1 G2].
    assert (Pz : put z0 0 (encode (fmt t) v) = encode (fmt t) v).
    { unfold put. change (Z.to_nat 0) with O. cbn [firstn app].
      rewrite skipn_all2 by (unfold zlen in *; simpl; lia). apply app_nil_r. }
    rewrite Pz in G1. unfold digits. rewrite <- La.
    eapply priv_weaken.
    + apply (priv_copy_digits n m (encode (fmt t) v) w i (Z.to_nat w) 0 a K2); auto; try lia.
      * apply G2; auto. now right.
      * apply encode_bytes.
    + cbv beta. intros K3 _ H3. unfold J. change (Z.of_nat 0) with 0 in H3. rewrite Z2Nat.id in H3 by lia.
      rewrite (sub_all _ w) in H3 by lia. rewrite encode_all_firstn_S by lia. fold v. fold pre.
      rewrite <- put_put_adj by lia. rewrite Le. exact H3.
  - unfold J. change (Z.to_nat 0) with O. cbn [firstn encode_all flat_map]. rewrite put_nil. now left.
Qed.

(** ** Every call of the class is ready to be interleaved *)

Section V1Pre.
Variable pol : Z -> Z -> Z.
Variable s0 : St.
Hypothesis s0_wf : WF s0.

Notation hdr := (b_buf (bb s0)).
Notation h0 := (heap s0).

Lemma sem_call1 K c : seq1 c -> valid_call2 s0 c -> arg_apart s0 c ->
  Sem (seq_v1 h0) keeps_mutex hdr h0 c false K (v1_call pol c).
Proof.
  intros NN V A s W Hb Kn M.
  assert (NN2 : no_next c).
  { destruct c as [off o|o| | | | | | | | | | | | | | | | | ]; try contradiction; try exact I. destruct o; try contradiction; exact I. }
  destruct (knows_call s0 K s c Kn Hb NN2 V A) as (V' & E & A').
  pose proof (v1_sequential pol s c W M V' NN A') as Q.
  assert (E1 : do1_call pol c = Some (v1_call pol c)).
  { unfold v1_call. destruct c; try contradiction; reflexivity. }
  pose proof (v1_call_safe pol s c _ W M V' E1) as L.
  rewrite E in Q. unfold fits, seq_v1.
  pose proof (seq1_plain pol c s) as P.
  destruct (seq_call1 (view_call2 h0 c) (abs s)) as [o|] eqn:SQ.
  2:{ destruct c as [off o|o| | | | | | | | | | | | | | | | | ]; try contradiction; try discriminate.
      destruct o; try contradiction; discriminate. }
  destruct (run (v1_call pol c) s) as [v s'|e s'|s'|]; cbn [outcome_of] in Q; try contradiction.
  - destruct Q as (-> & W' & M'). split; auto. split; [eapply P; eauto|auto].
  - destruct Q as (-> & W' & M'). split; auto. split; auto. intro X. split; auto.
    destruct e as [sc er|k]; cbn [lock_ok] in L; destruct L as [_ L]; congruence.
Qed.

(** WriteComplex: first the bytes, then the write. *)
Lemma pre_complex off t d : is_i64 off -> wf_data (tsize (fmt t)) d ->
  Pre (seq_v1 h0) keeps_mutex hdr false h0 (At2 off (PWrite t d)) [] (v1_call pol (At2 off (PWrite t d))).
Proof.
  intros Ho Hd. pose proof (tsize_pos (fmt t)) as TP. pose proof (zlen_nonneg d) as Ld.
  unfold v1_call. cbn [do1_call do1_at]. unfold ret_unit, V1Buffer.WriteComplex, V1Buffer.writeComplex.
  eapply pre_priv; [now apply priv_complex_bytes|]. cbv beta.
  intros K x (n & -> & Hin). set (L := zlen d * tsize (fmt t)) in *.
  assert (EZ : zlen (encode_all (fmt t) d) = L) by apply encode_all_zlen.
  apply Pre_ready.
  - intros s W Hb Kn M. destruct (knows_in _ _ _ _ _ _ Kn Hin) as (N1 & _ & N2).
    assert (Nn : nth n (heap s) [] = encode_all (fmt t) d) by (now apply nth_error_nth).
    assert (Wd : wf_slice (heap s) (block n L)).
    { unfold wf_slice, block; cbn [s_blk s_off s_len s_cap]. rewrite Nn, EZ. split; [apply nth_error_Some; congruence|]. unfold L. nia. }
    assert (Sd : slice_bytes (heap s) (block n L) = encode_all (fmt t) d).
    { unfold slice_bytes, block; cbn [s_blk s_off s_len s_cap]. rewrite Nn. apply sub_all. lia. }
    assert (R : outcome_of (run (ret_unit (V2Buffer.WriteBytes off (block n L))) s) (seq_store off (encode_all (fmt t) d) (abs s))).
    { apply (store_outcome s off _ _ s); auto. apply encode_all_bytes.
      rewrite v2_WriteBytes by auto. change (s_len (block n L)) with L. rewrite Sd, EZ.
      rewrite smear_clean; auto. left. unfold lag. replace (Nat.eqb _ _) with false; auto.
      symmetry. apply Nat.eqb_neq. now rewrite Hb. }
    change (bind (V1Buffer.write off (block n L)) (fun _ => Ret RUnit)) with (ret_unit (V2Buffer.WriteBytes off (block n L))).
    unfold fits, seq_v1. cbn [view_call2 view_op2 seq_call1 seq_call seq_at].
    assert (P : match run (ret_unit (V2Buffer.WriteBytes off (block n L))) s with Done v _ => plain_rv v | _ => True end).
    { unfold ret_unit. rewrite run_bind. destruct (run (V2Buffer.WriteBytes off (block n L)) s); cbn; auto. }
    destruct (run (ret_unit (V2Buffer.WriteBytes off (block n L))) s) as [w s'|e s'|s'|]; cbn [outcome_of] in R; try contradiction.
    + destruct R as (-> & W' & M'). auto.
    + destruct R as (-> & W' & M'). split; auto. split; auto. intro X. split; auto.
  - apply shape_wrap; [intro; exact I|].
    apply shape_write; [right; right; apply (in_map fst _ _ Hin)|now left].
Qed.

(** The sequential object is the same for WriteByte. *)
Lemma pre_seq (seq seq' : call2 slice -> abuf -> answer -> abuf -> Prop) poi sg c :
  (forall a r a', seq c a r a' -> seq' c a r a') ->
  forall K p, Pre seq poi hdr sg h0 c K p -> Pre seq' poi hdr sg h0 c K p.
Proof.
  intros H K p P. induction P.
  - apply Pre_ready; auto. intros s W Hb Kn M. specialize (H0 s W Hb Kn M). unfold fits in *.
    destruct (run p s); intuition.
  - apply Pre_alloc; auto.
  - eapply Pre_store; eauto.
  - eapply Pre_load; eauto.
Qed.

Lemma pre_writebyte1 single off v : is_i64 off -> is_byte v ->
  Pre (seq_v1 h0) keeps_mutex hdr single h0 (At2 off (PWriteByte v)) [] (v1_call pol (At2 off (PWriteByte v))).
Proof.
  intros Ho Hv. apply (pre_seq (seq_v2 h0)). { intros a r a' H. exact H. }
  exact (pre_writebyte pol s0 single off v Ho Hv).
Qed.

Ltac packed := apply shape_wrap; [intro; exact I|].

Lemma pre_atomic1 c : valid_call2 s0 c -> atomic_call1 s0 c ->
  Pre (seq_v1 h0) keeps_mutex hdr false h0 c [] (v1_call pol c).
Proof.
  intros V A. pose proof (hdr_small s0 s0_wf) as HS.
  assert (G : seq1 c -> arg_apart s0 c -> shape hdr false (rd hdr h0 []) false (v1_call pol c) ->
    Pre (seq_v1 h0) keeps_mutex hdr false h0 c [] (v1_call pol c)).
  { intros. apply Pre_ready; auto. now apply sem_call1. }
  destruct c as [off o|o| | | | | | | | | | | | | | | | | ]; try contradiction;
    [destruct o; try contradiction|..].
  5: { apply pre_writebyte1; apply V. }
  5: { apply pre_complex; apply V. }
  all: apply G; try exact I; try exact A;
    unfold v1_call; cbn [do1_call do1_at]; unfold ret_unit, ret_int; packed.
  - apply shape_readbit; now left.
  - apply shape_setbit; now left.
  - apply shape_flipbit; now left.
  - apply shape_write; auto. right. left. apply V.
  - now apply shape_fill1.
  - now apply shape_fill1.
  - apply shape_flipall1; auto. now left.
  - apply shape_seekbit.
  - apply shape_seek.
  - apply shape_afterbit.
  - apply shape_after.
  - apply shape_alignbit.
  - apply shape_alignbyte.
  - now apply shape_refresh.
  - reflexivity.
  - reflexivity.
  - cbn. auto.
  - cbn. auto.
Qed.

Lemma pre_single1 c : valid_call2 s0 c -> single_call1 s0 c ->
  Pre (seq_v1 h0) keeps_mutex hdr true h0 c [] (v1_call pol c).
Proof.
  intros V A. pose proof (hdr_small s0 s0_wf) as HS.
  assert (G : seq1 c -> arg_apart s0 c -> shape hdr true (rd hdr h0 []) false (v1_call pol c) ->
    Pre (seq_v1 h0) keeps_mutex hdr true h0 c [] (v1_call pol c)).
  { intros. apply Pre_ready; auto. now apply sem_call1. }
  destruct c as [off o|o| | | | | | | | | | | | | | | | | ]; try contradiction;
    [destruct o; try contradiction|..].
  5: { apply pre_writebyte1; apply V. }
  all: apply G; try exact I; try exact (proj1 A);
    unfold v1_call; cbn [do1_call do1_at]; unfold ret_unit, ret_int; packed.
  - apply shape_readbit; now left.
  - apply shape_setbit; now left.
  - apply shape_flipbit; now left.
  - apply shape_write; [right; left; apply V|right; apply A].
  - apply (shape_ReadByte hdr true (rd hdr h0 [])); auto.
  - apply shape_seekbit.
  - apply shape_seek.
  - apply shape_afterbit.
  - apply shape_after.
  - apply shape_alignbit.
  - apply shape_alignbyte.
  - now apply shape_refresh.
  - reflexivity.
  - reflexivity.
  - cbn. auto.
  - cbn. auto.
Qed.
End V1Pre.
