(** * ConcInv: the linearizability invariant. *)
From Coq Require Import ZArith List Bool Lia Arith.
From Verif Require Import GoSem Errors Spec GoLemmas Calls Abs Frame Sim V3ByteLemmas History LockLemmas OldCalls V2Lemmas Conc ConcLemmas.
Import ListNotations.
Open Scope Z_scope.

Lemma set_q_same {C} (q : nat -> pending C) t x : set_q q t x t = x.
Proof. unfold set_q. now rewrite Nat.eqb_refl. Qed.
Lemma set_q_other {C} (q : nat -> pending C) t x u : u <> t -> set_q q t x u = q u.
Proof. intro N. unfold set_q. destruct (Nat.eqb_spec u t); congruence. Qed.

Lemma abs_set_mu s m : abs (set_mu s m) = abs s.
Proof. reflexivity. Qed.

Lemma nth_split_at (l : list Z) n : (n < length l)%nat -> skipn n l = nth n l 0 :: skipn (S n) l.
Proof.
  revert n. induction l as [|x l IH]; intros [|n] H; cbn [length] in H; try lia; auto. cbn [skipn nth]. rewrite IH by lia. reflexivity.
Qed.

Section Lin.

Context {call : Type} (body : call -> prog (rv slice)).
(** The sequential specification. *)
Variable seq : call -> abuf -> answer -> abuf -> Prop.
(** Which panics of which calls may keep the mutex. *)
Variable poisoner : call -> err -> Prop.
(** The calls the goroutines make. *)
Variable ok : call -> Prop.
Variable hdr : slice.
Variable single : bool.
(** The memory at the start: only the buffer's block may change. *)
Variable h0 : heap_t.

Definition plain_rv (v : rv slice) : Prop := match v with RBytes _ => False | _ => True end.
Lemma plain_view v s s' : plain_rv v -> view_rv s v = view_rv s' v.
Proof. destruct v; cbn; tauto. Qed.

(** What a goroutine knows of the memory outside the buffer. *)
Definition knows (K : list (nat * list Z)) (h : heap_t) : Prop :=
  (forall b, b <> s_blk hdr -> (b < length h0)%nat -> nth_error h b = nth_error h0 b) /\
  Forall (fun nl => fst nl <> s_blk hdr /\ (length h0 <= fst nl)%nat /\ nth_error h (fst nl) = Some (snd nl)) K.

(** The blocks it reads: the buffer, the memory at the start, its own. *)
Definition rd (K : list (nat * list Z)) (n : nat) : Prop :=
  n = s_blk hdr \/ (n < length h0)%nat \/ In n (map fst K).

(** The outcome [r] of a solo run is what the specification says of [c] on [a]. *)
Definition fits (c : call) (a : abuf) (r : res (rv slice)) : Prop :=
  match r with
  | Done v s' => seq c a (Returned (view_rv s' v)) (abs s') /\ plain_rv v /\ WF s' /\ mu s' = false
  | Panicked e s' => seq c a (Raised e) (abs s') /\ WF s' /\ (mu s' = true -> poisoner c e)
  | _ => False
  end.

Definition Sem (c : call) (m : bool) K (p : prog (rv slice)) : Prop :=
  forall s, WF s -> b_buf (bb s) = hdr -> knows K (heap s) -> mu s = m -> fits c (abs s) (run p s).

(** Its blocks [K] after a write of [l] to block [n]. *)
Definition update (n : nat) (l : list Z) (K : list (nat * list Z)) : list (nat * list Z) :=
  map (fun x => if Nat.eqb (fst x) n then (n, l) else x) K.

(** A call that has had no effect yet and does not hold the mutex: it may allocate,
    and read and write the blocks it has allocated, before it is ready. *)
Inductive Pre (c : call) : list (nat * list Z) -> prog (rv slice) -> Prop :=
| Pre_ready K p : Sem c false K p -> shape hdr single (rd K) false p -> Pre c K p
| Pre_alloc K l k : Forall is_byte l -> zlen l <= maxAlloc ->
    (forall n, ~ In n (map fst K) -> Pre c ((n, l) :: K) (k n)) -> Pre c K (Alloc l k)
| Pre_store K n l i v k : In (n, l) K -> 0 <= i < zlen l -> is_byte v ->
    Pre c (update n (splice l (Z.to_nat i) [v]) K) k -> Pre c K (Store n i v k)
| Pre_load K n l i k : In (n, l) K -> 0 <= i < zlen l -> Pre c K (k (nth (Z.to_nat i) l 0)) -> Pre c K (Load n i k).

(** A call that has taken effect: [G] is the state it will leave. *)
Definition final (c : call) (r : answer) (G : St) (x : res (rv slice)) : Prop :=
  match x with
  | Done v s' => r = Returned (view_rv s' v) /\ plain_rv v /\ set_mu s' false = G /\ mu s' = false
  | Panicked e s' => r = Raised e /\ set_mu s' false = G /\ (mu s' = true -> poisoner c e)
  | _ => False
  end.

Definition ends (p : prog (rv slice)) (r : answer) : Prop :=
  match p with
  | Ret v => plain_rv v /\ forall s, r = Returned (view_rv s v)
  | Panic e => r = Raised e
  | _ => False
  end.

Notation SEC K w p := (sec hdr single (rd K) true w (fun _ _ => False) p).

(** Where goroutine [g] is; the flag says whether it holds the mutex. *)
Inductive tst (s G : St) (K : list (nat * list Z)) : bool -> goroutine call -> pending call -> Prop :=
| T_idle cs : tst s G K false (mkG cs None) Idle
| T_pre cs c p : knows K (heap s) -> Pre c K p -> tst s G K false (mkG cs (Some (c, p))) (Called c)
| T_ro cs c p : knows K (heap s) -> Sem c true K p -> shape hdr single (rd K) true p -> set_mu s false = G ->
    tst s G K true (mkG cs (Some (c, p))) (Called c)
| T_crit0 cs c p : SEC K false p -> fits c (abs G) (run p s) -> set_mu s false = G ->
    tst s G K true (mkG cs (Some (c, p))) (Called c)
| T_crit1 cs c p r : SEC K true p -> final c r G (run p s) -> tst s G K true (mkG cs (Some (c, p))) (Decided c r)
| T_fin cs c p r : ends p r -> tst s G K false (mkG cs (Some (c, p))) (Decided c r).

Definition mine (own : option nat) (t : nat) : bool :=
  match own with Some u => Nat.eqb t u | None => false end.

Definition poisoned (h : list (event call)) : Prop :=
  exists t c e, In (ERet t c (Raised e)) h /\ poisoner c e.

Variable a0 : abuf.

(** The blocks that belong to goroutines, each to one. *)
Definition separate (ks : nat -> list (nat * list Z)) (len : nat) : Prop :=
  (forall t n, In n (map fst (ks t)) -> (n < len)%nat) /\
  (forall t u n, t <> u -> In n (map fst (ks t)) -> ~ In n (map fst (ks u))).
Definition set_k (ks : nat -> list (nat * list Z)) (t : nat) (K : list (nat * list Z)) (u : nat) :=
  if Nat.eqb u t then K else ks u.

Record kinv (h : list (event call)) (cfg : config call) (G : St) (q : nat -> pending call) (own : option nat)
    (ks : nat -> list (nat * list Z)) : Prop := mkInv {
  i_atomic : atomic seq a0 h (abs G) q;
  i_wf : WF G;
  i_hdr : b_buf (bb G) = hdr;
  i_mu : mu G = false;
  i_bb : bb (sh cfg) = bb G;
  i_else : same_else hdr (heap (sh cfg)) (heap G);
  i_single : single = true -> heap (sh cfg) = heap G;
  i_base : knows [] (heap (sh cfg));
  i_own : match own with
          | None => set_mu (sh cfg) false = G /\ (mu (sh cfg) = true -> poisoned h)
          | Some t => mu (sh cfg) = true /\ (t < length (gs cfg))%nat
          end;
  i_sep : separate ks (length (heap (sh cfg)));
  i_ths : forall t g, nth_error (gs cfg) t = Some g -> Forall ok (todo g) /\ tst (sh cfg) G (ks t) (mine own t) g (q t) }.
Definition inv h cfg G q own : Prop := exists ks, kinv h cfg G q own ks.

(** ** Stability *)

Lemma knows_else K h h' : same_else hdr h h' -> knows K h -> knows K h'.
Proof.
  intros [L N] [K1 K2]. split.
  - intros b Hb Hl. rewrite <- N by auto. auto.
  - eapply Forall_impl; [|exact K2]. cbn. intros x (X1 & X2 & X3). split; auto. split; auto. rewrite <- N; auto.
Qed.
Lemma knows_app K h l : knows K h -> (length h0 <= length h)%nat -> knows K (h ++ [l]).
Proof.
  intros [K1 K2] L. split.
  - intros b Hb Hl. rewrite nth_error_app1 by lia. auto.
  - eapply Forall_impl; [|exact K2]. cbn. intros x (X1 & X2 & X3). split; auto. split; auto.
    rewrite nth_error_app1; auto. apply nth_error_Some. congruence.
Qed.

Lemma tst_other s G s' G' K g x : tst s G K false g x -> (forall K, knows K (heap s) -> knows K (heap s')) ->
  tst s' G' K false g x.
Proof. intros T H. inversion T; subst; econstructor; eauto. Qed.

Lemma final_alloc c r G x l : final c r G x -> final c r (alloc G l) (res_alloc l x).
Proof.
  destruct x as [v s'|e s'|s'|]; cbn; auto.
  - intros (-> & P & <- & M). repeat split; auto. now rewrite (plain_view v s' (alloc s' l)).
  - intros (-> & <- & M). repeat split; auto.
Qed.
Lemma fits_alloc c a x l : fits c a x -> Forall is_byte l -> zlen l <= maxAlloc -> fits c a (res_alloc l x).
Proof.
  destruct x as [v s'|e s'|s'|]; cbn; auto.
  - intros (S & P & W & M) B L. rewrite abs_alloc by auto. rewrite (plain_view v (alloc s' l) s') by auto.
    split; [auto|split; [auto|split; [now apply alloc_WF|auto]]].
  - intros (S & W & M) B L. rewrite abs_alloc by auto. split; [auto|split; [now apply alloc_WF|auto]].
Qed.
Lemma fits_stuck c a x : fits c a x -> x <> Stuck.
Proof. destruct x; cbn; congruence || tauto. Qed.
Lemma final_stuck c r G x : final c r G x -> x <> Stuck.
Proof. destruct x; cbn; congruence || tauto. Qed.

Lemma tst_alloc s G K m g x l : WF G -> hok hdr s -> (length h0 <= length (heap s))%nat ->
  Forall is_byte l -> zlen l <= maxAlloc ->
  tst s G K m g x -> tst (alloc s l) (alloc G l) K m g x.
Proof.
  intros W Hb HL B L T. inversion T; subst.
  - constructor.
  - econstructor; eauto. now apply knows_app.
  - econstructor; eauto. now apply knows_app.
  - apply T_crit0; auto. rewrite abs_alloc by auto.
    erewrite sec_alloc by (eauto using fits_stuck). now apply fits_alloc.
  - constructor; auto. erewrite sec_alloc by (eauto using final_stuck). now apply final_alloc.
  - constructor; auto.
Qed.

(** A goroutine writes to a block of its own. *)
Lemma knows_rewrite K h n l : (n < length h)%nat -> (length h0 <= n)%nat -> ~ In n (map fst K) ->
  knows K h -> knows K (set_nth h n l).
Proof.
  intros L H N [K1 K2]. split.
  - intros b Hb Hl. rewrite nth_error_set_nth by exact L.
    replace (Nat.eqb b n) with false by (symmetry; apply Nat.eqb_neq; lia). auto.
  - apply Forall_forall. intros x X. pose proof (proj1 (Forall_forall _ _) K2 x X) as (Y1 & Y2 & Y3).
    split; auto. split; auto. rewrite nth_error_set_nth by exact L.
    destruct (Nat.eqb_spec (fst x) n) as [E|]; auto. destruct N. rewrite <- E. now apply in_map.
Qed.
Lemma knows_in K h n l : knows K h -> In (n, l) K -> n <> s_blk hdr /\ (length h0 <= n)%nat /\ nth_error h n = Some l.
Proof. intros [_ F] I. exact (proj1 (Forall_forall _ _) F _ I). Qed.
Lemma update_fst n l K : map fst (update n l K) = map fst K.
Proof.
  unfold update. rewrite map_map. apply map_ext. intros [m x]. cbn.
  destruct (Nat.eqb_spec m n); cbn; congruence.
Qed.
Lemma knows_update K h n l : (n < length h)%nat -> (length h0 <= n)%nat -> knows K h ->
  knows (update n l K) (set_nth h n l).
Proof.
  intros L H [K1 K2]. split.
  - intros b Hb Hl. rewrite nth_error_set_nth by exact L.
    replace (Nat.eqb b n) with false by (symmetry; apply Nat.eqb_neq; lia). auto.
  - apply Forall_forall. intros x X. apply in_map_iff in X as (y & <- & X).
    pose proof (proj1 (Forall_forall _ _) K2 y X) as (Y1 & Y2 & Y3).
    destruct (Nat.eqb_spec (fst y) n) as [E|N]; cbn [fst snd]; rewrite nth_error_set_nth by exact L.
    + rewrite Nat.eqb_refl. rewrite E in Y1. auto.
    + destruct (Nat.eqb_spec (fst y) n); [congruence|auto].
Qed.
Lemma heap_read_known h n l i : nth_error h n = Some l -> 0 <= i < zlen l ->
  heap_read h n i 1 = Some [nth (Z.to_nat i) l 0].
Proof.
  intros E Hi. unfold heap_read. rewrite E. replace (_ && _) with true by lia. f_equal.
  change (Z.to_nat 1) with 1%nat. unfold zlen in Hi.
  rewrite (nth_split_at l (Z.to_nat i)) at 1 by lia. reflexivity.
Qed.
Lemma same_else_rewrite h h' n l : same_else hdr h h' -> (n < length h)%nat -> same_else hdr (set_nth h n l) (set_nth h' n l).
Proof.
  intros [L N] H. split. rewrite !length_set_nth; auto; lia.
  intros b Hb. rewrite !nth_error_set_nth by lia. destruct (Nat.eqb b n); auto.
Qed.

Lemma firstn_In' {A} (l : list A) n x : In x (firstn n l) -> In x l.
Proof. intro H. rewrite <- (firstn_skipn n l). apply in_or_app. now left. Qed.
Lemma skipn_In' {A} (l : list A) n x : In x (skipn n l) -> In x l.
Proof. intro H. rewrite <- (firstn_skipn n l). apply in_or_app. now right. Qed.
Lemma wf_heap_rewrite h n l : wf_heap h -> (n < length h)%nat -> Forall is_byte l -> zlen l <= maxAlloc ->
  wf_heap (set_nth h n l).
Proof.
  intros W L B M. unfold wf_heap in *. apply Forall_forall. intros a Ha. apply In_nth_error in Ha as [i Hi].
  rewrite nth_error_set_nth in Hi by exact L. destruct (Nat.eqb i n).
  - injection Hi as <-. auto.
  - apply (proj1 (Forall_forall _ _) W a). eapply nth_error_In; eauto.
Qed.
Lemma nth_set_nth_other (h : heap_t) n l b : (n < length h)%nat -> b <> n -> nth b (set_nth h n l) [] = nth b h [].
Proof.
  intros L N. rewrite <- !nth_default_eq. unfold nth_default. rewrite nth_error_set_nth by exact L.
  destruct (Nat.eqb_spec b n); congruence.
Qed.
Lemma rewrite_WF s n l : WF s -> s_blk (b_buf (bb s)) <> n -> (n < length (heap s))%nat ->
  Forall is_byte l -> zlen l <= maxAlloc -> WF (rewrite_block s n l).
Proof.
  intros [Wh Ws ? ? ? ?] N L B M. constructor; auto.
  - now apply wf_heap_rewrite.
  - change (wf_slice (set_nth (heap s) n l) (b_buf (bb s))). unfold wf_slice in *.
    rewrite nth_set_nth_other, length_set_nth by auto. exact Ws.
Qed.
Lemma rewrite_abs s n l : s_blk (b_buf (bb s)) <> n -> (n < length (heap s))%nat ->
  abs (rewrite_block s n l) = abs s.
Proof.
  intros N L. unfold abs, content, spare, rewrite_block, slice_bytes. cbn [bb heap set_heap].
  rewrite !nth_set_nth_other by auto. reflexivity.
Qed.

Lemma sec_keeps K u w (E : bool -> rv slice -> Prop) p st : hok hdr st -> sec hdr single (rd K) u w E p ->
  after_state (run p st) (fun s' => b_buf (bb s') = hdr /\ length (heap s') = length (heap st)).
Proof.
  revert w st. induction p; intros w st Hb; cbn [sec run]; try (intros []; fail); auto.
  - intros _. split; auto. apply Hb.
  - intros _. split; auto. apply Hb.
  - rewrite (proj1 Hb). eauto.
  - destruct f; cbn [get_fld]; eauto. rewrite (proj2 Hb). eauto.
  - intro S.
    assert (S' : exists w', sec hdr single (rd K) u w' E p). { destruct f; intuition eauto. }
    destruct S' as [w' S'].
    assert (Hb' : hok hdr (set_bb st (upd_fld (bb st) f v))).
    { destruct Hb as [Hb Hc], f; split; cbn; try assumption. apply S. }
    exact (IHp w' _ Hb' S').
  - intros [_ S]. destruct (heap_read _ _ _ _) as [[|x [|]]|]; cbn; eauto.
  - intros (S1 & S2 & S3 & S4). destruct (heap_write _ _ _ _) as [h|] eqn:EW; cbn; auto.
    destruct (heap_write_else hdr _ _ _ _ _ EW S2) as [X _]. rewrite X. exact (IHp true (set_heap st h) Hb S4).
  - intros [_ X]. destruct (mu st); cbn; auto. destruct p; cbn in *; try tauto; (split; [apply Hb|reflexivity]).
Qed.

Lemma final_rewrite c r G x n l : final c r G x -> final c r (rewrite_block G n l) (res_rewrite n l x).
Proof.
  destruct x as [v s'|e s'|s'|]; cbn; auto.
  - intros (-> & P & <- & M). repeat split; auto. now rewrite (plain_view v s' (rewrite_block s' n l)).
  - intros (-> & <- & M). repeat split; auto.
Qed.
Lemma fits_rewrite c a x n l len : fits c a x -> after_state x (fun s' => b_buf (bb s') = hdr /\ length (heap s') = len) ->
  n <> s_blk hdr -> (n < len)%nat ->
  Forall is_byte l -> zlen l <= maxAlloc -> fits c a (res_rewrite n l x).
Proof.
  intros F A N L B M. destruct x as [v s'|e s'|s'|]; cbn in *; auto; destruct A as [A1 A2].
  - destruct F as (S & P & W & Mu). rewrite rewrite_abs by (rewrite ?A1, ?A2; auto).
    rewrite (plain_view v (rewrite_block s' n l) s') by auto.
    split; auto. split; auto. split; auto. apply rewrite_WF; rewrite ?A1, ?A2; auto.
  - destruct F as (S & W & Mu). rewrite rewrite_abs by (rewrite ?A1, ?A2; auto).
    split; auto. split; auto. apply rewrite_WF; rewrite ?A1, ?A2; auto.
Qed.

Lemma tst_rewrite s G K m g x n l : hok hdr s -> WF G -> b_buf (bb G) = hdr -> length (heap G) = length (heap s) ->
  n <> s_blk hdr -> (length h0 <= n < length (heap s))%nat -> ~ In n (map fst K) ->
  Forall is_byte l -> zlen l <= maxAlloc ->
  tst s G K m g x -> tst (rewrite_block s n l) (rewrite_block G n l) K m g x.
Proof.
  intros Hb W HG LG N [L1 L2] NK B M T.
  assert (NR : ~ rd K n) by (intros [X|[X|X]]; auto; lia).
  inversion T; subst.
  - constructor.
  - constructor; auto. now apply knows_rewrite.
  - constructor; auto. now apply knows_rewrite.
  - apply T_crit0; auto. rewrite rewrite_abs by (auto; congruence).
    erewrite sec_rewrite by eauto. eapply fits_rewrite; eauto. eapply sec_keeps; eauto.
  - constructor; auto. erewrite sec_rewrite by eauto. now apply final_rewrite.
  - constructor; auto.
Qed.

(** Knowing more does no harm. *)
Lemma knows_less K K' h : incl K K' -> knows K' h -> knows K h.
Proof.
  intros I [K1 K2]. split; auto. apply Forall_forall. intros x X. apply (proj1 (Forall_forall _ _) K2). auto.
Qed.
Lemma sec_rd {A} (R R' : nat -> Prop) u (E : bool -> A -> Prop) p : (forall n, R n -> R' n) ->
  forall w, sec hdr single R u w E p -> sec hdr single R' u w E p.
Proof.
  intros H. induction p; intros w; cbn [sec]; auto; try (intros; eauto; fail).
  - destruct f; eauto.
  - destruct f; intuition.
  - intuition.
  - intuition.
Qed.
Lemma shape_rd {A} (R R' : nat -> Prop) (p : prog A) : (forall n, R n -> R' n) ->
  forall ro, shape hdr single R ro p -> shape hdr single R' ro p.
Proof.
  intros H. induction p; intros ro; cbn [shape]; auto; try (intros; eauto; fail).
  - destruct f; eauto.
  - intros [? [X|X]]; split; auto. left. eapply sec_rd; eauto.
  - intros [? ?]; split; auto.
Qed.
Lemma update_incl n l K K' : incl K K' -> incl (update n l K) (update n l K').
Proof. intros I x X. apply in_map_iff in X as (y & <- & X). apply in_map_iff. exists y. auto. Qed.

Lemma pre_more c K K' p : Pre c K p -> incl K K' -> Pre c K' p.
Proof.
  intros P. revert K'. induction P as [K p S Sh|K l k Bl Ll P IH|K n l i v k Hin Hi Hv P IH|K n l i k Hin Hi P IH]; intros K' I.
  - apply Pre_ready.
    + intros s W Hb Kn. apply S; auto. eapply knows_less; eauto.
    + eapply shape_rd; [|exact Sh]. intros n [X|[X|X]]; [now left|right; now left|right; right].
      apply in_map_iff in X as (x & <- & X). apply in_map. auto.
  - apply Pre_alloc; auto. intros n N. apply IH.
    + intro X. apply N. apply in_map_iff in X as (x & <- & X). apply in_map. auto.
    + intros x [->|X]; [now left|right; auto].
  - eapply Pre_store; eauto. apply IH. now apply update_incl.
  - eapply Pre_load; eauto.
Qed.

(** ** One step keeps the invariant *)

Lemma mine_none t : mine None t = false.
Proof. reflexivity. Qed.

(** Putting the pieces of a step of goroutine [t] together. *)
Lemma inv_update h cfg G q own ks t g h' s' G' q' own' g' K' :
  kinv h cfg G q own ks -> nth_error (gs cfg) t = Some g ->
  atomic seq a0 h' (abs G') q' -> WF G' -> b_buf (bb G') = hdr -> mu G' = false -> bb s' = bb G' ->
  same_else hdr (heap s') (heap G') -> (single = true -> heap s' = heap G') -> knows [] (heap s') ->
  match own' with
  | None => set_mu s' false = G' /\ (mu s' = true -> poisoned h')
  | Some u => mu s' = true /\ (u < length (gs cfg))%nat
  end ->
  (length (heap (sh cfg)) <= length (heap s'))%nat ->
  (forall n, In n (map fst K') -> In n (map fst (ks t)) \/ (length (heap (sh cfg)) <= n < length (heap s'))%nat) ->
  Forall ok (todo g') -> tst s' G' K' (mine own' t) g' (q' t) ->
  (forall u g, u <> t -> nth_error (gs cfg) u = Some g -> tst (sh cfg) G (ks u) (mine own u) g (q u) ->
     tst s' G' (ks u) (mine own' u) g (q' u)) ->
  inv h' (set_g cfg t s' g') G' q' own'.
Proof.
  intros I Ht A W Hb M B E S K O LE IN F T U.
  assert (L : (t < length (gs cfg))%nat) by (apply nth_error_Some; congruence).
  exists (set_k ks t K'). destruct (i_sep _ _ _ _ _ _ I) as [P1 P2].
  unfold set_g. constructor; cbn [sh gs]; auto.
  - destruct own'; auto. rewrite length_set_nth; auto.
  - split.
    + intros u n. unfold set_k. destruct (Nat.eqb_spec u t) as [->|N]; intro X.
      * destruct (IN n X) as [Y|Y]; [apply P1 in Y|]; lia.
      * apply P1 in X. lia.
    + intros u v n N. unfold set_k. destruct (Nat.eqb_spec u t) as [->|N1], (Nat.eqb_spec v t) as [->|N2];
        intros X Y; try congruence.
      * destruct (IN n X) as [Z|Z]; [exact (P2 t v n N Z Y)|]. apply P1 in Y. lia.
      * destruct (IN n Y) as [Z|Z]; [exact (P2 u t n N X Z)|]. apply P1 in X. lia.
      * exact (P2 u v n N X Y).
  - intros u x. rewrite nth_error_set_nth by auto. unfold set_k. destruct (Nat.eqb_spec u t) as [->|N].
    + intro X. injection X as <-. auto.
    + intro X. destruct (i_ths _ _ _ _ _ _ I u x X) as [F' T']. split; auto.
Qed.

(** The same with the memory as long and as owned as before. *)
Lemma inv_update_same h cfg G q own ks t g h' s' G' q' own' g' :
  kinv h cfg G q own ks -> nth_error (gs cfg) t = Some g ->
  atomic seq a0 h' (abs G') q' -> WF G' -> b_buf (bb G') = hdr -> mu G' = false -> bb s' = bb G' ->
  same_else hdr (heap s') (heap G') -> (single = true -> heap s' = heap G') -> knows [] (heap s') ->
  match own' with
  | None => set_mu s' false = G' /\ (mu s' = true -> poisoned h')
  | Some u => mu s' = true /\ (u < length (gs cfg))%nat
  end ->
  length (heap s') = length (heap (sh cfg)) ->
  Forall ok (todo g') -> tst s' G' (ks t) (mine own' t) g' (q' t) ->
  (forall u g, u <> t -> nth_error (gs cfg) u = Some g -> tst (sh cfg) G (ks u) (mine own u) g (q u) ->
     tst s' G' (ks u) (mine own' u) g (q' u)) ->
  inv h' (set_g cfg t s' g') G' q' own'.
Proof. intros. eapply inv_update; eauto. lia. Qed.

(** The state does not change and no mutex changes hands. *)
Lemma inv_local h cfg G q own ks t g h' q' g' :
  kinv h cfg G q own ks -> nth_error (gs cfg) t = Some g ->
  atomic seq a0 h' (abs G) q' -> (forall u, u <> t -> q' u = q u) ->
  (poisoned h -> poisoned h') ->
  Forall ok (todo g') -> tst (sh cfg) G (ks t) (mine own t) g' (q' t) ->
  inv h' (set_g cfg t (sh cfg) g') G q' own.
Proof.
  intros I Ht A Q P F T. pose proof I as [].
  eapply inv_update_same; eauto.
  - destruct own; intuition.
  - intros u x N X Y. now rewrite Q.
Qed.

Lemma hdr_cap G : WF G -> b_buf (bb G) = hdr -> b_cap (bb G) = s_len hdr /\ b_bcap (bb G) = 8 * s_len hdr.
Proof. intros W <-. split. apply (wf_cap G W). apply (wf_bcap G W). Qed.

Lemma poisoned_app h l : poisoned h -> poisoned (h ++ l).
Proof. intros (t & c & e & X & Y). exists t, c, e. rewrite in_app_iff. auto. Qed.

(** An ended program run in [G] by a call that fits. *)
Lemma fits_ended c a G p : ended p -> fits c a (run p G) ->
  exists r, ends p r /\ seq c a r (abs G) /\ final c r (set_mu G false) (run p G).
Proof.
  destruct p; cbn; try tauto.
  - intros _ (S & P & W & M). eexists. split; [|split; [exact S|]].
    + split; auto. intro s. f_equal. now apply plain_view.
    + auto.
  - intros _ (S & W & M). eexists. split; [reflexivity|]. split; auto.
Qed.

Lemma fits_final c a x : fits c a x -> exists r G', final c r G' x /\ seq c a r (abs G') /\ WF G' /\ mu G' = false.
Proof.
  destruct x as [v s'|e s'|s'|]; cbn; try tauto.
  - intros (S & P & W & M). do 2 eexists. split; [split; [reflexivity|split; [auto|split; [reflexivity|auto]]]|].
    split; [exact S|]. split; auto. now apply set_mu_WF.
  - intros (S & W & M). do 2 eexists. split; [split; [reflexivity|split; [reflexivity|auto]]|].
    split; [exact S|]. split; auto. now apply set_mu_WF.
Qed.
Lemma final_after c r G x : final c r G x -> after_state x (fun s' => set_mu s' false = G).
Proof. destruct x; cbn; intuition. Qed.

Lemma sem_lock c K k : Sem c false K (Lock k) -> Sem c true K k.
Proof.
  intros S s W Hb Kn M.
  specialize (S (set_mu s false) (set_mu_WF s false W) Hb Kn eq_refl). cbn [run] in S.
  change (mu (set_mu s false)) with false in S. cbv iota in S.
  change (set_mu (set_mu s false) true) with (set_mu s true) in S. rewrite (set_mu_id s true M) in S. exact S.
Qed.
Lemma sem_unlock c K k : Sem c true K (Unlock k) -> Sem c false K k.
Proof.
  intros S s W Hb Kn M.
  specialize (S (set_mu s true) (set_mu_WF s true W) Hb Kn eq_refl). cbn [run] in S.
  change (mu (set_mu s true)) with true in S. cbv iota in S.
  change (set_mu (set_mu s true) false) with (set_mu s false) in S. rewrite (set_mu_id s false M) in S. exact S.
Qed.

(** A call takes effect. *)
Ltac effect A c := eapply (at_effect _ _ _ _ _ _ c); [exact A| |].

Lemma step_pre h cfg G q own ks t os c p p' s' :
  kinv h cfg G q own ks -> nth_error (gs cfg) t = Some (mkG os (Some (c, p))) ->
  mine own t = false -> q t = Called c -> Forall ok os ->
  knows (ks t) (heap (sh cfg)) -> Pre c (ks t) p -> step1 p (sh cfg) = Some (p', s') ->
  exists G' q' own', inv h (set_g cfg t s' (mkG os (Some (c, p')))) G' q' own'.
Proof.
  intros I Ht Hm Hq F Kn P St. pose proof I as [IA IW IH IM IB IE IS IK IO ISep IT].
  assert (Hb : b_buf (bb (sh cfg)) = hdr) by (rewrite IB; exact IH).
  destruct (hdr_cap G IW IH) as [Hc Hbc].
  pose proof (knows_else _ _ _ IE Kn) as KG.
  assert (HL : (length h0 <= length (heap (sh cfg)))%nat).
  { destruct (Nat.le_gt_cases (length h0) (length (heap (sh cfg)))); auto. exfalso.
    destruct IK as [IK _].
    assert (B : (s_blk hdr < length (heap (sh cfg)))%nat).
    { destruct IE as [-> _]. rewrite <- IH. apply (wf_sl G IW). }
    assert (X : nth_error (heap (sh cfg)) (length (heap (sh cfg))) = nth_error h0 (length (heap (sh cfg))))
      by (apply IK; lia).
    rewrite (proj2 (nth_error_None _ _)) in X by lia. symmetry in X. apply nth_error_None in X. lia. }
  remember (ks t) as K eqn:EK. destruct P as [K p S Sh|K l k Bl Ll P|K n l i v k Hin Hi Hv P|K n l i k Hin Hi P].
  2:{ (* Alloc *)
    cbn [step1] in St. injection St as <- <-.
    change (set_heap (sh cfg) (heap (sh cfg) ++ [l])) with (alloc (sh cfg) l).
    exists (alloc G l), q, own.
    eapply (inv_update _ _ _ _ _ _ _ _ _ _ _ _ _ _ ((length (heap (sh cfg)), l) :: K)); eauto.
    - rewrite abs_alloc; auto.
    - now apply alloc_WF.
    - destruct IE as [IE1 IE2]. unfold alloc; cbn [heap set_heap]. split.
      + rewrite !app_length. lia.
      + intros b Hbk. destruct (Nat.lt_ge_cases b (length (heap (sh cfg)))).
        * rewrite !nth_error_app1 by lia. auto.
        * rewrite !nth_error_app2 by lia. now rewrite IE1.
    - intro X. unfold alloc; cbn [heap set_heap]. now rewrite IS.
    - now apply knows_app.
    - destruct own; auto. destruct IO as [<- IO]. split; auto.
    - unfold alloc; cbn [heap set_heap]. rewrite app_length. lia.
    - intros n [<-|X]; [right|left; now rewrite <- EK].
      unfold alloc; cbn [heap set_heap fst]. rewrite app_length. cbn; lia.
    - rewrite Hm, Hq. constructor; [|apply P].
      + destruct (knows_app K (heap (sh cfg)) l Kn HL) as [N1 N2]. split; auto.
        constructor; auto. cbn [fst snd]. split; [|split; [exact HL|]].
        * rewrite <- IH. assert (X : (s_blk (b_buf (bb G)) < length (heap G))%nat) by apply (wf_sl G IW).
          destruct IE as [IE1 _]. lia.
        * unfold alloc; cbn [heap set_heap]. rewrite nth_error_app2 by lia. now rewrite Nat.sub_diag.
      + intro X. rewrite EK in X. apply (proj1 ISep) in X. lia.
    - intros u x N X Y. apply tst_alloc; auto. split; [exact Hb|]. now rewrite IB. }
  2:{ (* Store in a block of its own *)
    destruct (knows_in _ _ _ _ Kn Hin) as (N1 & N2 & N3).
    assert (L : (n < length (heap (sh cfg)))%nat) by (apply nth_error_Some; congruence).
    set (l' := splice l (Z.to_nat i) [v]) in *.
    assert (Wl : Forall is_byte l /\ zlen l <= maxAlloc).
    { apply (proj1 (Forall_forall _ _) (wf_h G IW)). apply (nth_error_In _ n). destruct IE as [_ <-]; auto. }
    assert (Zl : zlen l' = zlen l).
    { unfold l', splice, zlen in *. rewrite !app_length, firstn_length, skipn_length. cbn [length]. lia. }
    assert (Bl : Forall is_byte l').
    { unfold l', splice. apply Forall_app. split; [|apply Forall_app; split].
      - apply Forall_forall. intros x X. apply firstn_In' in X. now apply (proj1 (Forall_forall _ _) (proj1 Wl)).
      - constructor; [exact Hv|constructor].
      - apply Forall_forall. intros x X. apply skipn_In' in X. now apply (proj1 (Forall_forall _ _) (proj1 Wl)). }
    cbn [step1] in St. rewrite (heap_write_set _ _ _ _ l N3) in St by (change (zlen [v]) with 1; lia).
    injection St as <- <-. fold l'.
    change (set_heap (sh cfg) (set_nth (heap (sh cfg)) n l')) with (rewrite_block (sh cfg) n l').
    assert (LG : length (heap (sh cfg)) = length (heap G)) by apply IE.
    assert (Ll : zlen l' <= maxAlloc) by (rewrite Zl; apply Wl).
    exists (rewrite_block G n l'), q, own.
    eapply (inv_update _ _ _ _ _ _ _ _ _ _ _ _ _ _ (update n l' K)); eauto.
    - rewrite rewrite_abs; auto; congruence.
    - apply rewrite_WF; auto; congruence.
    - now apply same_else_rewrite.
    - intro X. unfold rewrite_block; cbn [heap set_heap]. now rewrite IS.
    - now apply knows_rewrite.
    - destruct own; auto. destruct IO as [<- IO]. split; auto.
    - unfold rewrite_block; cbn [heap set_heap]. rewrite length_set_nth; auto.
    - intros m X. left. rewrite update_fst in X. now rewrite <- EK.
    - rewrite Hm, Hq. constructor; [|exact P]. now apply knows_update.
    - intros u x N X Y. apply tst_rewrite; auto.
      + split; [exact Hb|]. now rewrite IB.
      + destruct ISep as [_ P2]. apply (P2 t u n); auto. rewrite <- EK. apply (in_map fst _ _ Hin). }
  2:{ (* Load from a block of its own *)
    destruct (knows_in _ _ _ _ Kn Hin) as (N1 & N2 & N3).
    cbn [step1] in St. rewrite (heap_read_known _ _ _ _ N3 Hi) in St. injection St as <- <-.
    exists G, q, own. eapply inv_local; eauto. rewrite Hm, Hq. apply T_pre; rewrite <- EK; auto. }
  subst K.
  assert (SG : fits c (abs G) (run p G)) by (apply S; auto).
  assert (LOC : forall p2, s' = sh cfg -> p' = p2 -> Pre c (ks t) p2 ->
     exists G' q' own', inv h (set_g cfg t s' (mkG os (Some (c, p')))) G' q' own').
  { intros p2 -> -> P2. exists G, q, own. eapply inv_local; eauto.
    cbn [todo]; auto. rewrite Hm, Hq. now apply T_pre. }
  assert (EFF : s' = sh cfg -> ended p' -> run p G = run p' G ->
     exists G' q' own', inv h (set_g cfg t s' (mkG os (Some (c, p')))) G' q' own').
  { intros -> En R. rewrite R in SG. destruct (fits_ended _ _ _ _ En SG) as (r & E1 & E2 & _).
    exists G, (set_q q t (Decided c r)), own. eapply inv_local; eauto.
    - eapply at_effect; eauto.
    - intros u N. now apply set_q_other.
    - rewrite Hm, set_q_same. now constructor. }
  destruct p as [ | | |k|sl k|f k|f v k|b i k|b i v k|db di sb si n k|l k|k|l k|k|k];
    cbn [step1] in St; try discriminate; cbn [shape] in Sh; try contradiction.
  - (* GetBuf *)
    injection St as <- <-. eapply LOC; eauto. rewrite Hb. apply Pre_ready; auto.
    intros s Ws Hs Ks Ms. specialize (S s Ws Hs Ks Ms). cbn [run] in S. now rewrite Hs in S.
  - (* GetF *)
    injection St as <- <-. destruct f; cbn [get_fld] in *.
    + destruct Sh as [_ Sh]. apply EFF; auto. cbn [run get_fld]. now rewrite IB.
    + eapply LOC; eauto. rewrite IB, Hc. apply Pre_ready; auto.
      intros s Ws Hs Ks Ms. specialize (S s Ws Hs Ks Ms). cbn [run get_fld] in S.
      now rewrite (proj1 (hdr_cap s Ws Hs)) in S.
    + destruct Sh as [_ Sh]. apply EFF; auto. cbn [run get_fld]. now rewrite IB.
    + eapply LOC; eauto. rewrite IB, Hbc. apply Pre_ready; auto.
      intros s Ws Hs Ks Ms. specialize (S s Ws Hs Ks Ms). cbn [run get_fld] in S.
      now rewrite (proj2 (hdr_cap s Ws Hs)) in S.
  - (* Load *)
    destruct Sh as (_ & Hs & Sh). destruct (heap_read _ _ _ _) as [[|v [|]]|] eqn:ER; try discriminate.
    injection St as <- <-. apply EFF; auto. cbn [run]. rewrite <- (IS Hs). now rewrite ER.
  - (* Lock *)
    destruct Sh as [_ Sh]. destruct (mu (sh cfg)) eqn:M; [discriminate|]. injection St as <- <-.
    destruct own as [u|]; [destruct IO; congruence|]. destruct IO as [IO _].
    exists G, q, (Some t).
    assert (OTH : forall u g, u <> t -> nth_error (gs cfg) u = Some g ->
       tst (sh cfg) G (ks u) (mine None u) g (q u) -> tst (set_mu (sh cfg) true) G (ks u) (mine (Some t) u) g (q u)).
    { intros u g N _ T. cbn [mine] in *. replace (Nat.eqb u t) with false by (symmetry; now apply Nat.eqb_neq).
      eapply tst_other; eauto. }
    assert (L : (t < length (gs cfg))%nat) by (apply nth_error_Some; congruence).
    eapply inv_update_same; eauto. cbn [mine]. rewrite Nat.eqb_refl, Hq.
    destruct Sh as [Sh|Sh].
    + apply T_crit0; auto. cbn [run] in SG. rewrite IM in SG.
      replace (set_mu (sh cfg) true) with (set_mu G true); auto. now rewrite <- IO.
    + apply T_ro; auto. now apply sem_lock.
  - destruct Sh; discriminate.
Qed.

Lemma set_fld_same b f : upd_fld b f (get_fld b f) = b.
Proof. destruct b, f; reflexivity. Qed.
Lemma set_bb_same s : set_bb s (bb s) = s.
Proof. destruct s; reflexivity. Qed.

(** Changing a state only around the goroutine that holds the mutex. *)
Lemma others_stable s G s' G' own own' t (q : nat -> pending call) (N : mine own t = true) :
  (forall K, knows K (heap s) -> knows K (heap s')) -> own' = own \/ own' = None ->
  forall u K g, u <> t -> tst s G K (mine own u) g (q u) -> tst s' G' K (mine own' u) g (q u).
Proof.
  intros HK HO u K g Nu T. destruct own as [o|]; [|discriminate]. cbn [mine] in *. apply Nat.eqb_eq in N. subst o.
  replace (Nat.eqb u t) with false in T by (symmetry; now apply Nat.eqb_neq).
  assert (E : mine own' u = false) by (destruct HO; subst own'; cbn; [now apply Nat.eqb_neq|reflexivity]).
  rewrite E. eapply tst_other; eauto.
Qed.

Lemma step_ro h cfg G q own ks t os c p p' s' :
  kinv h cfg G q own ks -> nth_error (gs cfg) t = Some (mkG os (Some (c, p))) ->
  mine own t = true -> q t = Called c -> Forall ok os ->
  knows (ks t) (heap (sh cfg)) -> Sem c true (ks t) p -> shape hdr single (rd (ks t)) true p -> set_mu (sh cfg) false = G ->
  step1 p (sh cfg) = Some (p', s') ->
  exists G' q' own', inv h (set_g cfg t s' (mkG os (Some (c, p')))) G' q' own'.
Proof.
  intros I Ht Hm Hq F Kn S Sh HG St. pose proof I as [IA IW IH IM IB IE IS IK IO ISep IT].
  assert (Hb : b_buf (bb (sh cfg)) = hdr) by (rewrite IB; exact IH).
  destruct (hdr_cap G IW IH) as [Hc Hbc].
  assert (LOC : forall p2, s' = sh cfg -> p' = p2 -> Sem c true (ks t) p2 -> shape hdr single (rd (ks t)) true p2 ->
     exists G' q' own', inv h (set_g cfg t s' (mkG os (Some (c, p')))) G' q' own').
  { intros p2 -> -> P2 P3. exists G, q, own. eapply inv_local; eauto.
    cbn [todo]; auto. rewrite Hm, Hq. now apply T_ro. }
  destruct p as [ | | |k|sl k|f k|f v k|b i k|b i v k|db di sb si n k|l k|k|l k|k|k];
    cbn [step1] in St; try discriminate; cbn [shape] in Sh; try contradiction.
  - injection St as <- <-. eapply LOC; eauto; rewrite Hb; auto.
    intros s Ws Hs Ks Ms. specialize (S s Ws Hs Ks Ms). cbn [run] in S. now rewrite Hs in S.
  - injection St as <- <-. destruct f; cbn [get_fld] in *; try (destruct Sh; discriminate).
    + eapply LOC; eauto; rewrite IB, Hc; auto.
      intros s Ws Hs Ks Ms. specialize (S s Ws Hs Ks Ms). cbn [run get_fld] in S.
      now rewrite (proj1 (hdr_cap s Ws Hs)) in S.
    + eapply LOC; eauto; rewrite IB, Hbc; auto.
      intros s Ws Hs Ks Ms. specialize (S s Ws Hs Ks Ms). cbn [run get_fld] in S.
      now rewrite (proj2 (hdr_cap s Ws Hs)) in S.
  - destruct Sh; discriminate.
  - destruct Sh; discriminate.
  - destruct Sh as [_ Sh]. destruct (mu (sh cfg)) eqn:M; [|discriminate]. injection St as <- <-.
    exists G, q, None.
    eapply inv_update_same; eauto.
    + split; auto. discriminate.
    + rewrite Hq. cbn [mine]. apply T_pre; auto. apply Pre_ready; auto. now apply sem_unlock.
    + intros u g N _ T. apply (others_stable (sh cfg) G _ _ own None t q Hm); auto.
Qed.

Lemma settled_inv h cfg G q own ks K s1 k r G' c :
  kinv h cfg G q own ks -> hok hdr s1 -> SEC K true k -> final c r G' (run k s1) -> knows [] (heap s1) ->
  bb s1 = bb G' /\ same_else hdr (heap s1) (heap G') /\ (single = true -> heap s1 = heap G') /\ b_buf (bb G') = hdr.
Proof.
  intros I Hb Sk Fk Kn. pose proof (sec_settled hdr single (rd K) _ _ k s1 Hb Sk) as A.
  pose proof (final_after _ _ _ _ Fk) as B.
  destruct (run k s1) as [v s2|e s2|s2|]; cbn [after_state final] in *; try contradiction;
    destruct A as (A1 & A2 & A3), Hb as [Hb Hc]; subst G'; cbn [bb heap set_mu]; repeat split; try congruence;
    try (apply A2); intros; try (symmetry; auto).
Qed.

Lemma step_crit0 h cfg G q own ks t os c p p' s' :
  kinv h cfg G q own ks -> nth_error (gs cfg) t = Some (mkG os (Some (c, p))) ->
  mine own t = true -> q t = Called c -> Forall ok os ->
  SEC (ks t) false p -> fits c (abs G) (run p (sh cfg)) -> set_mu (sh cfg) false = G ->
  step1 p (sh cfg) = Some (p', s') ->
  exists G' q' own', inv h (set_g cfg t s' (mkG os (Some (c, p')))) G' q' own'.
Proof.
  intros I Ht Hm Hq F Sc Fi HG St. pose proof I as [IA IW IH IM IB IE IS IK IO ISep IT].
  assert (Hb : b_buf (bb (sh cfg)) = hdr) by (rewrite IB; exact IH).
  destruct (hdr_cap G IW IH) as [Hc Hbc].
  assert (LOC : s' = sh cfg -> SEC (ks t) false p' -> run p' (sh cfg) = run p (sh cfg) ->
     exists G' q' own', inv h (set_g cfg t s' (mkG os (Some (c, p')))) G' q' own').
  { intros -> P2 P3. exists G, q, own. eapply inv_local; eauto. rewrite Hm, Hq. apply T_crit0; auto. congruence. }
  assert (EFF : mu s' = true -> length (heap s') = length (heap (sh cfg)) -> hok hdr s' -> knows [] (heap s') -> (forall K, knows K (heap (sh cfg)) -> knows K (heap s')) ->
     SEC (ks t) true p' -> run p (sh cfg) = run p' s' ->
     exists G' q' own', inv h (set_g cfg t s' (mkG os (Some (c, p')))) G' q' own').
  { intros M' L' Hb' K' KK P2 P3. rewrite P3 in Fi. destruct (fits_final _ _ _ Fi) as (r & G' & F1 & F2 & F3 & F4).
    destruct (settled_inv _ _ _ _ _ _ _ s' p' r G' c I Hb' P2 F1 K') as (Z1 & Z2 & Z3 & Z4).
    exists G', (set_q q t (Decided c r)), own.
    eapply inv_update_same; eauto.
    - eapply at_effect; eauto.
    - destruct own as [u|]; [|discriminate]. destruct IO; auto.
    - rewrite Hm, set_q_same. now constructor.
    - intros u g N _ T. rewrite set_q_other by auto. apply (others_stable (sh cfg) G _ _ own own t q Hm); auto. }
  assert (MT : mu (sh cfg) = true) by (destruct own; [apply IO|discriminate]).
  assert (OK : hok hdr (sh cfg)) by (split; [exact Hb|now rewrite IB]).
  destruct p as [ | | |k|sl k|f k|f v k|b i k|b i v k|db di sb si n k|l k|k|l k|k|k];
    cbn [step1] in St; try discriminate; cbn [sec] in Sc; try contradiction.
  - injection St as <- <-. apply LOC; auto. now rewrite Hb.
  - injection St as <- <-. apply LOC; auto. destruct f; cbn [get_fld]; auto. now rewrite (proj2 OK).
  - injection St as <- <-. destruct f.
    + destruct Sc as [_ Sc]. apply EFF; auto.
    + destruct Sc as (_ & -> & Sc).
      assert (E : set_bb (sh cfg) (upd_fld (bb (sh cfg)) FCap (s_len hdr)) = sh cfg).
      { rewrite <- Hc, <- IB. change (b_cap (bb (sh cfg))) with (get_fld (bb (sh cfg)) FCap).
        now rewrite set_fld_same, set_bb_same. }
      apply LOC; auto. cbn [run]. now rewrite E.
    + destruct Sc as [_ Sc]. apply EFF; auto.
    + destruct Sc as (_ & -> & Sc).
      assert (E : set_bb (sh cfg) (upd_fld (bb (sh cfg)) FBcap (8 * s_len hdr)) = sh cfg).
      { rewrite <- Hbc, <- IB. change (b_bcap (bb (sh cfg))) with (get_fld (bb (sh cfg)) FBcap).
        now rewrite set_fld_same, set_bb_same. }
      apply LOC; auto. cbn [run]. now rewrite E.
  - destruct Sc as [_ Sc]. destruct (heap_read _ _ _ _) as [[|v [|]]|] eqn:ER; try discriminate. injection St as <- <-.
    apply LOC; auto. cbn [run]. now rewrite ER.
  - destruct Sc as (S1 & S2 & S3 & S4). destruct (heap_write _ _ _ _) as [h1|] eqn:EW; [|discriminate].
    injection St as <- <-.
    pose proof (heap_write_else hdr _ _ _ _ _ EW S2) as SE.
    apply EFF; auto.
    + symmetry. apply SE.
    + now apply (knows_else _ (heap (sh cfg))).
    + intros K. now apply knows_else.
    + cbn [run]. now rewrite EW.
  - destruct Sc as [_ En]. rewrite MT in St. injection St as <- <-.
    cbn [run] in Fi. rewrite MT, HG in Fi.
    destruct (fits_ended _ _ _ _ En Fi) as (r & E1 & E2 & E3).
    exists G, (set_q q t (Decided c r)), None.
    eapply inv_update_same; eauto.
    + eapply at_effect; eauto.
    + split; auto. discriminate.
    + cbn [mine]. rewrite set_q_same. now constructor.
    + intros u g N _ T. rewrite set_q_other by auto. apply (others_stable (sh cfg) G _ _ own None t q Hm); auto.
Qed.

Lemma step_crit1 h cfg G q own ks t os c p p' s' r :
  kinv h cfg G q own ks -> nth_error (gs cfg) t = Some (mkG os (Some (c, p))) ->
  mine own t = true -> q t = Decided c r -> Forall ok os ->
  SEC (ks t) true p -> final c r G (run p (sh cfg)) ->
  step1 p (sh cfg) = Some (p', s') ->
  exists G' q' own', inv h (set_g cfg t s' (mkG os (Some (c, p')))) G' q' own'.
Proof.
  intros I Ht Hm Hq F Sc Fi St. pose proof I as [IA IW IH IM IB IE IS IK IO ISep IT].
  destruct (hdr_cap G IW IH) as [Hc Hbc].
  assert (Hb : b_buf (bb (sh cfg)) = hdr) by (rewrite IB; exact IH).
  assert (LOC : s' = sh cfg -> SEC (ks t) true p' -> run p' (sh cfg) = run p (sh cfg) ->
     exists G' q' own', inv h (set_g cfg t s' (mkG os (Some (c, p')))) G' q' own').
  { intros -> P2 P3. exists G, q, own. eapply inv_local; eauto. rewrite Hm, Hq. constructor; auto. congruence. }
  assert (MT : mu (sh cfg) = true) by (destruct own; [apply IO|discriminate]).
  assert (OK : hok hdr (sh cfg)) by (split; [exact Hb|now rewrite IB]).
  destruct p as [ | | |k|sl k|f k|f v k|b i k|b i v k|db di sb si n k|l k|k|l k|k|k];
    cbn [step1] in St; try discriminate; cbn [sec] in Sc; try contradiction.
  - injection St as <- <-. apply LOC; auto. now rewrite Hb.
  - injection St as <- <-. apply LOC; auto. destruct f; cbn [get_fld]; auto. now rewrite (proj2 OK).
  - destruct f; destruct Sc; discriminate.
  - destruct Sc as [_ Sc]. destruct (heap_read _ _ _ _) as [[|v [|]]|] eqn:ER; try discriminate. injection St as <- <-.
    apply LOC; auto. cbn [run]. now rewrite ER.
  - destruct Sc as (S1 & S2 & S3 & S4). destruct (heap_write _ _ _ _) as [h1|] eqn:EW; [|discriminate].
    injection St as <- <-.
    pose proof (heap_write_else hdr _ _ _ _ _ EW S2) as SE.
    cbn [run] in Fi. rewrite EW in Fi.
    exists G, q, own. eapply inv_update_same; eauto.
    + destruct SE as [L1 N1], IE as [L2 N2]. split; cbn [heap set_heap]; [congruence|].
      intros b0 Hb0. rewrite <- N1 by auto. auto.
    + intro X. specialize (S1 X). discriminate.
    + now apply (knows_else _ (heap (sh cfg))).
    + destruct own as [u|]; [|discriminate]. destruct IO; auto.
    + symmetry. apply SE.
    + rewrite Hm, Hq. now constructor.
    + intros u g N _ T. apply (others_stable (sh cfg) G _ _ own own t q Hm); auto. intros K. now apply knows_else.
  - destruct Sc as [_ En]. rewrite MT in St. injection St as <- <-.
    cbn [run] in Fi. rewrite MT in Fi.
    assert (X : set_mu (sh cfg) false = G /\ ends k r).
    { destruct k; cbn in En, Fi; try contradiction.
      - destruct Fi as (-> & P & X & _). split; auto. split; auto. intro s. f_equal. now apply plain_view.
      - destruct Fi as (-> & X & _). split; auto. reflexivity. }
    destruct X as [X Y].
    exists G, q, None.
    eapply inv_update_same; eauto.
    + split; auto. discriminate.
    + cbn [mine]. rewrite Hq. now constructor.
    + intros u g N _ T. apply (others_stable (sh cfg) G _ _ own None t q Hm); auto.
Qed.

Section Runs.

Hypothesis body_ok : forall c, ok c -> Pre c [] (body c).

Theorem inv_step h cfg G q own t h' cfg' :
  inv h cfg G q own -> gstep body t cfg h' cfg' -> exists G' q' own', inv (h ++ h') cfg' G' q' own'.
Proof.
  intros [ks I] St. pose proof I as [IA IW IH IM IB IE IS IK IO ISep IT].
  inversion St as [o os Ht|o os p p' s' Ht Hs|o os v Ht|o os e Ht]; subst;
    destruct (IT _ _ Ht) as [F T]; cbn [todo] in F.
  - (* call *)
    inversion T; subst. exists G, (set_q q t (Called o)), own.
    apply (inv_update h cfg G q own ks t _ _ (sh cfg) G _ own _ [] I Ht); auto.
    + apply at_call; auto.
    + destruct own; auto. destruct IO as [O1 O2]. split; auto. intro X. apply poisoned_app; auto.
    + intros n [].
    + now inversion F.
    + rewrite set_q_same. replace (mine own t) with false by auto.
      apply T_pre; auto. apply body_ok. now inversion F.
    + intros u x N X Y. now rewrite set_q_other.
  - rewrite app_nil_r. inversion T; subst.
    + eapply step_pre; eauto.
    + eapply step_ro; eauto.
    + eapply step_crit0; eauto.
    + eapply step_crit1; eauto.
    + exfalso. destruct p; cbn in *; try contradiction; discriminate.
  - (* return *)
    inversion T; subst.
    + match goal with H : Pre _ _ _ |- _ => inversion H as [K0 p0 S Sh| | |]; subst end.
      assert (Fi : fits o (abs G) (run (Ret v) G)) by (apply S; auto; eapply knows_else; eauto).
      cbn [run fits] in Fi. destruct Fi as (E1 & E2 & _).
      exists G, (set_q (set_q q t (Decided o (Returned (view_rv (sh cfg) v)))) t Idle), own.
      eapply inv_local; eauto.
      * apply at_ret; [|apply set_q_same]. eapply at_effect; eauto.
        now rewrite (plain_view v (sh cfg) G).
      * intros u N. now rewrite !set_q_other by auto.
      * intro P. now apply poisoned_app.
      * rewrite set_q_same. replace (mine own t) with false by auto. constructor.
    + match goal with H : shape _ _ _ true _ |- _ => cbn in H; discriminate end.
    + match goal with H : sec _ _ _ _ _ _ _ |- _ => destruct H end.
    + match goal with H : sec _ _ _ _ _ _ _ |- _ => destruct H end.
    + match goal with H : ends _ _ |- _ => destruct H as [P E] end.
      exists G, (set_q q t Idle), own.
      eapply inv_local; eauto.
      * rewrite <- (E (sh cfg)). apply at_ret; auto.
      * intros u N. now apply set_q_other.
      * intro X. now apply poisoned_app.
      * rewrite set_q_same. replace (mine own t) with false by auto. constructor.
  - (* panic *)
    inversion T; subst.
    + match goal with H : Pre _ _ _ |- _ => inversion H as [K0 p0 S Sh| | |]; subst end.
      assert (Fi : fits o (abs G) (run (Panic e) G)) by (apply S; auto; eapply knows_else; eauto).
      cbn [run fits] in Fi. destruct Fi as (E1 & E2 & _).
      exists G, (set_q (set_q q t (Decided o (Raised e))) t Idle), own.
      eapply inv_local; eauto.
      * apply at_ret; [|apply set_q_same]. eapply at_effect; eauto.
      * intros u N. now rewrite !set_q_other by auto.
      * intro P. now apply poisoned_app.
      * rewrite set_q_same. replace (mine own t) with false by auto. constructor.
    + match goal with H : shape _ _ _ true _ |- _ => cbn in H; discriminate end.
    + match goal with H : fits _ _ _ |- _ => cbn [run fits] in H; destruct H as (E1 & E2 & E3) end.
      exists (set_mu (sh cfg) false), (set_q (set_q q t (Decided o (Raised e))) t Idle), None.
      eapply inv_update_same; eauto.
      * apply at_ret; [|apply set_q_same]. eapply at_effect; eauto.
      * split; [congruence|]. intro M. exists t, o, e. rewrite in_app_iff. split; [right; left; reflexivity|auto].
      * rewrite set_q_same. constructor.
      * intros u g N _ Tu. rewrite !set_q_other by auto. apply (others_stable (sh cfg) (set_mu (sh cfg) false) _ _ own None t q); auto.
    + match goal with H : final _ _ _ _ |- _ => cbn [run final] in H; destruct H as (E1 & E2 & E3) end.
      subst r. exists G, (set_q q t Idle), None.
      eapply inv_update_same; eauto.
      * apply at_ret; auto.
      * split; [congruence|]. intro M. exists t, o, e. rewrite in_app_iff. split; [right; left; reflexivity|auto].
      * rewrite set_q_same. constructor.
      * intros u g N _ Tu. rewrite !set_q_other by auto. apply (others_stable (sh cfg) G _ _ own None t q); auto.
    + match goal with H : ends _ _ |- _ => cbn in H; subst r end.
      exists G, (set_q q t Idle), own.
      eapply inv_local; eauto.
      * apply at_ret; auto.
      * intros u N. now apply set_q_other.
      * intro X. now apply poisoned_app.
      * rewrite set_q_same. replace (mine own t) with false by auto. constructor.
Qed.

(** ** Whole executions *)

Variable s0 : St.
Hypothesis s0_wf : WF s0.
Hypothesis s0_hdr : b_buf (bb s0) = hdr.
Hypothesis s0_mu : mu s0 = false.
Hypothesis s0_heap : heap s0 = h0.
Hypothesis s0_abs : abs s0 = a0.

Lemma inv_start programs : Forall (Forall ok) programs ->
  inv [] (start s0 programs) s0 (fun _ => Idle) None.
Proof.
  intro F. exists (fun _ => []). constructor; cbn [start sh gs]; auto.
  - rewrite s0_abs. constructor.
  - apply same_else_refl.
  - split; [|constructor]. intros. now rewrite s0_heap.
  - split; [now apply set_mu_id|]. congruence.
  - split; cbn; intros; contradiction.
  - intros t g. rewrite nth_error_map. destruct (nth_error programs t) as [p|] eqn:E; [|discriminate].
    cbn. intro X. injection X as <-. split; [|constructor].
    eapply (proj1 (Forall_forall _ _)); eauto using nth_error_In.
Qed.

Theorem inv_exec programs h cfg : Forall (Forall ok) programs ->
  exec body (start s0 programs) h cfg -> exists G q own, inv h cfg G q own.
Proof.
  intros F E. induction E as [|h c1 t h' c2 E IH St].
  - exists s0, (fun _ => Idle), None. now apply inv_start.
  - destruct IH as (G & q & own & I). eapply inv_step; eauto.
Qed.

End Runs.

(** A run that neither faults nor blocks can make its first step. *)
Lemma step1_progress (p : prog (rv slice)) s : run p s <> Stuck -> (forall t, run p s <> Deadlock t) ->
  ended p \/ exists p' s', step1 p s = Some (p', s').
Proof.
  destruct p; cbn [run step1 ended]; intros N D; eauto; try congruence.
  - destruct (heap_read _ _ _ _) as [[|v [|]]|]; try congruence. eauto.
  - destruct (heap_write _ _ _ _); try congruence. eauto.
  - destruct (heap_read _ _ _ _); try congruence. destruct (heap_write _ _ _ _); try congruence. eauto.
  - destruct (mu s) eqn:M; eauto; try (exfalso; eapply D; eauto).
  - destruct (mu s); eauto; congruence.
Qed.

Lemma ended_step cfg t os o p : nth_error (gs cfg) t = Some (mkG os (Some (o, p))) -> ended p ->
  exists h' c', gstep body t cfg h' c'.
Proof. clear - body. destruct p; cbn; try tauto; intros H _; do 2 eexists; [eapply g_return|eapply g_panic]; eauto. Qed.

Lemma run_step cfg t os o p : nth_error (gs cfg) t = Some (mkG os (Some (o, p))) ->
  run p (sh cfg) <> Stuck -> (forall u, run p (sh cfg) <> Deadlock u) -> exists h' c', gstep body t cfg h' c'.
Proof.
  intros H N D. destruct (step1_progress p (sh cfg) N D) as [E|(p' & s' & E)].
  - eapply ended_step; eauto.
  - do 2 eexists. eapply g_step; eauto.
Qed.

Lemma fits_runs c a x : fits c a x -> x <> Stuck /\ forall t, x <> Deadlock t.
Proof. destruct x; cbn; split; try congruence; try tauto. Qed.
Lemma final_runs c r G x : final c r G x -> x <> Stuck /\ forall t, x <> Deadlock t.
Proof. destruct x; cbn; split; try congruence; try tauto. Qed.

(** Some goroutine can always go on, unless a panic kept the mutex. *)
Theorem inv_progress h cfg G q own t g : inv h cfg G q own ->
  nth_error (gs cfg) t = Some g -> g <> mkG [] None -> ~ poisoned h ->
  exists u h' c', gstep body u cfg h' c'.
Proof.
  intros [ks I] Ht Ng NP. pose proof I as [IA IW IH IM IB IE IS IK IO ISep IT].
  destruct own as [u|].
  - destruct IO as [M L]. exists u.
    destruct (nth_error (gs cfg) u) as [gu|] eqn:Eu; [|apply nth_error_None in Eu; lia].
    destruct (IT u gu Eu) as [_ T]. cbn [mine] in T. rewrite Nat.eqb_refl in T.
    inversion T; subst.
    + assert (W : WF (sh cfg)).
      { apply (set_mu_WF _ true) in IW. change (set_mu (set_mu (sh cfg) false) true) with (set_mu (sh cfg) true) in IW.
        now rewrite (set_mu_id _ _ M) in IW. }
      edestruct fits_runs as [R1 R2]. { match goal with H : Sem _ _ _ _ |- _ => apply H; eauto end. }
      eapply run_step; eauto.
    + edestruct fits_runs as [R1 R2]; eauto. eapply run_step; eauto.
    + edestruct final_runs as [R1 R2]; eauto. eapply run_step; eauto.
  - destruct IO as [HG HP]. exists t.
    assert (M : mu (sh cfg) = false) by (destruct (mu (sh cfg)); auto; exfalso; auto).
    rewrite (set_mu_id _ _ M) in HG. subst G.
    destruct (IT t g Ht) as [_ T]. cbn [mine] in T. inversion T; subst.
    + destruct cs as [|c cs]; [congruence|]. do 2 eexists. eapply g_call; eauto.
    + match goal with H : Pre _ _ _ |- _ => remember (ks t) as K eqn:EK; destruct H as [K p S Sh|K l k Bl Ll P|K n l i v k Hin Hi Hv P|K n l i k Hin Hi P] end.
      * edestruct fits_runs as [R1 R2]. { apply S; eauto. } eapply run_step; eauto.
      * do 2 eexists. eapply g_step; eauto. reflexivity.
      * match goal with H : knows _ _ |- _ => destruct (knows_in _ _ _ _ H Hin) as (N1 & N2 & N3) end.
        do 2 eexists. eapply g_step; eauto. cbn [step1].
        rewrite (heap_write_set _ _ _ _ l N3) by (change (zlen [v]) with 1; lia). reflexivity.
      * match goal with H : knows _ _ |- _ => destruct (knows_in _ _ _ _ H Hin) as (N1 & N2 & N3) end.
        do 2 eexists. eapply g_step; eauto. cbn [step1]. rewrite (heap_read_known _ _ _ _ N3 Hi). reflexivity.
    + eapply ended_step; eauto. destruct p; cbn in *; tauto.
Qed.

(** When no call is in progress and the mutex is not stuck, the buffer is that of
    the atomic object. *)
Theorem inv_quiescent h cfg G q own : inv h cfg G q own -> Forall (fun g => cur g = None) (gs cfg) ->
  set_mu (sh cfg) false = G /\ (mu (sh cfg) = true -> poisoned h).
Proof.
  intros [ks [IA IW IH IM IB IE IS IK IO ISep IT]] F. destruct own as [u|]; auto.
  exfalso. destruct IO as [M L].
  destruct (nth_error (gs cfg) u) as [gu|] eqn:Eu; [|apply nth_error_None in Eu; lia].
  destruct (IT u gu Eu) as [_ T]. cbn [mine] in T. rewrite Nat.eqb_refl in T.
  pose proof (proj1 (Forall_forall _ _) F gu (nth_error_In _ _ Eu)) as X. cbn in X.
  inversion T; subst; discriminate.
Qed.

End Lin.
