(** * RaceLemmas: goroutines that keep to a locking discipline have no data race. *)
From Coq Require Import ZArith List Bool Lia Arith.
From Verif Require Import GoSem Calls Conc ConcLemmas ConcInv Race.
Import ListNotations.
Open Scope Z_scope.
Open Scope list_scope.

(** ** Modes of use of a location *)

Inductive mode : Type :=
| Frozen                 (* nobody writes *)
| Guarded                (* only with the mutex *)
| Owned (t : nat)        (* only [t] writes, with the mutex; others read with the mutex *)
| Exclusive (t : nat).   (* only [t] *)

Definition may_read (m : mode) (t : nat) (held : bool) : Prop :=
  match m with
  | Frozen => True
  | Guarded => held = true
  | Owned u => held = true \/ t = u
  | Exclusive u => t = u
  end.
Definition may_write (m : mode) (t : nat) (held : bool) : Prop :=
  match m with
  | Frozen => False
  | Guarded => held = true
  | Owned u => held = true /\ t = u
  | Exclusive u => t = u
  end.

Section Discipline.
(** How each location is used, and what slice headers the buffer can have. *)
Variable M : location -> mode.
Variable Hd : slice -> Prop.

Section Programs.
Variable t : nat.

Definition add (X : nat -> Prop) (b : nat) : nat -> Prop := fun x => X x \/ x = b.
Definition del (X : nat -> Prop) (b : nat) : nat -> Prop := fun x => X x /\ x <> b.

Definition can_read (P K : nat -> Prop) (held : bool) (b : nat) (i : Z) : Prop :=
  P b \/ (K b /\ may_read (M (LByte b i)) t held).
Definition can_write (P K : nat -> Prop) (held : bool) (b : nat) (i : Z) : Prop :=
  P b \/ (K b /\ may_write (M (LByte b i)) t held).

(** The program of goroutine [t] keeps the modes.  [P]: arrays it knows to be its
    own; [K]: arrays it knows to be shared; [held]: it holds the mutex.  [Q] and [R]
    hold where it returns and where it panics. *)
Fixpoint disc {A} (P K : nat -> Prop) (held : bool)
  (Q : (nat -> Prop) -> (nat -> Prop) -> bool -> A -> Prop) (R : bool -> Prop) (p : prog A) : Prop :=
  match p with
  | Ret a => Q P K held a
  | Panic _ => R held
  | OutOfFuel => True
  | GetBuf k => may_read (M LHeader) t held /\ forall s, Hd s -> disc P (add K (s_blk s)) held Q R (k s)
  | SetBuf s k => may_write (M LHeader) t held /\ Hd s /\
      (K (s_blk s) \/ (P (s_blk s) /\ forall i, may_write (M (LByte (s_blk s) i)) t held)) /\
      disc (del P (s_blk s)) (add K (s_blk s)) held Q R k
  | GetF f k => may_read (M (LField f)) t held /\ forall v, disc P K held Q R (k v)
  | SetF f _ k => may_write (M (LField f)) t held /\ disc P K held Q R k
  | Load b i k => can_read P K held b i /\ forall v, disc P K held Q R (k v)
  | Store b i _ k => can_write P K held b i /\ disc P K held Q R k
  | Move db di sb si n k =>
      (P db \/ K db) /\ (P sb \/ K sb) /\
      (forall i, di <= i < di + n -> can_write P K held db i) /\
      (forall i, si <= i < si + n -> can_read P K held sb i) /\
      disc P K held Q R k
  | Alloc _ k => forall b, ~ K b -> disc (add P b) K held Q R (k b)
  | GetOuts _ | SetOuts _ _ => False
  | Lock k => held = false /\ disc P K true Q R k
  | Unlock k => held = true /\ disc P K false Q R k
  end.

Definition incl (X Y : nat -> Prop) : Prop := forall b, X b -> Y b.
Lemma incl_refl X : incl X X. Proof. intros b; auto. Qed.
Lemma incl_trans X Y Z : incl X Y -> incl Y Z -> incl X Z. Proof. intros H1 H2 b; auto. Qed.
Lemma incl_add X b : incl X (add X b). Proof. intros x; left; auto. Qed.
Lemma add_mono X Y b : incl X Y -> incl (add X b) (add Y b).
Proof. intros H x [Hx|Hx]; [left; auto|right; auto]. Qed.
Lemma del_mono X Y b : incl X Y -> incl (del X b) (del Y b).
Proof. intros H x [Hx N]; split; auto. Qed.
Hint Resolve incl_refl incl_add add_mono del_mono : core.

Lemma can_read_mono P P' K K' h b i : incl P P' -> incl K K' -> can_read P K h b i -> can_read P' K' h b i.
Proof. intros HP HK [H|[H H']]; [left|right]; auto. Qed.
Lemma can_write_mono P P' K K' h b i : incl P P' -> incl K K' -> can_write P K h b i -> can_write P' K' h b i.
Proof. intros HP HK [H|[H H']]; [left|right]; auto. Qed.

(** Knowing more does not hurt. *)
Lemma disc_mono {A} (Q Q' : _ -> _ -> bool -> A -> Prop) (R R' : bool -> Prop) (p : prog A) :
  (forall h, R h -> R' h) ->
  forall P P' K K' h, incl P P' -> incl K K' ->
  (forall P1 P1' K1 K1' h a, incl P1 P1' -> incl K1 K1' -> incl K K1 -> Q P1 K1 h a -> Q' P1' K1' h a) ->
  disc P K h Q R p -> disc P' K' h Q' R' p.
Proof.
  intros HR. induction p; intros P P' K K' h HP HK HQ; cbn [disc]; auto.
  - apply HQ; auto.
  - intros [H1 H2]. split; auto. intros s Hs. apply (H s P P' (add K (s_blk s))); auto.
    intros. eapply HQ; [exact H0| exact H3 | |exact H5]. eapply incl_trans; [apply incl_add|exact H4].
  - intros (H1 & H2 & H3 & H4). repeat split; auto.
    { destruct H3 as [H3|[H3 H5]]; [left|right]; auto. }
    eapply IHp; [| | |exact H4]; auto. intros. eapply HQ; [exact H| exact H0 | |exact H6].
    eapply incl_trans; [apply incl_add|exact H5].
  - intros [H1 H2]. split; auto. intros v. eapply H; [| | |apply H2]; auto.
  - intros [H1 H2]. split; auto. eapply IHp; [| | |exact H2]; auto.
  - intros [H1 H2]. split. { eapply can_read_mono; eauto. } intros v. eapply H; [| | |apply H2]; auto.
  - intros [H1 H2]. split. { eapply can_write_mono; eauto. } eapply IHp; [| | |exact H2]; auto.
  - intros ([H4|H4] & [H5|H5] & H1 & H2 & H3); repeat split; auto;
    try (intros; eapply can_write_mono; eauto; fail); try (intros; eapply can_read_mono; eauto; fail);
    (eapply IHp; [| | |exact H3]; auto).
  - intros H1 b Hb. eapply H; [| | |apply H1]; auto.
  - intros [H1 H2]. split; auto. eapply IHp; [| | |exact H2]; auto.
  - intros [H1 H2]. split; auto. eapply IHp; [| | |exact H2]; auto.
Qed.

Lemma disc_weaken {A} (Q Q' : _ -> _ -> bool -> A -> Prop) (R R' : bool -> Prop) (p : prog A) :
  (forall h, R h -> R' h) -> (forall P K h a, Q P K h a -> Q' P K h a) ->
  forall P K h, disc P K h Q R p -> disc P K h Q' R' p.
Proof.
  intros HR HQ. induction p; intros P K h; cbn [disc]; auto; intros; intuition eauto.
Qed.

Lemma disc_bind {A B} (Q : _ -> _ -> bool -> B -> Prop) (R : bool -> Prop) (p : prog A) (f : A -> prog B) : forall P K h,
  disc P K h (fun P' K' h' a => disc P' K' h' Q R (f a)) R p -> disc P K h Q R (bind p f).
Proof.
  induction p; intros P K h; cbn [disc bind]; auto; intros; intuition eauto.
Qed.

Lemma disc_finally {A} (Q : _ -> _ -> bool -> A -> Prop) (R : bool -> Prop) (p : prog A) : R false -> forall P K h,
  disc P K h (fun P' K' h' a => h' = true /\ Q P' K' false a) (fun h' => h' = true) p -> disc P K h Q R (finally p unlock).
Proof.
  intros HR. induction p; intros P K h; cbn [disc bind finally unlock]; auto; intros; intuition eauto.
Qed.

Lemma disc_locked {A} (Q : _ -> _ -> bool -> A -> Prop) (R : bool -> Prop) (p : prog A) P K : R false ->
  disc P K true (fun P' K' h' a => h' = true /\ Q P' K' false a) (fun h' => h' = true) p -> disc P K false Q R (locked p).
Proof. intros HR H. unfold locked. cbn [bind lock disc]. split; auto. now apply disc_finally. Qed.

(** Loops that keep what they know. *)
Definition keeps {S} (P K : nat -> Prop) (h : bool) (J : S -> Prop) : (nat -> Prop) -> (nat -> Prop) -> bool -> S -> Prop :=
  fun P' K' h' a => incl P P' /\ incl K K' /\ h' = h /\ J a.

Lemma disc_dw {S} (J : S -> Prop) (R : bool -> Prop) n (b : Z -> S -> prog S) P K h :
  (forall i a P' K', incl P P' -> incl K K' -> J a -> disc P' K' h (keeps P K h J) R (b i a)) ->
  forall fuel i a P' K', incl P P' -> incl K K' -> J a -> disc P' K' h (keeps P K h J) R (dw fuel n b i a).
Proof.
  intros H. induction fuel as [|f IH]; intros i a P' K' HP HK HJ; cbn [dw]; [exact I|].
  apply disc_bind. refine (disc_weaken (keeps P K h J) _ R R _ _ _ _ _ _ (H i a P' K' HP HK HJ)); auto.
  intros P1 K1 h1 a1 (X3 & X4 & -> & X5). cbv zeta. destruct (_ <? _).
  - now apply IH.
  - repeat split; auto.
Qed.
Lemma disc_fl {S} (J : S -> Prop) (R : bool -> Prop) n (b : Z -> S -> prog S) P K h :
  (forall i a P' K', incl P P' -> incl K K' -> J a -> disc P' K' h (keeps P K h J) R (b i a)) ->
  forall fuel i a P' K', incl P P' -> incl K K' -> J a -> disc P' K' h (keeps P K h J) R (fl fuel n b i a).
Proof.
  intros H. induction fuel as [|f IH]; intros i a P' K' HP HK HJ; cbn [fl]; destruct (_ <? _); try exact I;
    try (repeat split; auto; fail).
  apply disc_bind. refine (disc_weaken (keeps P K h J) _ R R _ _ _ _ _ _ (H i a P' K' HP HK HJ)); auto.
  intros P1 K1 h1 a1 (X3 & X4 & -> & X5).
  now apply IH.
Qed.
Lemma disc_goto {S} (J : S -> Prop) (R : bool -> Prop) n (b : Z -> S -> prog S) a P K h (Q : (nat -> Prop) -> (nat -> Prop) -> bool -> S -> Prop) : J a ->
  (forall i a P' K', incl P P' -> incl K K' -> J a -> disc P' K' h (keeps P K h J) R (b i a)) ->
  (forall P' K' a, incl P P' -> incl K K' -> J a -> Q P' K' h a) ->
  disc P K h Q R (goto_loop n b a).
Proof.
  intros HJ H HQ. unfold goto_loop. eapply (disc_weaken (keeps P K h J)); [intros ? X; exact X| |apply disc_dw; auto using incl_refl].
  intros P1 K1 h1 a1 (X3 & X4 & -> & X5). now apply HQ.
Qed.
Lemma disc_for {S} (J : S -> Prop) (R : bool -> Prop) n (b : Z -> S -> prog S) a P K h (Q : (nat -> Prop) -> (nat -> Prop) -> bool -> S -> Prop) : J a ->
  (forall i a P' K', incl P P' -> incl K K' -> J a -> disc P' K' h (keeps P K h J) R (b i a)) ->
  (forall P' K' a, incl P P' -> incl K K' -> J a -> Q P' K' h a) ->
  disc P K h Q R (for_loop n b a).
Proof.
  intros HJ H HQ. unfold for_loop. eapply (disc_weaken (keeps P K h J)); [intros ? X; exact X| |apply disc_fl; auto using incl_refl].
  intros P1 K1 h1 a1 (X3 & X4 & -> & X5). now apply HQ.
Qed.
End Programs.

(** ** Happens before *)

Lemma before_lt tr i j : before tr i j -> (i < j)%nat.
Proof. induction 1; lia. Qed.
Lemma nth_error_app_l {A} (l m : list A) i x : nth_error l i = Some x -> nth_error (l ++ m) i = Some x.
Proof. intros H. rewrite nth_error_app1; auto. apply nth_error_Some. congruence. Qed.
Lemma before_app tr m i j : before tr i j -> before (tr ++ m) i j.
Proof.
  induction 1.
  - eapply b_program; eauto using nth_error_app_l.
  - eapply b_mutex; eauto using nth_error_app_l.
  - eapply b_trans; eauto.
Qed.
(** Two adjacent steps of different goroutines are unordered, but for the mutex. *)
Lemma not_before_next tr i t a u b : nth_error tr i = Some (t, a) -> nth_error tr (S i) = Some (u, b) ->
  t <> u -> (a <> Release \/ b <> Acquire) -> ~ before tr i (S i).
Proof.
  intros Ha Hb N X B. remember (S i) as j eqn:Ej. destruct B; subst.
  - congruence.
  - rewrite Ha in H0. rewrite Hb in H1. destruct X; congruence.
  - apply before_lt in B1, B2. lia.
Qed.

(** ** The invariant *)

Section Inv.
Context {call : Type} (body : call -> prog (rv slice)).
(** The number of arrays before the goroutines start. *)
Variable h0 : nat.

Definition initial : nat -> Prop := fun b => (b < h0)%nat.
Definition none : nat -> Prop := fun _ => False.
Definition yes {A} : (nat -> Prop) -> (nat -> Prop) -> bool -> A -> Prop := fun _ _ _ _ => True.

(** Goroutine [t] may make the call [o]. *)
Definition good (t : nat) (o : call) : Prop := disc t none initial false yes (fun _ => True) (body o).

(** The step [i] is before everything that the goroutine with the mutex does next,
    or that the next one to take it does. *)
Definition settled (tr : trace) (hol : option nat) (i : nat) : Prop :=
  match hol with
  | Some w => exists k a, nth_error tr k = Some (w, a) /\ (i = k \/ before tr i k)
  | None => exists k w, nth_error tr k = Some (w, Release) /\ (i = k \/ before tr i k)
  end.

(** What is known of a past step of goroutine [u] that wrote, or read, a shared
    location of mode [m]. *)
Definition wrote (tr : trace) (hol : option nat) (i u : nat) (m : mode) : Prop :=
  match m with
  | Frozen => False
  | Guarded => settled tr hol i
  | Owned w => u = w /\ settled tr hol i
  | Exclusive w => u = w
  end.
Definition read (tr : trace) (hol : option nat) (i u : nat) (m : mode) : Prop :=
  match m with
  | Frozen => True
  | Guarded => settled tr hol i
  | Owned w => u = w \/ settled tr hol i
  | Exclusive w => u = w
  end.

Definition mine (priv : nat -> Prop) (l : location) : Prop := match l with LByte b _ => priv b | _ => False end.
Definition shared (pub : nat -> Prop) (l : location) : Prop := match l with LByte b _ => pub b | _ => True end.
Definition fresh (n : nat) (l : location) : Prop := match l with LByte b _ => b = n | _ => False end.

Definition past (tr : trace) (hol : option nat) (priv : nat -> nat -> Prop) (pub : nat -> Prop) : Prop :=
  forall i u a l, nth_error tr i = Some (u, a) ->
    (writes a l -> mine (priv u) l \/ (shared pub l /\ wrote tr hol i u (M l))) /\
    (reads a l -> mine (priv u) l \/ (shared pub l /\ read tr hol i u (M l))).
Definition ordered (tr : trace) : Prop :=
  forall i j t a u b, (i < j)%nat -> nth_error tr i = Some (t, a) -> nth_error tr j = Some (u, b) ->
    t <> u -> conflict a b -> before tr i j.
(** Who has which array, of the first [n]. *)
Record owners (n : nat) (priv : nat -> nat -> Prop) (pub : nat -> Prop) : Prop := mkOwners {
  o_pub : forall b, pub b -> (b < n)%nat;
  o_priv : forall t b, priv t b -> (b < n)%nat;
  o_apart : forall t u b, priv t b -> priv u b -> t = u;
  o_shared : forall t b, priv t b -> pub b -> False
}.

(** One more access. *)
Lemma nth_error_snoc {A} (l : list A) x i y : nth_error (l ++ [x]) i = Some y ->
  nth_error l i = Some y \/ (i = length l /\ y = x).
Proof.
  intros H. destruct (Nat.lt_ge_cases i (length l)) as [L|L].
  - rewrite nth_error_app1 in H by auto. auto.
  - rewrite nth_error_app2 in H by auto. destruct (i - length l)%nat as [|k] eqn:E; cbn in H.
    + right. split; [lia|congruence].
    + destruct k; discriminate.
Qed.
Lemma nth_error_end {A} (l : list A) x : nth_error (l ++ [x]) (length l) = Some x.
Proof. rewrite nth_error_app2 by auto. now rewrite Nat.sub_diag. Qed.

(** How a step moves the mutex. *)
Definition moves (t : nat) (a : access) (hol hol' : option nat) : Prop :=
  match a with
  | Acquire => hol = None /\ hol' = Some t
  | Release => hol = Some t /\ hol' = None
  | _ => hol' = hol
  end.
Lemma settled_next tr t a hol hol' i : moves t a hol hol' -> settled tr hol i -> settled (tr ++ [(t, a)]) hol' i.
Proof.
  intros Mv S.
  assert (SAME : settled (tr ++ [(t, a)]) hol i).
  { destruct hol as [w|]; destruct S as (k & x & H1 & H2); exists k, x; (split; [now apply nth_error_app_l|]);
      (destruct H2; [left; auto|right; now apply before_app]). }
  destruct a; cbn in Mv; try (subst hol'; exact SAME); destruct Mv as [-> ->].
  - destruct S as (k & w & H1 & H2). exists (length tr), Acquire. split; [apply nth_error_end|]. right.
    assert (B : before (tr ++ [(t, Acquire)]) k (length tr)).
    { eapply b_mutex; [|apply nth_error_app_l; exact H1|apply nth_error_end]. apply nth_error_Some. congruence. }
    destruct H2 as [->|H2]; [exact B|]. eapply b_trans; [apply before_app; exact H2|exact B].
  - destruct S as (k & w & H1 & H2). exists (length tr), t. split; [apply nth_error_end|]. right.
    assert (B : before (tr ++ [(t, Release)]) k (length tr)).
    { eapply b_program; [|apply nth_error_app_l; exact H1|apply nth_error_end]. apply nth_error_Some. congruence. }
    destruct H2 as [->|H2]; [exact B|]. eapply b_trans; [apply before_app; exact H2|exact B].
Qed.
Lemma settled_before tr t a i : settled tr (Some t) i -> before (tr ++ [(t, a)]) i (length tr).
Proof.
  intros (k & x & H1 & H2).
  assert (B : before (tr ++ [(t, a)]) k (length tr)).
  { eapply b_program; [|apply nth_error_app_l; exact H1|apply nth_error_end]. apply nth_error_Some. congruence. }
  destruct H2 as [->|H2]; [exact B|]. eapply b_trans; [apply before_app; exact H2|exact B].
Qed.

Section Extend.
Variables (tr : trace) (hol hol' : option nat) (priv priv' : nat -> nat -> Prop) (pub pub' : nat -> Prop).
Variables (n t : nat) (a : access) (held : bool).
Hypothesis PA : past tr hol priv pub.
Hypothesis OR : ordered tr.
Hypothesis OW : owners n priv pub.
Hypothesis MV : moves t a hol hol'.
Hypothesis HE : held = true -> hol = Some t.
Hypothesis RD : forall l, reads a l -> mine (priv t) l \/ (shared pub l /\ may_read (M l) t held).
Hypothesis WR : forall l, writes a l -> mine (priv t) l \/ (fresh n l /\ mine (priv' t) l) \/ (shared pub l /\ may_write (M l) t held).
Hypothesis PR : forall u b, priv u b -> priv' u b \/ (u = t /\ pub' b /\ hol' = hol /\ forall i, may_write (M (LByte b i)) t held).
Hypothesis PU : forall b, pub b -> pub' b.
Hypothesis KE : forall l, reads a l \/ writes a l -> hol' = hol /\ (mine (priv t) l -> mine (priv' t) l).

Lemma extend_past : past (tr ++ [(t, a)]) hol' priv' pub'.
Proof.
  intros i u b l Hi. apply nth_error_snoc in Hi. destruct Hi as [Hi|[-> E]].
  - destruct (PA i u b l Hi) as [W R].
    assert (X : mine (priv u) l -> mine (priv' u) l \/
      (shared pub' l /\ wrote (tr ++ [(t, a)]) hol' i u (M l) /\ read (tr ++ [(t, a)]) hol' i u (M l))).
    { intros m. destruct l as [| |x k|]; try contradiction. cbn in m.
      destruct (PR _ _ m) as [m'|(-> & P' & -> & MW)]; [left; exact m'|].
      right. split; [exact P'|]. specialize (MW k).
      assert (ST : held = true -> settled (tr ++ [(t, a)]) hol i).
      { intros Hh. rewrite (HE Hh). exists i, b. split; [now apply nth_error_app_l|now left]. }
      destruct (M (LByte x k)); cbn in *; tauto. }
    assert (Y : shared pub l -> shared pub' l). { destruct l; cbn; auto. }
    split; intros T.
    + destruct (W T) as [m|[S w]]; [destruct (X m) as [?|(? & ? & ?)]; auto|]. right. split; auto.
      destruct (M l); cbn in *; intuition eauto using settled_next.
    + destruct (R T) as [m|[S w]]; [destruct (X m) as [?|(? & ? & ?)]; auto|]. right. split; auto.
      destruct (M l); cbn in *; intuition eauto using settled_next.
  - injection E as -> ->.
    assert (ST : held = true -> settled (tr ++ [(t, a)]) hol (length tr)).
    { intros ->. rewrite (HE eq_refl). exists (length tr), a. split; [apply nth_error_end|now left]. }
    assert (Y : shared pub l -> shared pub' l). { destruct l; cbn; auto. }
    split; intros T; destruct (KE l ltac:(auto)) as [-> KM].
    + destruct (WR l T) as [m|[[_ m]|(S & R)]]; [left; auto..|]. right. split; auto.
      destruct (M l); cbn in *; intuition.
    + destruct (RD l T) as [m|(S & R)]; [left; auto..|]. right. split; auto.
      destruct (M l); cbn in *; intuition.
Qed.

Lemma extend_ordered : ordered (tr ++ [(t, a)]).
Proof.
  intros i j u b w d L Hi Hj N (l & C).
  assert (Li : (i < length tr)%nat).
  { assert (j < length (tr ++ [(t, a)]))%nat by (apply nth_error_Some; congruence).
    rewrite app_length in H; cbn in H. lia. }
  apply nth_error_snoc in Hi. destruct Hi as [Hi|[-> _]]; [|lia].
  apply nth_error_snoc in Hj. destruct Hj as [Hj|[-> E]].
  { apply before_app. eapply OR; eauto. now exists l. }
  injection E as -> ->. destruct (PA i u b l Hi) as [W R].
  (* the location is not [t]'s own, as [u] has touched it *)
  assert (NM : mine (priv t) l -> mine (priv u) l \/ shared pub l -> False).
  { destruct l as [| |x k|]; cbn; try tauto. intros m [m'|p].
    - apply N. symmetry. eapply (o_apart _ _ _ OW); eauto.
    - eapply (o_shared _ _ _ OW); eauto. }
  assert (NF : fresh n l -> mine (priv u) l \/ shared pub l -> False).
  { destruct l as [| |x k|]; cbn; try tauto. intros -> [m'|p].
    - apply (o_priv _ _ _ OW) in m'. lia.
    - apply (o_pub _ _ _ OW) in p. lia. }
  assert (NS : mine (priv u) l -> shared pub l -> False).
  { destruct l as [| |x k|]; cbn; try tauto. eapply (o_shared _ _ _ OW). }
  assert (ST : held = true -> settled tr hol i -> before (tr ++ [(t, a)]) i (length tr)).
  { intros Hh S. rewrite (HE Hh) in S. now apply settled_before. }
  destruct C as [[C1 [C2|C2]]|[C1 C2]].
  - destruct (W C1) as [m|[S w]]; destruct (RD l C2) as [m'|[S' r]]; try (exfalso; tauto).
    destruct (M l); cbn in *; intuition congruence.
  - destruct (W C1) as [m|[S w]]; destruct (WR l C2) as [m'|[[m' _]|[S' r]]]; try (exfalso; tauto).
    destruct (M l); cbn in *; intuition congruence.
  - destruct (R C1) as [m|[S w]]; destruct (WR l C2) as [m'|[[m' _]|[S' r]]]; try (exfalso; tauto).
    destruct (M l); cbn in *; intuition congruence.
Qed.
End Extend.

Record inv (tr : trace) (c : config call) (hol : option nat) (priv : nat -> nat -> Prop) (pub : nat -> Prop) : Prop := mkInv {
  i_mu : mu (sh c) = false -> hol = None;
  i_hdr : Hd (b_buf (bb (sh c))) /\ pub (s_blk (b_buf (bb (sh c))));
  i_init : incl initial pub;
  i_own : owners (length (heap (sh c))) priv pub;
  i_gs : forall t g, nth_error (gs c) t = Some g -> Forall (good t) (todo g) /\
    match cur g with
    | None => True
    | Some (_, p) => exists P K held, incl P (priv t) /\ incl K pub /\ (held = true -> hol = Some t) /\
        disc t P K held yes (fun _ => True) p
    end;
  i_past : past tr hol priv pub;
  i_ordered : ordered tr
}.

Lemma heap_write_length h b i d h' : heap_write h b i d = Some h' -> length h' = length h.
Proof.
  unfold heap_write. destruct (nth_error h b) as [x|] eqn:E; [|discriminate].
  assert (b < length h)%nat by (apply nth_error_Some; congruence).
  destruct (_ && _); [|discriminate]. intros X; injection X as <-. unfold splice.
  rewrite !app_length, firstn_length, skipn_length. cbn. lia.
Qed.

Lemma inv_step tr c hol priv pub t h c2 : inv tr c hol priv pub -> gstep body t c h c2 ->
  exists hol' priv' pub', inv (tr ++ next_access c t) c2 hol' priv' pub'.
Proof.
  intros [I1 I2 I3 I4 I5 I6 I7] G. destruct G as [o os H|o os p p' s' H ST|o os v H|o os e H];
    unfold next_access; rewrite H; cbn [access_of]; destruct (I5 _ _ H) as [F X]; cbn [todo cur] in *;
    (assert (Lt : (t < length (gs c))%nat) by (apply nth_error_Some; congruence)).
  - exists hol, priv, pub. rewrite app_nil_r. inversion F as [|? ? F1 F2]; subst. constructor; cbn; auto.
    intros u g. rewrite nth_error_set_nth by auto. destruct (Nat.eqb_spec u t) as [->|N]; [|apply I5].
    intros E; injection E as <-. cbn. split; auto. exists none, initial, false. split; [intros b []|]. split; [exact I3|].
    split; [discriminate|exact F1].
  - destruct X as (P & K & held & XP & XK & XH & D).
    (* the new owners and what [t] knows after the step *)
    assert (GO : forall a hol' priv' pub' P' K' held',
      access_of p (sh c) = Some a -> moves t a hol hol' ->
      (forall l, reads a l -> mine (priv t) l \/ (shared pub l /\ may_read (M l) t held)) ->
      (forall l, writes a l -> mine (priv t) l \/ (fresh (length (heap (sh c))) l /\ mine (priv' t) l) \/ (shared pub l /\ may_write (M l) t held)) ->
      (forall u b, priv u b -> priv' u b \/ (u = t /\ pub' b /\ hol' = hol /\ forall i, may_write (M (LByte b i)) t held)) ->
      (forall b, pub b -> pub' b) ->
      (forall l, reads a l \/ writes a l -> hol' = hol /\ (mine (priv t) l -> mine (priv' t) l)) ->
      (mu s' = false -> hol' = None) -> (Hd (b_buf (bb s')) /\ pub' (s_blk (b_buf (bb s')))) ->
      owners (length (heap s')) priv' pub' ->
      incl P' (priv' t) -> incl K' pub' -> (held' = true -> hol' = Some t) -> disc t P' K' held' yes (fun _ => True) p' ->
      exists hol' priv' pub', inv (tr ++ match access_of p (sh c) with Some a => [(t, a)] | None => [] end)
        (set_g c t s' (mkG os (Some (o, p')))) hol' priv' pub').
    { intros a hol' priv' pub' P' K' held' Ea MV RD WR PR PU KE Emu Ehd EO EP EK EH ED.
      exists hol', priv', pub'. rewrite Ea. constructor; cbn [sh gs set_g]; auto.
      - intros b Hb. apply PU, I3, Hb.
      - intros u g. rewrite nth_error_set_nth by auto. destruct (Nat.eqb_spec u t) as [->|N].
        + intros E; injection E as <-. cbn. split; auto. exists P', K', held'. auto.
        + intros Hg. destruct (I5 _ _ Hg) as [F' Y]. split; [exact F'|]. destruct (cur g) as [[o' q]|]; auto.
          destruct Y as (Pu & Ku & hu & Y1 & Y2 & Y3 & Y4). exists Pu, Ku, hu. repeat split; auto.
          * intros b Hb. destruct (PR u b (Y1 _ Hb)) as [?|[? _]]; [auto|congruence].
          * intros b Hb. auto.
          * intros E. specialize (Y3 E). destruct a; cbn in MV; try congruence; destruct MV; congruence.
      - apply (extend_past tr hol hol' priv priv' pub pub' (length (heap (sh c))) t a held); auto.
      - eapply (extend_ordered tr hol); eauto. }
    destruct p as [v|er| |k|sl k|fd k|fd v k|bk i k|bk i v k|db di sb si m k|ini k|k|l k|k|k];
      cbn [step1] in ST; try discriminate ST; cbn [disc] in D; try contradiction.
    + injection ST as <- <-. destruct D as [D1 D2].
      apply (GO (Rd LHeader) hol priv pub P (add K (s_blk (b_buf (bb (sh c))))) held); auto; try reflexivity.
      * cbn. intros l ->. right. split; [exact I|exact D1].
      * cbn. tauto.
      * intros b [Hb| ->]; [auto|apply I2].
      * apply D2, I2.
    + injection ST as <- <-. destruct D as (D1 & D2 & D3 & D4). cbn [set_bb bb upd_buf b_buf heap mu] in *.
      apply (GO (Wr LHeader) hol (fun u b => priv u b /\ b <> s_blk sl) (add pub (s_blk sl)) (del P (s_blk sl)) (add K (s_blk sl)) held); auto; try reflexivity.
      * cbn. tauto.
      * cbn. intros l ->. right; right. split; [exact I|exact D1].
      * intros u b Hb. destruct (Nat.eq_dec b (s_blk sl)) as [->|N]; [|left; auto]. right.
        destruct D3 as [D3|[D3 D5]]; [exfalso; eapply (o_shared _ _ _ I4); eauto|].
        assert (u = t) by (eapply (o_apart _ _ _ I4); eauto). subst u.
        split; auto. split; [right; auto|]. auto.
      * intros; left; auto.
      * cbn. intros l [[]| ->]. split; auto.
      * split; [exact D2|right; reflexivity].
      * constructor; intros *.
        -- intros [Hb| ->]; [now apply (o_pub _ _ _ I4)|]. destruct D3 as [D3|[D3 _]]; [now apply (o_pub _ _ _ I4), XK|now apply (o_priv _ _ _ I4 t), XP].
        -- intros [Hb _]. now apply (o_priv _ _ _ I4) in Hb.
        -- intros [Hb _] [Hb' _]. eapply (o_apart _ _ _ I4); eauto.
        -- intros [Hb N] [Hb'|E]; [eapply (o_shared _ _ _ I4); eauto|auto].
      * intros b [Hb N]. auto.
      * now apply add_mono.
    + injection ST as <- <-. destruct D as [D1 D2].
      apply (GO (Rd (LField fd)) hol priv pub P K held); auto; try reflexivity.
      * cbn. intros l ->. right. split; [exact I|exact D1].
      * cbn. tauto.
    + injection ST as <- <-. destruct D as [D1 D2].
      apply (GO (Wr (LField fd)) hol priv pub P K held); auto; try reflexivity.
      * cbn. tauto.
      * cbn. intros l ->. right; right. split; [exact I|exact D1].
      * destruct fd; exact I2.
    + destruct (heap_read _ _ _ _) as [[|x [|]]|]; try discriminate ST. injection ST as <- <-. destruct D as [D1 D2].
      apply (GO (Rd (LByte bk i)) hol priv pub P K held); auto; try reflexivity.
      * cbn. intros l ->. destruct D1 as [D1|[D1 D3]]; [left; cbn; auto|right; split; auto; cbn; auto].
      * cbn. tauto.
    + destruct (heap_write _ _ _ _) as [h|] eqn:EW; [|discriminate ST]. injection ST as <- <-. destruct D as [D1 D2].
      apply (GO (Wr (LByte bk i)) hol priv pub P K held); auto; try reflexivity.
      * cbn. tauto.
      * cbn. intros l ->. destruct D1 as [D1|[D1 D3]]; [left; cbn; auto|right; right; split; auto; cbn; auto].
      * cbn. rewrite (heap_write_length _ _ _ _ _ EW). exact I4.
    + destruct (heap_read _ _ _ _) as [x|]; [|discriminate ST].
      destruct (heap_write _ _ _ _) as [h|] eqn:EW; [|discriminate ST]. injection ST as <- <-. destruct D as (_ & _ & D1 & D2 & D3).
      apply (GO (Mv db di sb si m) hol priv pub P K held); auto; try reflexivity.
      * intros l (i & Hi & ->). destruct (D2 i Hi) as [D4|[D4 D5]]; [left; cbn; auto|right; split; auto; cbn; auto].
      * intros l (i & Hi & ->). destruct (D1 i Hi) as [D4|[D4 D5]]; [left; cbn; auto|right; right; split; auto; cbn; auto].
      * cbn. rewrite (heap_write_length _ _ _ _ _ EW). exact I4.
    + injection ST as <- <-. set (b := length (heap (sh c))) in *.
      apply (GO (New b) hol (fun u x => priv u x \/ (u = t /\ x = b)) pub (add P b) K held); auto; try reflexivity.
      * cbn. tauto.
      * cbn. intros l (i & ->). right; left. cbn. auto.
      * intros l _. split; auto. destruct l; cbn; auto.
      * assert (NP : forall u, ~ priv u b). { intros u Hu. apply (o_priv _ _ _ I4) in Hu. unfold b in Hu. lia. }
        assert (NB : ~ pub b). { intros Hu. apply (o_pub _ _ _ I4) in Hu. unfold b in Hu. lia. }
        cbn. rewrite app_length. cbn. constructor; intros *.
        -- intros Hb. apply (o_pub _ _ _ I4) in Hb. lia.
        -- intros [Hb|[_ ->]]; [apply (o_priv _ _ _ I4) in Hb|unfold b]; lia.
        -- intros [Hb|[-> ->]] [Hb'|[-> ?]]; try congruence; subst; try (exfalso; eapply NP; eauto; fail).
           eapply (o_apart _ _ _ I4); eauto.
        -- intros [Hb|[-> ->]] Hp; [eapply (o_shared _ _ _ I4); eauto|auto].
      * intros x [Hx| ->]; auto.
      * apply D. intros Hb. apply XK, (o_pub _ _ _ I4) in Hb. unfold b in Hb. lia.
    + destruct (mu (sh c)) eqn:Emu; [discriminate ST|]. injection ST as <- <-. destruct D as [-> D].
      apply (GO Acquire (Some t) priv pub P K true); auto; try reflexivity; try (cbn; tauto); cbn; discriminate.
    + destruct (mu (sh c)) eqn:Emu; [|discriminate ST]. injection ST as <- <-. destruct D as [-> D].
      apply (GO Release None priv pub P K false); auto; try reflexivity; try (cbn; tauto); discriminate.
  - exists hol, priv, pub. rewrite app_nil_r. constructor; cbn; auto.
    intros u g. rewrite nth_error_set_nth by auto. destruct (Nat.eqb_spec u t) as [->|N]; [|apply I5].
    intros E; injection E as <-. cbn. auto.
  - exists hol, priv, pub. rewrite app_nil_r. constructor; cbn; auto.
    intros u g. rewrite nth_error_set_nth by auto. destruct (Nat.eqb_spec u t) as [->|N]; [|apply I5].
    intros E; injection E as <-. cbn. auto.
Qed.

Theorem inv_traced s programs tr c :
  h0 = length (heap s) -> Hd (b_buf (bb s)) -> (s_blk (b_buf (bb s)) < h0)%nat ->
  (forall t os, nth_error programs t = Some os -> Forall (good t) os) ->
  traced body (start s programs) tr c -> exists hol priv pub, inv tr c hol priv pub.
Proof.
  intros E H1 H2 F T. induction T as [|tr c1 t h c2 _ IH G].
  - exists None, (fun _ _ => False), initial. constructor; cbn; auto.
    + apply incl_refl.
    + unfold initial. constructor; [lia|contradiction|contradiction|contradiction].
    + intros t g. rewrite nth_error_map. destruct (nth_error programs t) as [os|] eqn:En; [|discriminate].
      intros X; injection X as <-. cbn. split; eauto.
    + intros i u a l X. now destruct i.
    + intros i j t a u b _ X. now destruct i.
  - destruct IH as (hol & priv & pub & IH). eapply inv_step; eauto.
Qed.

(** Goroutines that keep the modes have no race. *)
Theorem disciplined s programs tr c :
  h0 = length (heap s) -> Hd (b_buf (bb s)) -> (s_blk (b_buf (bb s)) < h0)%nat ->
  (forall t os, nth_error programs t = Some os -> Forall (good t) os) ->
  traced body (start s programs) tr c -> race_free tr.
Proof.
  intros E H1 H2 F T i j (t & a & u & b & L & Hi & Hj & N & C & B).
  destruct (inv_traced s programs tr c E H1 H2 F T) as (hol & priv & pub & I). apply B. eapply (i_ordered _ _ _ _ _ I); eauto.
Qed.
End Inv.
End Discipline.
