(** * LockLemmas: programs around a mutex. *)
From Coq Require Import ZArith List Bool Lia.
From Verif Require Import GoSem Errors Spec GoLemmas.
Import ListNotations.
Open Scope Z_scope.

(** A program that does not touch the mutex. *)
Fixpoint lockfree {A} (p : prog A) : Prop :=
  match p with
  | Ret _ | Panic _ | OutOfFuel => True
  | GetBuf k => forall x, lockfree (k x)
  | SetBuf _ k => lockfree k
  | GetF _ k => forall x, lockfree (k x)
  | SetF _ _ k => lockfree k
  | Load _ _ k => forall x, lockfree (k x)
  | Store _ _ _ k => lockfree k
  | Move _ _ _ _ _ k => lockfree k
  | Alloc _ k => forall x, lockfree (k x)
  | GetOuts k => forall x, lockfree (k x)
  | SetOuts _ k => lockfree k
  | Lock _ | Unlock _ => False
  end.

Lemma lockfree_bind {A B} (p : prog A) (f : A -> prog B) :
  lockfree p -> (forall a, lockfree (f a)) -> lockfree (bind p f).
Proof. intros Hp Hf. induction p; cbn in *; auto. Qed.

Lemma lockfree_panic_if c e : lockfree (panic_if c e).
Proof. destruct c; exact I. Qed.
Lemma lockfree_slice_get s i : lockfree (slice_get s i).
Proof. unfold slice_get. destruct (_ && _); cbn; auto. Qed.
Lemma lockfree_slice_set s i v : lockfree (slice_set s i v).
Proof. unfold slice_set. destruct (_ && _); cbn; auto. Qed.
Lemma lockfree_buf_get i : lockfree (buf_get i).
Proof. unfold buf_get. apply lockfree_bind. cbn; auto. intro; apply lockfree_slice_get. Qed.
Lemma lockfree_buf_set i v : lockfree (buf_set i v).
Proof. unfold buf_set. apply lockfree_bind. cbn; auto. intro; apply lockfree_slice_set. Qed.
Lemma lockfree_reslice s a b : lockfree (reslice s a b).
Proof. unfold reslice. destruct (_ && _); exact I. Qed.
Lemma lockfree_make_bytes a b : lockfree (make_bytes a b).
Proof. unfold make_bytes. destruct (_ && _); cbn; auto. Qed.
Lemma lockfree_make_elems a b : lockfree (make_elems a b).
Proof. unfold make_elems. destruct (_ && _); cbn; auto. Qed.
Lemma lockfree_append pol s d : lockfree (append pol s d).
Proof. unfold append. destruct (_ <=? _); cbn; auto. destruct (_ <=? _); cbn; auto. Qed.
Lemma lockfree_elem l i : lockfree (elem l i).
Proof. unfold elem. destruct (_ && _); cbn; auto. Qed.
Lemma lockfree_set_elem l i v : lockfree (set_elem l i v).
Proof. unfold set_elem. destruct (_ && _); cbn; auto. Qed.
Lemma lockfree_dw {S} n (body : Z -> S -> prog S) :
  (forall i a, lockfree (body i a)) -> forall fuel i a, lockfree (dw fuel n body i a).
Proof.
  intros H. induction fuel as [|f IH]; intros i a; cbn; auto.
  apply lockfree_bind; auto. intro a'. destruct (_ <? _); cbn; auto.
Qed.
Lemma lockfree_goto_loop {S} n (body : Z -> S -> prog S) a :
  (forall i a, lockfree (body i a)) -> lockfree (goto_loop n body a).
Proof. intro H. now apply lockfree_dw. Qed.
Lemma lockfree_fl {S} n (body : Z -> S -> prog S) :
  (forall i a, lockfree (body i a)) -> forall fuel i a, lockfree (fl fuel n body i a).
Proof.
  intros H. induction fuel as [|f IH]; intros i a; cbn; destruct (_ <? _); cbn; auto.
  apply lockfree_bind; auto.
Qed.
Lemma lockfree_for_loop {S} n (body : Z -> S -> prog S) a :
  (forall i a, lockfree (body i a)) -> lockfree (for_loop n body a).
Proof. intro H. now apply lockfree_fl. Qed.

(** Decide [lockfree] by walking the program. *)
Ltac lockfree_tac :=
  repeat first
    [ exact I
    | apply lockfree_panic_if | apply lockfree_slice_get | apply lockfree_slice_set
    | apply lockfree_buf_get | apply lockfree_buf_set | apply lockfree_reslice
    | apply lockfree_make_bytes | apply lockfree_make_elems | apply lockfree_append
    | apply lockfree_elem | apply lockfree_set_elem
    | apply lockfree_goto_loop | apply lockfree_for_loop
    | apply lockfree_bind
    | progress intros
    | match goal with |- lockfree (if ?c then _ else _) => destruct c end
    | progress cbn [lockfree get_buf set_buf get set copy empty_slice lit_bytes] ].

(** ** The mutex does not influence a lock-free program *)

Definition res_mu {A} (m : bool) (r : res A) : res A :=
  match r with
  | Done a s => Done a (set_mu s m)
  | Panicked e s => Panicked e (set_mu s m)
  | Deadlock s => Deadlock (set_mu s m)
  | Stuck => Stuck
  end.

Lemma run_set_mu {A} (p : prog A) m : lockfree p -> forall st, run p (set_mu st m) = res_mu m (run p st).
Proof.
  induction p; cbn [lockfree]; intros L st; try (now destruct L); cbn [run]; try reflexivity;
    change (bb (set_mu st m)) with (bb st); change (heap (set_mu st m)) with (heap st);
    change (outs (set_mu st m)) with (outs st).
  - now apply H.
  - exact (IHp L (set_bb st _)).
  - now apply H.
  - exact (IHp L (set_bb st _)).
  - destruct (heap_read _ _ _ _) as [[|v [|]]|]; try reflexivity. now apply H.
  - destruct (heap_write _ _ _ _); try reflexivity. exact (IHp L (set_heap st _)).
  - destruct (heap_read _ _ _ _); try reflexivity. destruct (heap_write _ _ _ _); try reflexivity.
    exact (IHp L (set_heap st _)).
  - exact (H _ (L _) (set_heap st _)).
  - now apply H.
  - exact (IHp L (set_outs st _)).
Qed.

(** ... and does not change it. *)
Definition res_keeps (m : bool) {A} (r : res A) : Prop :=
  match r with Done _ s | Panicked _ s => mu s = m | Deadlock _ => False | Stuck => True end.

Lemma run_keeps_mu {A} (p : prog A) : lockfree p -> forall st, res_keeps (mu st) (run p st).
Proof.
  induction p; cbn [lockfree]; intros L st; try (now destruct L); cbn [run]; try reflexivity; try exact I.
  - now apply H.
  - exact (IHp L (set_bb st _)).
  - now apply H.
  - exact (IHp L (set_bb st _)).
  - destruct (heap_read _ _ _ _) as [[|v [|]]|]; try exact I. now apply H.
  - destruct (heap_write _ _ _ _); try exact I. exact (IHp L (set_heap st _)).
  - destruct (heap_read _ _ _ _); try exact I. destruct (heap_write _ _ _ _); try exact I.
    exact (IHp L (set_heap st _)).
  - exact (H _ (L _) (set_heap st _)).
  - now apply H.
  - exact (IHp L (set_outs st _)).
Qed.

Lemma set_mu_id s m : mu s = m -> set_mu s m = s.
Proof. intros <-. destruct s; reflexivity. Qed.
Lemma set_mu_set_mu s m m' : set_mu (set_mu s m) m' = set_mu s m'.
Proof. reflexivity. Qed.

(** Running [p] and then releasing the mutex, whatever happened. *)
Lemma run_finally_unlock {A} (p : prog A) : lockfree p -> forall st, mu st = true ->
  run (finally p unlock) st = res_mu false (run p st).
Proof.
  induction p; cbn [lockfree]; intros L st M; try (now destruct L); cbn [finally run].
  - cbn [bind unlock run]. now rewrite M.
  - cbn [bind unlock run]. now rewrite M.
  - apply (H _ (L _)); exact M.
  - exact (IHp L (set_bb st _) M).
  - apply (H _ (L _)); exact M.
  - exact (IHp L (set_bb st _) M).
  - destruct (heap_read _ _ _ _) as [[|v [|]]|]; try reflexivity. apply (H _ (L _)); exact M.
  - destruct (heap_write _ _ _ _); try reflexivity. exact (IHp L (set_heap st _) M).
  - destruct (heap_read _ _ _ _); try reflexivity. destruct (heap_write _ _ _ _); try reflexivity.
    exact (IHp L (set_heap st _) M).
  - exact (H _ (L _) (set_heap st _) M).
  - apply (H _ (L _)); exact M.
  - exact (IHp L (set_outs st _) M).
Qed.

Lemma res_mu_keeps {A} m (r : res A) : res_keeps m r -> res_mu m r = r.
Proof. destruct r; cbn; intro H; try rewrite (set_mu_id s m H); try reflexivity. now destruct H. Qed.

Lemma res_mu_mu {A} m m' (r : res A) : res_mu m (res_mu m' r) = res_mu m r.
Proof. destruct r; reflexivity. Qed.

(** [b.Lock(); defer b.Unlock(); p] on an unlocked mutex is [p]. *)
Theorem run_locked {A} (p : prog A) s : lockfree p -> mu s = false -> run (locked p) s = run p s.
Proof.
  intros L M. unfold locked, lock. cbn [bind run]. rewrite M.
  rewrite run_finally_unlock by auto. rewrite run_set_mu by auto. rewrite res_mu_mu.
  apply res_mu_keeps. rewrite <- M. now apply run_keeps_mu.
Qed.

Theorem run_locked_deadlock {A} (p : prog A) s : mu s = true -> run (locked p) s = Deadlock s.
Proof. intros M. unfold locked, lock. cbn [bind run]. now rewrite M. Qed.

(** [b.Lock(); p; b.Unlock()] without [defer]: a panic leaves the mutex locked. *)
Theorem run_lock_unlock {A} (p : prog A) s : lockfree p -> mu s = false ->
  run (lock ;; p ;; unlock) s =
  match run p s with
  | Done _ s' => Done tt s'
  | Panicked e s' => Panicked e (set_mu s' true)
  | Deadlock s' => Deadlock s'
  | Stuck => Stuck
  end.
Proof.
  intros L M. unfold lock. cbn [bind run]. rewrite M, run_bind, run_set_mu by auto.
  pose proof (run_keeps_mu p L s) as K.
  destruct (run p s) as [a s'|e s'|s'|]; cbn [res_mu]; try reflexivity.
  - change (run unlock (set_mu s' true)) with (Done tt (set_mu s' false)).
    cbn in K. rewrite (set_mu_id s' false) by congruence. reflexivity.
  - destruct K.
Qed.
Theorem run_lock_deadlock {A} (p : prog A) s : mu s = true -> run (lock ;; p) s = Deadlock s.
Proof. intros M. unfold lock. cbn [bind run]. now rewrite M. Qed.

(** ** Loops whose bodies agree *)

Lemma dw_ext {S} (P : St -> Prop) n (b1 b2 : Z -> S -> prog S) :
  (forall i a s, P s -> run (b1 i a) s = run (b2 i a) s) ->
  (forall i a s a' s', P s -> run (b2 i a) s = Done a' s' -> P s') ->
  forall fuel i a s, P s -> run (dw fuel n b1 i a) s = run (dw fuel n b2 i a) s.
Proof.
  intros H1 H2. induction fuel as [|f IH]; intros i a s M; cbn; auto.
  rewrite !run_bind, H1 by auto.
  destruct (run (b2 i a) s) as [a' s'|e s'|s'|] eqn:E; auto.
  destruct (_ <? _); auto. apply IH. eauto.
Qed.
Lemma goto_loop_ext {S} (P : St -> Prop) n (b1 b2 : Z -> S -> prog S) a s :
  (forall i a s, P s -> run (b1 i a) s = run (b2 i a) s) ->
  (forall i a s a' s', P s -> run (b2 i a) s = Done a' s' -> P s') ->
  P s -> run (goto_loop n b1 a) s = run (goto_loop n b2 a) s.
Proof. intros H1 H2. now apply dw_ext. Qed.
Lemma fl_ext {S} (P : St -> Prop) n (b1 b2 : Z -> S -> prog S) :
  (forall i a s, P s -> run (b1 i a) s = run (b2 i a) s) ->
  (forall i a s a' s', P s -> run (b2 i a) s = Done a' s' -> P s') ->
  forall fuel i a s, P s -> run (fl fuel n b1 i a) s = run (fl fuel n b2 i a) s.
Proof.
  intros H1 H2. induction fuel as [|f IH]; intros i a s M; cbn; auto.
  destruct (_ <? _); auto. rewrite !run_bind, H1 by auto.
  destruct (run (b2 i a) s) as [a' s'|e s'|s'|] eqn:E; auto.
  apply IH. eauto.
Qed.

(** When at least one iteration runs, the [for] loop and the [goto] loop are the same. *)
Lemma fl_dw {S} n (body : Z -> S -> prog S) : n < 2 ^ 63 -> forall fuel i a,
  0 <= i < n -> (Z.to_nat (n - i) <= fuel)%nat ->
  fl fuel n body i a = bind (body i a) (fun a' => fl (pred fuel) n body (i +! 1) a').
Proof.
  intros Hn fuel i a Hi Hf. destruct fuel; [lia|]. cbn. now replace (i <? n) with true by lia.
Qed.
Lemma for_loop_goto {S} n (body : Z -> S -> prog S) a s : 1 <= n < 2 ^ 63 ->
  run (for_loop n body a) s = run (goto_loop n body a) s.
Proof.
  intro Hn. unfold for_loop, goto_loop.
  assert (H : forall k i a s, 0 <= i < n -> Z.to_nat (n - i) = k ->
    run (fl k n body i a) s = run (dw (Datatypes.S k) n body i a) s).
  { induction k as [|k IH]; intros i b t Hi Hk; [lia|].
    cbn [fl]. cbn [dw]. replace (i <? n) with true by lia.
    rewrite !run_bind. destruct (run (body i b) t) as [b' t'|e t'|t'|]; auto.
    rewrite (add64_id i 1) by (unfold is_i64; lia).
    destruct (Z.ltb_spec (i + 1) n).
    - rewrite IH by lia. reflexivity.
    - destruct k; cbn; now replace (i + 1 <? n) with false by lia. }
  rewrite H by lia. reflexivity.
Qed.
Lemma for_loop_none {S} n (body : Z -> S -> prog S) a s : n <= 0 -> run (for_loop n body a) s = Done a s.
Proof.
  intro Hn. unfold for_loop. replace (Z.to_nat n) with O by lia. cbn.
  now replace (0 <? n) with false by lia.
Qed.
