(** * Conv: a program as the limit of its approximations.

    The interpreter of GoEval.v gives a call the meaning [P n], where [n] bounds
    the nesting of calls and loop rounds.  [conv R T P]: for [n] large enough the
    tree [P n] is the tree [T] - the same accesses, in the same order, with the
    same addresses and values, whatever the answers - with the results related by
    [R].  How large [n] must be may depend on the answers (the length of a buffer
    decides the number of rounds). *)
From Coq Require Import ZArith List Bool String Lia.
From Verif Require Import GoSem.
Import ListNotations.
Open Scope Z_scope.
Open Scope go_scope.

Fixpoint conv {A B} (R : A -> B -> Prop) (T : prog A) (P : nat -> prog B) : Prop :=
  match T with
  | Ret a => exists N b, R a b /\ forall n, (N <= n)%nat -> P n = Ret b
  | Panic e => exists N, forall n, (N <= n)%nat -> P n = Panic e
  | OutOfFuel => True
  | GetBuf k => exists N K, (forall n, (N <= n)%nat -> P n = GetBuf (K n)) /\ forall x, conv R (k x) (fun n => K n x)
  | SetBuf s k => exists N K, (forall n, (N <= n)%nat -> P n = SetBuf s (K n)) /\ conv R k K
  | GetF f k => exists N K, (forall n, (N <= n)%nat -> P n = GetF f (K n)) /\ forall x, conv R (k x) (fun n => K n x)
  | SetF f v k => exists N K, (forall n, (N <= n)%nat -> P n = SetF f v (K n)) /\ conv R k K
  | Load b i k => exists N K, (forall n, (N <= n)%nat -> P n = Load b i (K n)) /\ forall x, conv R (k x) (fun n => K n x)
  | Store b i v k => exists N K, (forall n, (N <= n)%nat -> P n = Store b i v (K n)) /\ conv R k K
  | Move db di sb si c k => exists N K, (forall n, (N <= n)%nat -> P n = Move db di sb si c (K n)) /\ conv R k K
  | Alloc l k => exists N K, (forall n, (N <= n)%nat -> P n = Alloc l (K n)) /\ forall x, conv R (k x) (fun n => K n x)
  | GetOuts k => exists N K, (forall n, (N <= n)%nat -> P n = GetOuts (K n)) /\ forall x, conv R (k x) (fun n => K n x)
  | SetOuts l k => exists N K, (forall n, (N <= n)%nat -> P n = SetOuts l (K n)) /\ conv R k K
  | Lock k => exists N K, (forall n, (N <= n)%nat -> P n = Lock (K n)) /\ conv R k K
  | Unlock k => exists N K, (forall n, (N <= n)%nat -> P n = Unlock (K n)) /\ conv R k K
  end.

Ltac conv_cases T IH :=
  induction T as
    [a | er | | k IH | sl k IH | fd k IH | fd v k IH | bk i k IH | bk i v k IH | db di sb si c' k IH | l k IH | k IH | l k IH
    | k IH | k IH].

(** Only the large [n] matter. *)
Lemma conv_ext {A B} (R : A -> B -> Prop) T P Q N :
  (forall n, (N <= n)%nat -> P n = Q n) -> conv R T P -> conv R T Q.
Proof.
  intros E.
  conv_cases T IH; cbn [conv]; try exact (fun H => H);
    try (intros [M [K [HK H]]]; exists (N + M)%nat, K; split; [intros n Hn; rewrite <- E by lia; apply HK; lia | exact H]).
  - intros [M [b [Hb H]]]. exists (N + M)%nat, b. split; [exact Hb|].
    intros n Hn. rewrite <- E by lia. apply H; lia.
  - intros [M H]. exists (N + M)%nat. intros n Hn. rewrite <- E by lia. apply H; lia.
Qed.

(** One more level. *)
Lemma conv_S {A B} (R : A -> B -> Prop) T : forall P, conv R T (fun n => P (S n)) -> conv R T P.
Proof.
  conv_cases T IH; intros P; cbn [conv]; try exact (fun H => H);
    try (intros [M [K [HK H]]]; exists (S M), (fun n => K (pred n)); split;
         [intros [|n] Hn; [lia | apply HK; lia] | first [intros x; apply IH; exact (H x) | apply IH; exact H]]).
  - intros [M [b [Hb H]]]. exists (S M), b. split; [exact Hb|]. intros [|n] Hn; [lia|]. apply H; lia.
  - intros [M H]. exists (S M). intros [|n] Hn; [lia|]. apply H; lia.
Qed.

Lemma conv_bind {A B C D} (R : A -> B -> Prop) (R' : C -> D -> Prop) f : forall T P g,
  conv R T P -> (forall a b, R a b -> conv R' (f a) (fun n => g n b)) ->
  conv R' (bind T f) (fun n => bind (P n) (g n)).
Proof.
  intros T; conv_cases T IH; intros P g; cbn [conv bind]; intros H HF; try exact I;
    try (destruct H as [M [K [HK H]]]; exists M, (fun n => bind (K n) (g n));
         split; [intros n Hn; rewrite HK by lia; reflexivity | apply (IH _ g); assumption]);
    try (destruct H as [M [K [HK H]]]; exists M, (fun n x => bind (K n x) (g n));
         split; [intros n Hn; rewrite HK by lia; reflexivity
                | intros x; apply (IH x (fun n => K n x) g); [apply H | assumption]]).
  - destruct H as [M [b [Hb H]]]. apply (conv_ext _ _ (fun n => g n b) _ M); [|apply HF; exact Hb].
    intros n Hn. rewrite H by lia. reflexivity.
  - destruct H as [M H]. exists M. intros n Hn. rewrite H by lia. reflexivity.
Qed.

(** The same program on both sides. *)
Lemma conv_refl {A} (p : prog A) : conv eq p (fun _ => p).
Proof.
  conv_cases p IH; cbn [conv]; try exact I;
    try (exists 0%nat, (fun _ => k); split; [reflexivity | exact IH]).
  - exists 0%nat, a; auto.
  - exists 0%nat; auto.
Qed.
Lemma conv_same {A C D} (R : C -> D -> Prop) (p : prog A) f g :
  (forall x, conv R (f x) (fun n => g n x)) -> conv R (bind p f) (fun n => bind p (g n)).
Proof.
  intros H. apply (conv_bind eq R f p (fun _ => p) g (conv_refl p)). intros a b ->. apply H.
Qed.
Lemma conv_same_r {A D} (R : A -> D -> Prop) (p : prog A) g :
  (forall x, conv R (Ret x) (fun n => g n x)) -> conv R p (fun n => bind p (g n)).
Proof.
  revert g; conv_cases p IH; intros g H; cbn [conv bind]; try exact I;
    try (exists 0%nat, (fun n => bind k (g n)); split; [reflexivity | apply IH; exact H]);
    try (exists 0%nat, (fun n x => bind (k x) (g n)); split; [reflexivity | intros x; apply IH; exact H]).
  - exact (H a).
  - exists 0%nat; auto.
Qed.

Lemma conv_assoc {A B C D} (R : C -> D -> Prop) (p : prog A) (f : A -> prog B) g :
  forall P, conv R (bind p (fun x => bind (f x) g)) P -> conv R (bind (bind p f) g) P.
Proof.
  conv_cases p IH; intros P; cbn [conv bind]; try exact (fun H => H);
    intros [M [K [HK H]]]; exists M, K; (split; [exact HK|]);
    first [intros x; apply IH; apply H | apply IH; exact H].
Qed.
Lemma conv_ret_r {A D} (R : A -> D -> Prop) (p : prog A) :
  forall P, conv R (bind p (fun x => Ret x)) P -> conv R p P.
Proof.
  conv_cases p IH; intros P; cbn [conv bind]; try exact (fun H => H);
    intros [M [K [HK H]]]; exists M, K; (split; [exact HK|]);
    first [intros x; apply IH; apply H | apply IH; exact H].
Qed.

Lemma conv_ret {A B} (R : A -> B -> Prop) a b : R a b -> conv R (Ret a) (fun _ => Ret b).
Proof. intros H. exists 0%nat, b. auto. Qed.
Lemma conv_panic {A B} (R : A -> B -> Prop) e : conv R (Panic e) (fun _ => Panic e).
Proof. exists 0%nat. auto. Qed.
Lemma conv_mono {A B} (R R' : A -> B -> Prop) T : (forall a b, R a b -> R' a b) -> forall P, conv R T P -> conv R' T P.
Proof.
  intros HR. conv_cases T IH; intros P; cbn [conv]; try exact (fun H => H);
    try (intros [M [K [HK H]]]; exists M, K; (split; [exact HK|]); first [intros x; apply IH; apply H | apply IH; exact H]).
  intros [M [b [Hb H]]]. exists M, b. auto.
Qed.

(** [defer] *)
Lemma conv_finally {A B} (R : A -> B -> Prop) (c : prog unit) : forall T P,
  conv R T P -> conv R (finally T c) (fun n => finally (P n) c).
Proof.
  intros T; conv_cases T IH; intros P; cbn [conv finally]; intros H; try exact I;
    try (destruct H as [M [K [HK H]]]; exists M, (fun n => finally (K n) c);
         split; [intros n Hn; rewrite HK by lia; reflexivity | apply IH; assumption]);
    try (destruct H as [M [K [HK H]]]; exists M, (fun n x => finally (K n x) c);
         split; [intros n Hn; rewrite HK by lia; reflexivity
                | intros x; apply (IH x (fun n => K n x)); apply H]).
  - destruct H as [M [b [Hb H]]].
    apply (conv_ext _ _ (fun n => bind c (fun _ => Ret b)) _ M).
    + intros n Hn. rewrite H by lia. reflexivity.
    + apply conv_same. intros _. apply conv_ret; exact Hb.
  - destruct H as [M H].
    apply (conv_ext _ _ (fun n => bind c (fun _ => Panic er)) _ M).
    + intros n Hn. rewrite H by lia. reflexivity.
    + apply conv_same. intros _. apply conv_panic.
Qed.

(** Every value [T] can return satisfies [Q]. *)
Fixpoint leaves {A} (Q : A -> Prop) (T : prog A) : Prop :=
  match T with
  | Ret a => Q a
  | Panic _ | OutOfFuel => True
  | GetBuf k => forall x, leaves Q (k x)
  | SetBuf _ k | SetF _ _ k | Store _ _ _ k | Move _ _ _ _ _ k | SetOuts _ k | Lock k | Unlock k => leaves Q k
  | GetF _ k => forall x, leaves Q (k x)
  | Load _ _ k => forall x, leaves Q (k x)
  | Alloc _ k => forall x, leaves Q (k x)
  | GetOuts k => forall x, leaves Q (k x)
  end.
Lemma conv_leaves {A B} (R : A -> B -> Prop) (Q : A -> Prop) T : forall P,
  leaves Q T -> conv R T P -> conv (fun a b => R a b /\ Q a) T P.
Proof.
  conv_cases T IH; intros P; cbn [conv leaves]; intros HQ H; try exact H; try exact I;
    try (destruct H as [M [K [HK H]]]; exists M, K; (split; [exact HK|]);
         first [intros x; apply IH; [apply HQ | apply H] | apply IH; [exact HQ | exact H]]).
  destruct H as [M [b [Hb H]]]. exists M, b. auto.
Qed.
Lemma leaves_bind {A B} (Q : B -> Prop) (p : prog A) (f : A -> prog B) :
  (forall x, leaves Q (f x)) -> leaves Q (bind p f).
Proof. intros H. conv_cases p IH; cbn [bind leaves]; auto. Qed.

Lemma leaves_finally {A} (Q : A -> Prop) (p : prog A) c : leaves Q p -> leaves Q (finally p c).
Proof.
  intros H. conv_cases p IH; cbn [finally leaves] in *; auto.
  - apply leaves_bind. intros. exact H.
  - apply leaves_bind. intros. exact I.
Qed.

(** ** What it means for executions *)

Inductive res_rel {A B} (R : A -> B -> Prop) : res A -> res B -> Prop :=
| rel_done a b s : R a b -> res_rel R (Done a s) (Done b s)
| rel_panic e s : res_rel R (Panicked e s) (Panicked e s)
| rel_dead s : res_rel R (Deadlock s) (Deadlock s).

(** An execution of [T] that the model does not give up on is the execution of
    all the [P n] from some [n] on. *)
Theorem conv_run {A B} (R : A -> B -> Prop) T : forall P s,
  conv R T P -> run T s <> Stuck ->
  exists N, forall n, (N <= n)%nat -> res_rel R (run T s) (run (P n) s).
Proof.
  conv_cases T IH; intros P st; cbn [conv run]; intros H HS; try congruence.
  - destruct H as [M [b [Hb H]]]. exists M. intros n Hn. rewrite H by lia. constructor; exact Hb.
  - destruct H as [M H]. exists M. intros n Hn. rewrite H by lia. constructor.
  - destruct H as [M [K [HK H]]].
    destruct (IH (b_buf (bb st)) (fun n => K n (b_buf (bb st))) st (H _) HS) as [N HN].
    exists (M + N)%nat. intros n Hn. rewrite HK by lia. apply HN; lia.
  - destruct H as [M [K [HK H]]].
    destruct (IH K _ H HS) as [N HN].
    exists (M + N)%nat. intros n Hn. rewrite HK by lia. apply HN; lia.
  - destruct H as [M [K [HK H]]].
    destruct (IH _ (fun n => K n _) st (H (get_fld (bb st) fd)) HS) as [N HN].
    exists (M + N)%nat. intros n Hn. rewrite HK by lia. apply HN; lia.
  - destruct H as [M [K [HK H]]].
    destruct (IH K _ H HS) as [N HN].
    exists (M + N)%nat. intros n Hn. rewrite HK by lia. apply HN; lia.
  - destruct H as [M [K [HK H]]].
    destruct (heap_read (heap st) bk i 1) as [[|w [|? ?]]|] eqn:E; try congruence.
    destruct (IH w (fun n => K n w) st (H w) HS) as [N HN].
    exists (M + N)%nat. intros n Hn. rewrite HK by lia. cbn [run]. rewrite E. apply HN; lia.
  - destruct H as [M [K [HK H]]].
    destruct (heap_write (heap st) bk i [v]) as [h|] eqn:E; try congruence.
    destruct (IH K _ H HS) as [N HN].
    exists (M + N)%nat. intros n Hn. rewrite HK by lia. cbn [run]. rewrite E. apply HN; lia.
  - destruct H as [M [K [HK H]]].
    destruct (heap_read (heap st) sb si c') as [d|] eqn:E1; try congruence.
    destruct (heap_write (heap st) db di d) as [h|] eqn:E2; try congruence.
    destruct (IH K _ H HS) as [N HN].
    exists (M + N)%nat. intros n Hn. rewrite HK by lia. cbn [run]. rewrite E1, E2. apply HN; lia.
  - destruct H as [M [K [HK H]]].
    destruct (IH _ (fun n => K n _) _ (H (List.length (heap st))) HS) as [N HN].
    exists (M + N)%nat. intros n Hn. rewrite HK by lia. apply HN; lia.
  - destruct H as [M [K [HK H]]].
    destruct (IH (outs st) (fun n => K n (outs st)) st (H _) HS) as [N HN].
    exists (M + N)%nat. intros n Hn. rewrite HK by lia. apply HN; lia.
  - destruct H as [M [K [HK H]]].
    destruct (IH K _ H HS) as [N HN].
    exists (M + N)%nat. intros n Hn. rewrite HK by lia. apply HN; lia.
  - destruct H as [M [K [HK H]]]. destruct (mu st) eqn:E.
    + exists M. intros n Hn. rewrite HK by lia. cbn [run]. rewrite E. constructor.
    + destruct (IH K _ H HS) as [N HN].
      exists (M + N)%nat. intros n Hn. rewrite HK by lia. cbn [run]. rewrite E. apply HN; lia.
  - destruct H as [M [K [HK H]]]. destruct (mu st) eqn:E; try congruence.
    destruct (IH K _ H HS) as [N HN].
    exists (M + N)%nat. intros n Hn. rewrite HK by lia. cbn [run]. rewrite E. apply HN; lia.
Qed.
