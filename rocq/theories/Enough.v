(** * Enough: the loop bounds of the models are never reached.

    A model has a bound of its own on each loop ([OutOfFuel] in GoSem.v).  [enough]
    says that the bound is never reached, whatever memory answers, as long as
    every slice header has a length and a capacity that fit in an [int]. *)
From Coq Require Import ZArith List Bool Lia ZifyBool.
From Verif Require Import GoSem GoLemmas GoEval Front Tables.
From Verif Require GoBinary V1Buffer.
Import ListNotations.
Open Scope Z_scope.
Open Scope go_scope.

(** The length and the capacity are values of type [int]. *)
Definition short (s : slice) : Prop := s_len s < 2 ^ 63 /\ s_cap s < 2 ^ 63.

Fixpoint enough {A} (Q : A -> Prop) (p : prog A) : Prop :=
  match p with
  | Ret a => Q a
  | Panic _ => True
  | OutOfFuel => False
  | GetBuf k => forall s, short s -> enough Q (k s)
  | SetBuf s k => short s /\ enough Q k
  | GetF _ k => forall v, enough Q (k v)
  | SetF _ _ k => enough Q k
  | Load _ _ k => forall v, enough Q (k v)
  | Store _ _ _ k => enough Q k
  | Move _ _ _ _ _ k => enough Q k
  | Alloc _ k => forall b, enough Q (k b)
  | GetOuts k => forall l, enough Q (k l)
  | SetOuts _ k => enough Q k
  | Lock k => enough Q k
  | Unlock k => enough Q k
  end.

Definition any {A : Type} : A -> Prop := fun _ => True.

Lemma enough_impl {A} (Q R : A -> Prop) (p : prog A) : (forall a, Q a -> R a) -> enough Q p -> enough R p.
Proof.
  intros H. induction p; cbn; auto; try (intros [? ?]; auto; fail); intros; auto.
Qed.
Lemma enough_any {A} (Q : A -> Prop) (p : prog A) : enough Q p -> enough any p.
Proof. apply enough_impl. intros; exact I. Qed.
Lemma enough_bind {A B} (Q : A -> Prop) (R : B -> Prop) (p : prog A) (f : A -> prog B) :
  enough Q p -> (forall a, Q a -> enough R (f a)) -> enough R (bind p f).
Proof.
  intros H F. induction p; cbn in *; auto; destruct H; auto.
Qed.
Lemma enough_finally {A} (Q : A -> Prop) (p : prog A) c : enough Q p -> enough any c -> enough Q (finally p c).
Proof.
  intros H C. induction p; cbn in *; auto; try (destruct H; auto; fail).
  - eapply enough_bind; [exact C|]. auto.
  - eapply enough_bind; [exact C|]. cbn. auto.
Qed.
Lemma enough_locked {A} (Q : A -> Prop) (p : prog A) : enough Q p -> enough Q (locked p).
Proof. intros H. unfold locked. cbn [bind lock enough]. apply enough_finally; [exact H|exact I]. Qed.

Lemma enough_dw {S} (I : S -> Prop) n (body : Z -> S -> prog S) : n < 2 ^ 63 ->
  (forall i a, I a -> enough I (body i a)) ->
  forall f i a, 0 <= i -> i < Z.max 1 n -> (Z.to_nat (n - i) < f)%nat -> I a -> enough I (dw f n body i a).
Proof.
  intros Hn HB. induction f as [|f IH]; intros i a Hi Hm Hf Ha; [lia|]. cbn [dw].
  apply (enough_bind I); [now apply HB|]. intros b Hb.
  destruct (Z.ltb_spec (i +! 1) n) as [L|L]; [|exact Hb].
  assert (E : i +! 1 = i + 1) by (apply wrap64_id; unfold is_i64; lia).
  rewrite E in *. apply IH; auto; lia.
Qed.
Lemma enough_goto_loop {S} (I : S -> Prop) n (body : Z -> S -> prog S) a : n < 2 ^ 63 ->
  (forall i a, I a -> enough I (body i a)) -> I a -> enough I (goto_loop n body a).
Proof. intros Hn HB Ha. apply enough_dw; auto; lia. Qed.
Lemma enough_fl {S} (I : S -> Prop) n (body : Z -> S -> prog S) : n < 2 ^ 63 ->
  (forall i a, I a -> enough I (body i a)) ->
  forall f i a, 0 <= i -> (Z.to_nat (n - i) <= f)%nat -> I a -> enough I (fl f n body i a).
Proof.
  intros Hn HB. induction f as [|f IH]; intros i a Hi Hf Ha; cbn [fl]; destruct (Z.ltb_spec i n) as [L|L]; try exact Ha; [lia|].
  apply (enough_bind I); [now apply HB|]. intros b Hb.
  assert (E : i +! 1 = i + 1) by (apply wrap64_id; unfold is_i64; lia).
  rewrite E. apply IH; auto; lia.
Qed.
Lemma enough_for_loop {S} (I : S -> Prop) n (body : Z -> S -> prog S) a : n < 2 ^ 63 ->
  (forall i a, I a -> enough I (body i a)) -> I a -> enough I (for_loop n body a).
Proof. intros Hn HB Ha. apply enough_fl; auto; lia. Qed.

(** The slices that the primitives make. *)
Lemma enough_reslice s lo hi : short s -> enough short (reslice s lo hi).
Proof.
  intros [H1 H2]. unfold reslice. destruct (_ && _) eqn:E; [|exact I]. split; cbn; lia.
Qed.
Lemma enough_make_bytes n c : enough short (make_bytes n c).
Proof.
  unfold make_bytes. destruct (_ && _) eqn:E; [|exact I]. intros b. unfold maxAlloc in *. split; cbn; lia.
Qed.
Lemma enough_append pol s d : short s -> enough short (append pol s d).
Proof.
  intros [H1 H2]. unfold append. destruct (_ <=? _) eqn:E; [split; cbn; lia|]. destruct (_ <=? maxAlloc) eqn:E2; [|exact I].
  intros b. unfold new_cap, maxAlloc in *. split; cbn; lia.
Qed.
Lemma enough_fix_store b k l : forall (p := GoBinary.store_all b k l), enough any p.
Proof.
  revert k. induction l as [|x l IH]; intros k; cbn; [exact I|].
  apply (enough_bind any); [|intros ? _; apply IH]. unfold slice_set. destruct (_ && _); exact I.
Qed.

(** ** The rows of the tables *)

Ltac head_of t := lazymatch t with ?f _ => head_of f | _ => t end.
Ltac size_tac :=
  solve [ exact I | assumption | match goal with H : _ /\ Forall short [?s] |- short ?s => exact (Forall_inv (proj2 H)) end | unfold short, is_i64, zlen in *; cbn in *; lia | unfold short, is_i64 in *; intuition lia ].
Ltac enough1 :=
  lazymatch goal with
  | |- forall _, _ => intro
  | |- _ /\ _ => split
  | |- enough _ (Ret _) => cbn [enough]
  | |- enough _ (Panic _) => exact I
  | |- enough _ (bind (V1Buffer.as_bytes _) _) => cbn [V1Buffer.as_bytes bind]
  | |- enough _ (bind (V1Buffer.as_u16 _) _) => cbn [V1Buffer.as_u16 bind]
  | |- enough _ (bind (V1Buffer.as_u32 _) _) => cbn [V1Buffer.as_u32 bind]
  | |- enough _ (bind (V1Buffer.as_u64 _) _) => cbn [V1Buffer.as_u64 bind]
  | |- enough _ (@bind slice _ _ _) => apply (enough_bind short); [|intros ? ?]
  | |- enough _ (bind _ _) => apply (enough_bind any); [|intros ? _]
  | |- enough _ (locked _) => apply enough_locked
  | |- enough any (goto_loop _ _ _) => apply (enough_goto_loop any); [|intros ? ? _|]
  | |- enough any (for_loop _ _ _) => apply (enough_for_loop any); [|intros ? ? _|]
  | |- enough short (reslice _ _ _) => apply enough_reslice
  | |- enough any (reslice _ _ _) => apply (enough_any short), enough_reslice
  | |- enough short (make_bytes _ _) => apply enough_make_bytes
  | |- enough any (make_bytes _ _) => apply (enough_any short), enough_make_bytes
  | |- enough short (append _ _ _) => apply enough_append
  | |- enough any (append _ _ _) => apply (enough_any short), enough_append
  | |- enough any (GoBinary.store_all _ _ _) => apply enough_fix_store
  | |- enough _ (if ?b then _ else _) => destruct b
  | |- enough _ (match ?x with _ => _ end) => destruct x
  | |- enough _ (GetBuf _) => cbn [enough]
  | |- enough _ (SetBuf _ _) => cbn [enough]
  | |- enough _ (GetF _ _) => cbn [enough]
  | |- enough _ (SetF _ _ _) => cbn [enough]
  | |- enough _ (Load _ _ _) => cbn [enough]
  | |- enough _ (Store _ _ _ _) => cbn [enough]
  | |- enough _ (Move _ _ _ _ _ _) => cbn [enough]
  | |- enough _ (Alloc _ _) => cbn [enough]
  | |- enough _ (GetOuts _) => cbn [enough]
  | |- enough _ (SetOuts _ _) => cbn [enough]
  | |- enough _ (Lock _) => cbn [enough]
  | |- enough _ (Unlock _) => cbn [enough]
  | |- enough _ ?t => progress (cbv beta zeta) || (let h := head_of t in unfold h; cbv beta zeta)
  | |- any _ => exact I
  | |- True => exact I
  | |- _ => size_tac
  end.
Ltac enough_tac := repeat enough1.

(** A value that exists in Go. *)
Fixpoint exists_in_go (v : val) : Prop :=
  match v with
  | VInt (I64 | IInt) z => is_i64 z
  | VBytes s => short s
  | VInts _ l => zlen l < 2 ^ 63
  | VSlices l => zlen l < 2 ^ 63 /\ Forall short l
  | VAny v => exists_in_go v
  | _ => True
  end.
Definition complete (e : entry) : Prop :=
  forall x, Forall exists_in_go (e_args e x) -> enough any (e_model e x).

Ltac args_tac H :=
  repeat match type of H with
  | Forall _ (_ :: _) => let A := fresh "A" in let B := fresh "B" in inversion_clear H as [|? ? A B]; cbn in A; rename B into H
  | Forall _ [] => clear H
  end.
Ltac row_tac :=
  intros x H; cbn [e_dom e_args e_model row row_new] in *;
  repeat match goal with x : (_ * _)%type |- _ => destruct x end; args_tac H;
  try match goal with x : V1Buffer.idata |- _ => destruct x; cbn [dyn exists_in_go] in * end;
  enough_tac.
Lemma v3_buffer_complete pol : Forall complete (v3_buffer_table pol).
Proof. unfold v3_buffer_table. repeat apply Forall_cons; [..|apply Forall_nil]. all: row_tac. Qed.
Lemma v3_minibuf_complete pol : Forall complete (v3_minibuf_table pol).
Proof. unfold v3_minibuf_table. repeat apply Forall_cons; [..|apply Forall_nil]. all: row_tac. Qed.
Lemma v2_buffer_complete pol : Forall complete (v2_buffer_table pol).
Proof. unfold v2_buffer_table. repeat apply Forall_cons; [..|apply Forall_nil]. all: row_tac. Qed.
Lemma v2_minibuf_complete pol : Forall complete (v2_minibuf_table pol).
Proof. unfold v2_minibuf_table. repeat apply Forall_cons; [..|apply Forall_nil]. all: row_tac. Qed.
Lemma v1_buffer_complete pol : Forall complete (v1_buffer_table pol).
Proof. unfold v1_buffer_table. repeat apply Forall_cons; [..|apply Forall_nil]. all: row_tac. Qed.
Lemma v1_minibuf_complete pol : Forall complete (v1_minibuf_table pol).
Proof. unfold v1_minibuf_table. repeat apply Forall_cons; [..|apply Forall_nil]. all: row_tac. Qed.
