(** * Bound: raising the bound of the interpreter changes nothing that was not cut short.

    [below p q]: the program [p] is [q], except that it may be cut short
    ([OutOfFuel]) where [q] goes on.  The meaning of Go text at the bound [n] (GoEval.v)
    is below its meaning at every larger bound, and below the model. *)
From Coq Require Import ZArith List Bool String Lia.
From Verif Require Import GoSem Calls Conc Race FrontConc Conv Enough GoParse GoEval.
Import ListNotations.
Open Scope Z_scope.
Open Scope list_scope.

Inductive below {A} : prog A -> prog A -> Prop :=
| b_cut q : below OutOfFuel q
| b_ret a : below (Ret a) (Ret a)
| b_panic e : below (Panic e) (Panic e)
| b_getbuf k k' : (forall x, below (k x) (k' x)) -> below (GetBuf k) (GetBuf k')
| b_setbuf s k k' : below k k' -> below (SetBuf s k) (SetBuf s k')
| b_getf f k k' : (forall x, below (k x) (k' x)) -> below (GetF f k) (GetF f k')
| b_setf f v k k' : below k k' -> below (SetF f v k) (SetF f v k')
| b_load b i k k' : (forall x, below (k x) (k' x)) -> below (Load b i k) (Load b i k')
| b_store b i v k k' : below k k' -> below (Store b i v k) (Store b i v k')
| b_move db di sb si n k k' : below k k' -> below (Move db di sb si n k) (Move db di sb si n k')
| b_alloc l k k' : (forall x, below (k x) (k' x)) -> below (Alloc l k) (Alloc l k')
| b_getouts k k' : (forall x, below (k x) (k' x)) -> below (GetOuts k) (GetOuts k')
| b_setouts l k k' : below k k' -> below (SetOuts l k) (SetOuts l k')
| b_lock k k' : below k k' -> below (Lock k) (Lock k')
| b_unlock k k' : below k k' -> below (Unlock k) (Unlock k').
#[export] Hint Constructors below : bound.

Lemma below_refl {A} (p : prog A) : below p p.
Proof. induction p; auto with bound. Qed.
Lemma below_trans {A} (p q r : prog A) : below p q -> below q r -> below p r.
Proof.
  intro H. revert r. induction H; intros r R; auto with bound; inversion R; subst; auto with bound.
Qed.
Lemma below_bind {A B} (p p' : prog A) (f f' : A -> prog B) : below p p' -> (forall a, below (f a) (f' a)) -> below (bind p f) (bind p' f').
Proof. intros H F. induction H; cbn [bind]; auto with bound. Qed.
Lemma below_finally {A} (p p' : prog A) c c' : below p p' -> below c c' -> below (finally p c) (finally p' c').
Proof.
  intros H C. induction H; cbn [finally]; auto with bound; apply below_bind; auto with bound.
Qed.
Lemma below_assoc {A B C} (p : prog A) (f : A -> prog B) (g : B -> prog C) : below (bind (bind p f) g) (bind p (fun x => bind (f x) g)).
Proof. induction p; cbn [bind]; auto using below_refl with bound. Qed.
Lemma below_assoc' {A B C} (p : prog A) (f : A -> prog B) (g : B -> prog C) : below (bind p (fun x => bind (f x) g)) (bind (bind p f) g).
Proof. induction p; cbn [bind]; auto using below_refl with bound. Qed.

(** ** Computations of the interpreter *)

Definition lower {A} (p q : act A) : Prop := below (flat p) (flat q).
Lemma lower_refl {A} (p : act A) : lower p p. Proof. apply below_refl. Qed.
Lemma flat_then {A B} (p : act A) (f : A -> act B) : below (flat (andthen p f)) (bind (flat p) (fun a => flat (f a))).
Proof.
  induction p as [a| |e|X p k IH|b p IHp q IHq]; cbn [andthen flat bind]; auto using below_refl with bound.
  - eapply below_trans; [|apply below_assoc']. apply below_bind; auto using below_refl.
  - destruct b; auto.
Qed.
Lemma flat_then' {A B} (p : act A) (f : A -> act B) : below (bind (flat p) (fun a => flat (f a))) (flat (andthen p f)).
Proof.
  induction p as [a| |e|X p k IH|b p IHp q IHq]; cbn [andthen flat bind]; auto using below_refl with bound.
  - eapply below_trans; [apply below_assoc|]. apply below_bind; auto using below_refl.
  - destruct b; auto.
Qed.
Lemma lower_then {A B} (p p' : act A) (f f' : A -> act B) : lower p p' -> (forall a, lower (f a) (f' a)) -> lower (andthen p f) (andthen p' f').
Proof.
  intros H F. unfold lower. eapply below_trans; [apply flat_then|]. eapply below_trans; [|apply flat_then'].
  apply below_bind; auto.
Qed.
Lemma lower_cond {A} b (p p' q q' : act A) : lower p p' -> lower q q' -> lower (Cond b p q) (Cond b p' q').
Proof. unfold lower. cbn. destruct b; auto. Qed.
Lemma lower_do {A} (p p' : prog A) : below p p' -> lower (do_ p) (do_ p').
Proof. intro H. unfold lower, do_. cbn. apply below_bind; auto using below_refl. Qed.

(** The size of an expression. *)
Fixpoint esize (x : gexpr) : nat :=
  (match x with
  | EBin _ a b => S (esize a + esize b)
  | EUn _ a | ESel a _ | EAssert a _ => S (esize a)
  | EIndex a i => S (esize a + esize i)
  | ESlice a lo hi => S (esize a + match lo with Some y => esize y | None => 0 end + match hi with Some y => esize y | None => 0 end)
  | ECall f args _ => S (esize f + (fix go l := match l with [] => O | y :: r => (esize y + go r)%nat end) args)
  | EComp _ elts => S ((fix go (l : list (string * gexpr)) := match l with [] => O | (_, y) :: r => (esize y + go r)%nat end) elts)
  | _ => 1
  end)%nat.
Lemma esize_arg l y : In y l -> (esize y <= (fix go l := match l with [] => O | y :: r => (esize y + go r)%nat end) l)%nat.
Proof. induction l as [|z r IH]; [intros []|]. intros [->|H]; [lia|]. specialize (IH H). lia. Qed.
Lemma esize_elt (l : list (string * gexpr)) k y : In (k, y) l -> (esize y <= (fix go (l : list (string * gexpr)) := match l with [] => O | (_, y) :: r => (esize y + go r)%nat end) l)%nat.
Proof. induction l as [|[k' z] r IH]; [intros []|]. intros [E|H]; [injection E as -> ->; lia|]. specialize (IH H). lia. Qed.

Section Mono.
Variables (pol : Z -> Z -> Z) (decls : list gdecl) (ask ask' : query -> prog (env * signal)) (fn : gfunc).
Hypothesis asks : forall q, below (ask q) (ask' q).

(** Both sides are the same code around [ask]. *)
Ltac lo :=
  repeat first
    [ apply lower_refl
    | apply asks
    | assumption
    | apply lower_then; [|intro]
    | apply lower_cond
    | apply lower_do
    | apply below_finally
    | apply below_bind; [|intro]
    | apply below_refl
    | match goal with
      | |- lower (match ?x with _ => _ end) _ => destruct x
      | |- lower (if ?b then _ else _) _ => destruct b
      | |- lower (let (_, _) := ?x in _) _ => destruct x
      end ].

Lemma lower_call g f vs : lower (GoEval.call ask g f vs) (GoEval.call ask' g f vs).
Proof. unfold GoEval.call. lo. Qed.
Lemma lower_func f vs : lower (call_func decls ask f vs) (call_func decls ask' f vs).
Proof. unfold call_func. lo. apply lower_call. Qed.
Lemma lower_method r m vs : lower (call_method decls ask r m vs) (call_method decls ask' r m vs).
Proof. unfold call_method. lo; apply lower_func. Qed.
Lemma lower_builtin f sp vs : lower (call_builtin pol decls ask f sp vs) (call_builtin pol decls ask' f sp vs).
Proof. unfold call_builtin. lo; apply lower_func. Qed.

Lemma lower_eval : forall x e want, lower (eval pol decls ask e want x) (eval pol decls ask' e want x).
Proof.
  intro x. remember (esize x) as n eqn:En. revert x En. induction n as [n IH0] using lt_wf_ind. intros x -> e want.
  assert (IH : forall y e want, (esize y < esize x)%nat -> lower (eval pol decls ask e want y) (eval pol decls ask' e want y)) by (intros y e' want' L; eapply IH0; eauto). clear IH0.
  assert (ARGS : forall args, (forall y, In y args -> forall e want, lower (eval pol decls ask e want y) (eval pol decls ask' e want y)) ->
    lower ((fix go l : act (list val) := match l with [] => Ok [] | y :: r => v <- eval pol decls ask e None y ;; vs <- go r ;; Ok (v :: vs) end)%act args)
          ((fix go l : act (list val) := match l with [] => Ok [] | y :: r => v <- eval pol decls ask' e None y ;; vs <- go r ;; Ok (v :: vs) end)%act args)).
  { clear IH. intros args H. induction args as [|y r IHr]; [apply lower_refl|]. apply lower_then; [apply H; left; reflexivity|intro].
    apply lower_then; [apply IHr; intros; apply H; right; assumption|intro; apply lower_refl]. }
  assert (KEYED : forall wt elts, (forall k y, In (k, y) elts -> forall e want, lower (eval pol decls ask e want y) (eval pol decls ask' e want y)) ->
    lower ((fix go want l : act (list (string * val)) := match l with [] => Ok [] | (k, y) :: r => v <- eval pol decls ask e want y ;; vs <- go want r ;; Ok ((k, v) :: vs) end)%act wt elts)
          ((fix go want l : act (list (string * val)) := match l with [] => Ok [] | (k, y) :: r => v <- eval pol decls ask' e want y ;; vs <- go want r ;; Ok ((k, v) :: vs) end)%act wt elts)).
  { clear IH. intros wt elts H. induction elts as [|[k y] r IHr]; [apply lower_refl|]. apply lower_then; [eapply H; left; reflexivity|intro].
    apply lower_then; [apply IHr; intros; eapply H; right; eassumption|intro; apply lower_refl]. }
  destruct x; cbn [eval]; try apply lower_refl.
  - lo; apply IH; cbn [esize]; lia.
  - destruct (_ =? _)%string; [lo; apply IH; cbn [esize]; lia|]. destruct (_ =? _)%string; [lo; apply IH; cbn [esize]; lia|].
    destruct (_ =? _)%string; [|lo]. lo. apply KEYED. intros k y I e' want'. apply IH. cbn [esize]. apply esize_elt in I. lia.
  - lo. apply IH; cbn [esize]; lia.
  - lo; apply IH; cbn [esize]; lia.
  - lo; apply IH; cbn [esize]; lia.
  - assert (A : forall l, (forall y, In y l -> In y args) ->
      forall y, In y l -> forall e want, lower (eval pol decls ask e want y) (eval pol decls ask' e want y)).
    { intros l H y I e' want'. apply IH. cbn [esize]. apply H, esize_arg in I. lia. }
    destruct x; try apply lower_refl.
    + destruct args as [|[] rest]; lo; first [apply lower_builtin | apply ARGS, A; cbn; auto; fail | apply IH; cbn [esize]; lia].
    + lo; first [apply IH; cbn [esize]; lia | apply lower_method | apply ARGS, A; auto].
  - lo. apply KEYED. intros k y I e' want'. apply IH. cbn [esize]. apply esize_elt in I. lia.
  - lo. apply IH; cbn [esize]; lia.
Qed.
Lemma lower_evals e l : lower (evals pol decls ask e l) (evals pol decls ask' e l).
Proof. induction l as [|y r IH]; cbn [evals]; lo. apply lower_eval. Qed.
Opaque eval evals call_method.
Ltac lo2 := repeat first [apply lower_eval | apply lower_evals | apply lower_method | progress lo].
Lemma lower_assign e x v : lower (assign pol decls ask fn e x v) (assign pol decls ask' fn e x v).
Proof. unfold assign. lo2. Qed.
Opaque assign.
Definition lower_code (a b : code) : Prop := forall e, lower (a e) (b e).
Lemma lower_seq a a' b b' : lower_code a a' -> lower_code b b' -> lower_code (seq a b) (seq a' b').
Proof. intros H H' e. unfold seq. apply lower_then; [apply H|]. intros [e' []]; try apply lower_refl. apply H'. Qed.
Lemma lower_block b c c' : lower_code c c' -> lower_code (in_block ask fn b c) (in_block ask' fn b c').
Proof. intros H e. unfold in_block. lo. apply H. Qed.
Opaque in_block.

(** The size of a statement. *)
Fixpoint ssize (s : gstmt) : nat :=
  let sizes := fix go l := match l with [] => O | y :: r => (ssize y + go r)%nat end in
  (match s with
   | SIf _ th el => S (sizes th + sizes el)
   | SBlock b => S (sizes b)
   | SSwitch _ cases => S ((fix go (l : list (list gexpr * list gstmt)) := match l with [] => O | (_, b) :: r => sizes b + go r end) cases)
   | SFor init _ post body => S (ssize init + ssize post + sizes body)
   | SRange _ _ _ body => S (sizes body)
   | _ => 1
   end)%nat.
Lemma lower_exec : forall s, lower_code (exec pol decls ask fn s) (exec pol decls ask' fn s).
Proof.
  intro s. remember (ssize s) as n eqn:En. revert s En. induction n as [n IH0] using lt_wf_ind. intros s ->.
  assert (IH : forall y, (ssize y < ssize s)%nat -> lower_code (exec pol decls ask fn y) (exec pol decls ask' fn y)) by (intros y L; eapply IH0; eauto). clear IH0.
  assert (LIST : forall l, ((fix go l := match l with [] => O | y :: r => ssize y + go r end) l < ssize s)%nat ->
    lower_code ((fix go (l : list gstmt) {struct l} : code := match l with [] => skip | y :: r => seq (exec pol decls ask fn y) (go r) end) l)
               ((fix go (l : list gstmt) {struct l} : code := match l with [] => skip | y :: r => seq (exec pol decls ask' fn y) (go r) end) l)).
  { induction l as [|y r IHr]; intro L; [intro; apply lower_refl|]. apply lower_seq; [apply IH; lia|apply IHr; lia]. }
  destruct s; cbn [exec].
  1, 2, 3, 4, 5, 7, 8, 10, 12, 13: clear IH LIST; intro e0.
  - repeat match goal with |- lower ((match ?x with _ => _ end) _) _ => destruct x end; cbv beta iota; lo2.
  - cbv zeta. lo2; apply lower_assign.
  - lo2.
  - repeat match goal with |- lower ((match ?x with _ => _ end) _) _ => destruct x end; cbv beta iota; lo2.
  - lo2; apply lower_assign.
  - apply lower_refl.
  - apply lower_refl.
  - repeat match goal with |- lower ((match ?x with _ => _ end) _) _ => destruct x end; cbv beta iota; lo2.
  - apply lower_refl.
  - apply lower_refl.
  - intro e0. lo2; apply lower_block, LIST; cbn [ssize]; lia.
  - apply lower_block, LIST. cbn [ssize]. lia.
  - intro e0. apply lower_then; [apply lower_eval|]. intro v. apply lower_then; [|intro; apply lower_refl].
    cbn [ssize] in LIST. clear IH.
    induction cases as [|[guards body] r IHr]; [apply lower_refl|].
    assert (B : lower_code (in_block ask fn body ((fix go (l : list gstmt) {struct l} : code := match l with [] => skip | y :: r => seq (exec pol decls ask fn y) (go r) end) body))
                           (in_block ask' fn body ((fix go (l : list gstmt) {struct l} : code := match l with [] => skip | y :: r => seq (exec pol decls ask' fn y) (go r) end) body))).
    { apply lower_block, LIST. lia. }
    assert (R := IHr (fun l L => LIST l ltac:(lia))). clear IHr LIST.
    destruct guards as [|g [|]]; [apply B| |apply lower_refl].
    apply lower_then; [apply lower_eval|]. intro vg. apply lower_then; [apply lower_refl|]. intros []; try apply lower_refl.
    apply lower_cond; [apply B|apply R].
  - intro e0. apply lower_then; [apply IH; cbn [ssize]; lia|]. intro. apply lower_then; [lo|]. intro. apply lower_refl.
  - intro e0. lo2.
Qed.
Lemma lower_list l : lower_code (exec_list pol decls ask fn l) (exec_list pol decls ask' fn l).
Proof. induction l as [|y r IH]; [intro; apply lower_refl|]. apply lower_seq; [apply lower_exec|apply IH]. Qed.
Opaque exec.
Lemma lower_top l : lower_code (exec_top pol decls ask fn l) (exec_top pol decls ask' fn l).
Proof.
  induction l as [|y r IH]; [intro; apply lower_refl|].
  destruct y; try (apply lower_seq; [apply lower_exec|apply IH]).
  intro e0. cbn [exec_top]. apply lower_do, below_finally.
  - apply lower_block, lower_list.
  - apply lower_then; [apply lower_eval|]. intro. apply lower_refl.
Qed.
Lemma lower_label l d rest e : lower (label_step pol decls ask fn l d rest e) (label_step pol decls ask' fn l d rest e).
Proof. unfold label_step. apply lower_then; [apply lower_list|]. intros [e' []]; lo. Qed.
Lemma lower_for c post body e : lower (for_step pol decls ask fn c post body e) (for_step pol decls ask' fn c post body e).
Proof.
  unfold for_step. apply lower_then; [apply lower_eval|]. intros []; try apply lower_refl.
  apply lower_cond; [|apply lower_refl]. apply lower_then; [apply lower_block, lower_list|].
  intros [e1 []]; try apply lower_refl. apply lower_then; [apply lower_exec|]. intro. lo.
Qed.
Lemma lower_range k v x i body e :
  lower (range_step pol decls ask fn k v x i body e) (range_step pol decls ask' fn k v x i body e).
Proof.
  unfold range_step. apply lower_then; [apply lower_refl|]. intro n. apply lower_cond; [|apply lower_refl].
  apply lower_then; [apply lower_refl|]. intro e1. apply lower_then; [apply lower_block, lower_list|].
  intros [e2 []]; lo.
Qed.
Lemma lower_func_step args : lower (func_step pol decls ask fn args) (func_step pol decls ask' fn args).
Proof.
  unfold func_step. apply lower_then; [apply lower_refl|]. intro. apply lower_then; [apply lower_refl|]. intro.
  apply lower_then; [apply lower_block, lower_top|]. intro. apply lower_refl.
Qed.
End Mono.
Lemma below_step decls pol ask ask' q :
  (forall q, below (ask q) (ask' q)) -> below (step decls pol ask q) (step decls pol ask' q).
Proof.
  intro H. unfold step. destruct (find_func _ decls); [|apply below_refl].
  destruct q; [apply lower_func_step|apply lower_label|apply lower_for|apply lower_range]; exact H.
Qed.
Theorem den_mono decls pol n m q : (n <= m)%nat -> below (den decls pol n q) (den decls pol m q).
Proof.
  revert m q. induction n as [|n IH]; intros [|m] q L; cbn [den]; [constructor|constructor|lia|].
  apply below_step. intro. apply IH. lia.
Qed.

(** ** Below the limit *)

(** As [below], for buffers whose lengths are those of Go values ([short]). *)
Inductive under {A} : prog A -> prog A -> Prop :=
| u_cut q : under OutOfFuel q
| u_ret a : under (Ret a) (Ret a)
| u_panic e : under (Panic e) (Panic e)
| u_getbuf k k' : (forall x, short x -> under (k x) (k' x)) -> under (GetBuf k) (GetBuf k')
| u_setbuf s k k' : short s -> under k k' -> under (SetBuf s k) (SetBuf s k')
| u_getf f k k' : (forall x, under (k x) (k' x)) -> under (GetF f k) (GetF f k')
| u_setf f v k k' : under k k' -> under (SetF f v k) (SetF f v k')
| u_load b i k k' : (forall x, under (k x) (k' x)) -> under (Load b i k) (Load b i k')
| u_store b i v k k' : under k k' -> under (Store b i v k) (Store b i v k')
| u_move db di sb si n k k' : under k k' -> under (Move db di sb si n k) (Move db di sb si n k')
| u_alloc l k k' : (forall x, under (k x) (k' x)) -> under (Alloc l k) (Alloc l k')
| u_getouts k k' : (forall x, under (k x) (k' x)) -> under (GetOuts k) (GetOuts k')
| u_setouts l k k' : under k k' -> under (SetOuts l k) (SetOuts l k')
| u_lock k k' : under k k' -> under (Lock k) (Lock k')
| u_unlock k k' : under k k' -> under (Unlock k) (Unlock k').
#[export] Hint Constructors under : bound.

Lemma under_limit {A} (T : prog A) : forall Q P, conv eq T P -> enough any T ->
  (exists N, forall m, (N <= m)%nat -> below Q (P m)) -> under Q T.
Proof.
  conv_cases T IH; intros Q P C E [M H]; cbn [conv enough] in C, E; try contradiction.
  1: { destruct C as (N & b & <- & C). pose proof (H (M + N)%nat ltac:(lia)) as B. rewrite C in B by lia. inversion B; subst; auto with bound. }
  1: { destruct C as (N & C). pose proof (H (M + N)%nat ltac:(lia)) as B. rewrite C in B by lia. inversion B; subst; auto with bound. }
  all: destruct C as (N & K & C & C'); pose proof (H (M + N)%nat ltac:(lia)) as B; rewrite C in B by lia;
    inversion B; subst; auto with bound;
    constructor; try apply E; intros; eapply IH; try apply C'; try apply E; auto;
    exists (M + N)%nat; intros m Hm; specialize (H m ltac:(lia)); rewrite C in H by lia; inversion H; subst; auto.
Qed.
Lemma under_step {A} (p q : prog A) s p' s' : under p q -> short (b_buf (bb s)) -> step1 p s = Some (p', s') ->
  exists q', step1 q s = Some (q', s') /\ under p' q' /\ short (b_buf (bb s')).
Proof.
  intros U S E. destruct U; cbn [step1] in *; try discriminate; try (injection E as <- <-; eauto).
  - destruct f; eauto.
  - destruct (heap_read _ _ _ _) as [[|w [|]]|]; try discriminate. injection E as <- <-. eauto.
  - destruct (heap_write _ _ _ _); try discriminate. injection E as <- <-. eauto.
  - destruct (heap_read _ _ _ _); try discriminate. destruct (heap_write _ _ _ _); try discriminate. injection E as <- <-. eauto.
  - destruct (mu s); try discriminate. injection E as <- <-. eauto.
  - destruct (mu s); try discriminate. injection E as <- <-. eauto.
Qed.
Lemma under_access {A} (p q : prog A) s a : under p q -> access_of p s = Some a -> access_of q s = Some a.
Proof. intros U E. destruct U; cbn [access_of] in *; auto; discriminate. Qed.

(** The text at any bound is the model, except where it is cut short. *)
Lemma body_mono ds pol n m q : (n <= m)%nat -> below (go_body ds pol n q) (go_body ds pol m q).
Proof. intro L. unfold go_body. apply below_bind; [now apply den_mono|]. intro. apply below_refl. Qed.
Theorem body_under ds pol q (T : prog (rv slice)) n : conv eq T (fun n => go_body ds pol n q) -> enough any T ->
  under (go_body ds pol n q) T.
Proof. intros C E. eapply under_limit; eauto. exists n. intros m L. now apply body_mono. Qed.
