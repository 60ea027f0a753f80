(** * FrontConc: goroutines that run Go text.

    A goroutine of Conc.v runs any tree of accesses; here the trees are those the
    interpreter of GoEval.v makes of the Go text.  For a starting state and the
    calls each goroutine will make there is one bound on the nesting of calls and
    loop rounds that suffices for every schedule: above it, the executions of the
    text are those of the models, step for step. *)
From Coq Require Import ZArith List Bool String Lia.
From Verif Require Import GoSem GoLemmas Conv GoEval Front Tables Spec Calls FrontCalls Abs History Enough Conc ConcSched Race.
Import ListNotations.
Open Scope Z_scope.
Open Scope list_scope.

(** The call [q] in the program [ds], at the bound [n]. *)
Definition go_body (ds : list GoParse.gdecl) (pol : Z -> Z -> Z) (n : nat) (q : string * list val) : prog (rv slice) :=
  bind (den ds pol n (QCall (fst q) (snd q))) (fun r =>
    match r with
    | ([], Return v) => match answer_of v with Some a => Ret a | None => OutOfFuel end
    | _ => OutOfFuel
    end).

(** ** Two systems of goroutines that do the same *)

Section Matched.
Context {call : Type} (body body' : call -> prog (rv slice)).

(** The same shared state, the same calls still to make, and the same calls under way. *)
Definition shape (g : goroutine call) : list call * option call := (todo g, option_map fst (cur g)).
Definition same (c c' : config call) : Prop := sh c = sh c' /\ map shape (gs c) = map shape (gs c').

Inductive matched (c c' : config call) : Prop :=
| matched_intro :
    same c c' ->
    (forall t, next_access c t = next_access c' t) ->
    (forall t h c2, gstep body t c h c2 -> exists c2', gstep body' t c' h c2' /\ matched c2 c2') ->
    (forall t h c2', gstep body' t c' h c2' -> exists c2, gstep body t c h c2 /\ matched c2 c2') ->
    matched c c'.

Lemma matched_same c c' : matched c c' -> same c c'.
Proof. now intros []. Qed.
Lemma matched_exec c c' h c2 : matched c c' -> exec body c h c2 -> exists c2', exec body' c' h c2' /\ matched c2 c2'.
Proof.
  intros H E. induction E as [|h c1 t h1 c2 E IH G].
  - exists c'. split; [constructor|exact H].
  - destruct IH as (c1' & E' & [_ _ M _]). destruct (M _ _ _ G) as (c2' & G' & M'). exists c2'. split; [|exact M'].
    econstructor; eauto.
Qed.
Lemma matched_exec' c c' h c2' : matched c c' -> exec body' c' h c2' -> exists c2, exec body c h c2 /\ matched c2 c2'.
Proof.
  intros H E. induction E as [|h c1 t h1 c2' E IH G].
  - exists c. split; [constructor|exact H].
  - destruct IH as (c1' & E' & [_ _ _ M]). destruct (M _ _ _ G) as (c2 & G' & M'). exists c2. split; [|exact M'].
    econstructor; eauto.
Qed.
Lemma matched_traced c c' tr c2 : matched c c' -> traced body c tr c2 -> exists c2', traced body' c' tr c2' /\ matched c2 c2'.
Proof.
  intros H E. induction E as [|tr c1 t h1 c2 E IH G].
  - exists c'. split; [constructor|exact H].
  - destruct IH as (c1' & E' & [_ A M _]). destruct (M _ _ _ G) as (c2' & G' & M'). exists c2'. split; [|exact M'].
    rewrite A. econstructor; eauto.
Qed.
Lemma matched_traced' c c' tr c2' : matched c c' -> traced body' c' tr c2' -> exists c2, traced body c tr c2 /\ matched c2 c2'.
Proof.
  intros H E. induction E as [|tr c1 t h1 c2' E IH G].
  - exists c. split; [constructor|exact H].
  - destruct IH as (c1' & E' & [_ A _ M]). destruct (M _ _ _ G) as (c2 & G' & M'). exists c2. split; [|exact M'].
    rewrite <- A. econstructor; eauto.
Qed.
Lemma same_finished c c' : same c c' -> finished c <-> finished c'.
Proof.
  intros [_ E]. unfold finished. generalize dependent (gs c'). induction (gs c) as [|g l IH]; intros [|g' l'] E; try discriminate E.
  - tauto.
  - cbn in E. injection E as E1 E3 E2. destruct (IH _ E2) as [A B]. destruct g as [o cu], g' as [o' cu'].
    cbn in E1, E3.
    split; intros X; inversion X as [|? ? Y Z]; injection Y as -> ->; subst; constructor; auto;
      cbn in E3; first [destruct cu; [discriminate E3|] | destruct cu'; [discriminate E3|]]; reflexivity.
Qed.
Lemma same_quiescent c c' : same c c' ->
  (Forall (fun g => cur g = None) (gs c) <-> Forall (fun g => cur g = None) (gs c')).
Proof.
  intros [_ E]. generalize dependent (gs c'). induction (gs c) as [|g l IH]; intros [|g' l'] E; try discriminate E.
  - tauto.
  - cbn in E. injection E as E1 E3 E2. destruct (IH _ E2) as [A B]. destruct g as [o cu], g' as [o' cu'].
    cbn in E1, E3.
    split; intros X; inversion X as [|? ? Y Z]; cbn in Y; subst; constructor; auto; cbn;
      cbn in E3; first [destruct cu; [discriminate E3|] | destruct cu'; [discriminate E3|]]; reflexivity.
Qed.
End Matched.

(** ** Families *)

Lemma conv_step {A} (T : prog A) P s :
  conv eq T P -> enough any T -> short (b_buf (bb s)) ->
  (exists v, T = Ret v /\ exists N, forall n, (N <= n)%nat -> P n = Ret v) \/
  (exists e, T = Panic e /\ exists N, forall n, (N <= n)%nat -> P n = Panic e) \/
  ((step1 T s = None /\ (forall v, T <> Ret v) /\ (forall e, T <> Panic e)) /\
   exists N, forall n, (N <= n)%nat -> step1 (P n) s = None /\ (forall v, P n <> Ret v) /\ (forall e, P n <> Panic e)) \/
  (exists T' s' P', step1 T s = Some (T', s') /\
    (exists N, forall n, (N <= n)%nat -> step1 (P n) s = Some (P' n, s')) /\
    conv eq T' P' /\ enough any T' /\ short (b_buf (bb s'))).
Proof.
  intros C E S. destruct T as [a|er| |k|sl k|fd k|fd v k|bk i k|bk i v k|db di sb si c' k|l k|k|l k|k|k];
    cbn [conv enough step1] in *.
  - left. destruct C as (N & b & <- & H). eauto.
  - right; left. eauto.
  - contradiction.
  - right; right; right. destruct C as (N & K & H & H'). exists (k (b_buf (bb s))), s, (fun n => K n (b_buf (bb s))).
    split; [reflexivity|]. split; [exists N; intros n Hn; now rewrite H by lia|]. auto.
  - right; right; right. destruct C as (N & K & H & H'). destruct E. exists k, (set_bb s (upd_buf (bb s) sl)), K.
    split; [reflexivity|]. split; [exists N; intros n Hn; now rewrite H by lia|]. auto.
  - right; right; right. destruct C as (N & K & H & H'). exists (k (get_fld (bb s) fd)), s, (fun n => K n (get_fld (bb s) fd)).
    split; [reflexivity|]. split; [exists N; intros n Hn; now rewrite H by lia|]. auto.
  - right; right; right. destruct C as (N & K & H & H'). exists k, (set_bb s (upd_fld (bb s) fd v)), K.
    split; [reflexivity|]. split; [exists N; intros n Hn; now rewrite H by lia|]. destruct fd; auto.
  - destruct C as (N & K & H & H').
    assert (X : (exists w, heap_read (heap s) bk i 1 = Some [w]) \/
                (match heap_read (heap s) bk i 1 with Some [w] => Some (k w, s) | _ => None end = None
                 /\ forall n, match heap_read (heap s) bk i 1 with Some [w] => Some (K n w, s) | _ => None end = None)).
    { destruct (heap_read (heap s) bk i 1) as [[|w [|? ?]]|]; eauto. }
    destruct X as [[w E1]|[E1 E2]].
    + rewrite E1. right; right; right. exists (k w), s, (fun n => K n w).
      split; [reflexivity|]. split; [exists N; intros n Hn; rewrite H by lia; cbn; now rewrite E1|]. auto.
    + right; right; left. rewrite E1. split; [repeat split; discriminate|].
      exists N. intros n Hn. rewrite H by lia. cbn. split; [apply E2|]. split; discriminate.
  - destruct C as (N & K & H & H'). destruct (heap_write (heap s) bk i [v]) as [h|] eqn:E1.
    + right; right; right. exists k, (set_heap s h), K.
      split; [reflexivity|]. split; [exists N; intros n Hn; rewrite H by lia; cbn; now rewrite E1|]. auto.
    + right; right; left. split; [repeat split; discriminate|].
      exists N. intros n Hn. rewrite H by lia. cbn. rewrite E1. repeat split; discriminate.
  - destruct C as (N & K & H & H'). destruct (heap_read (heap s) sb si c') as [d|] eqn:E0.
    + destruct (heap_write (heap s) db di d) as [h|] eqn:E1.
      * right; right; right. exists k, (set_heap s h), K.
        split; [reflexivity|]. split; [exists N; intros n Hn; rewrite H by lia; cbn; now rewrite E0, E1|]. auto.
      * right; right; left. split; [repeat split; discriminate|].
        exists N. intros n Hn. rewrite H by lia. cbn. rewrite E0, E1. repeat split; discriminate.
    + right; right; left. split; [repeat split; discriminate|].
      exists N. intros n Hn. rewrite H by lia. cbn. rewrite E0. repeat split; discriminate.
  - right; right; right. destruct C as (N & K & H & H').
    exists (k (List.length (heap s))), (set_heap s (heap s ++ [l])), (fun n => K n (List.length (heap s))).
    split; [reflexivity|]. split; [exists N; intros n Hn; now rewrite H by lia|]. auto.
  - right; right; right. destruct C as (N & K & H & H'). exists (k (outs s)), s, (fun n => K n (outs s)).
    split; [reflexivity|]. split; [exists N; intros n Hn; now rewrite H by lia|]. auto.
  - right; right; right. destruct C as (N & K & H & H'). exists k, (set_outs s l), K.
    split; [reflexivity|]. split; [exists N; intros n Hn; now rewrite H by lia|]. auto.
  - destruct C as (N & K & H & H'). destruct (mu s) eqn:E1.
    + right; right; left. split; [repeat split; discriminate|].
      exists N. intros n Hn. rewrite H by lia. cbn. rewrite E1. repeat split; discriminate.
    + right; right; right. exists k, (set_mu s true), K.
      split; [reflexivity|]. split; [exists N; intros n Hn; rewrite H by lia; cbn; now rewrite E1|]. auto.
  - destruct C as (N & K & H & H'). destruct (mu s) eqn:E1.
    + right; right; right. exists k, (set_mu s false), K.
      split; [reflexivity|]. split; [exists N; intros n Hn; rewrite H by lia; cbn; now rewrite E1|]. auto.
    + right; right; left. split; [repeat split; discriminate|].
      exists N. intros n Hn. rewrite H by lia. cbn. rewrite E1. repeat split; discriminate.
Qed.

Lemma conv_access {A} (T : prog A) P s : conv eq T P -> enough any T ->
  exists N, forall n, (N <= n)%nat -> access_of (P n) s = access_of T s.
Proof.
  intros C E. destruct T; cbn [conv enough] in *; try contradiction.
  1: destruct C as (N & b & <- & H); exists N; intros m Hm; now rewrite H.
  1: destruct C as (N & H); exists N; intros m Hm; now rewrite H.
  all: destruct C as (N & K & H & _); exists N; intros m Hm; now rewrite H.
Qed.

Lemma uniform (Q : nat -> nat -> Prop) L :
  (forall t, (t < L)%nat -> exists N, forall n, (N <= n)%nat -> Q t n) ->
  exists N, forall n, (N <= n)%nat -> forall t, (t < L)%nat -> Q t n.
Proof.
  induction L as [|L IH]; intros H.
  - exists 0%nat. intros; lia.
  - destruct IH as [N HN]. { intros; apply H; lia. } destruct (H L) as [M HM]; [lia|].
    exists (N + M)%nat. intros n Hn t Ht. destruct (Nat.eq_dec t L) as [->|]; [apply HM; lia|apply HN; lia].
Qed.

Section Families.
Context {call : Type} (body : call -> prog (rv slice)) (text : nat -> call -> prog (rv slice)).
Variable ok : call -> Prop.
Hypothesis text_conv : forall c, ok c -> conv eq (body c) (fun n => text n c).
Hypothesis body_enough : forall c, ok c -> enough any (body c).

(** A goroutine at every bound at once. *)
Definition family : Type := (list call * option (call * (nat -> prog (rv slice))))%type.
Definition inst (n : nat) (f : family) : goroutine call :=
  mkG (fst f) (option_map (fun x => (fst x, snd x n)) (snd f)).

Definition rel (g : goroutine call) (f : family) : Prop :=
  todo g = fst f /\ Forall ok (todo g) /\
  match cur g, snd f with
  | None, None => True
  | Some (o, T), Some (o', P) => o = o' /\ conv eq T P /\ enough any T
  | _, _ => False
  end.

Lemma map_set_nth {A B} (f : A -> B) l t x : map f (set_nth l t x) = set_nth (map f l) t (f x).
Proof. unfold set_nth. now rewrite map_app, <- firstn_map, map_cons, <- skipn_map. Qed.
Lemma Forall2_set_nth {A B} (R : A -> B -> Prop) l l' t x y :
  Forall2 R l l' -> R x y -> Forall2 R (set_nth l t x) (set_nth l' t y).
Proof.
  intros H HR. unfold set_nth. apply Forall2_app.
  - revert t; induction H; intros [|t]; cbn; constructor; auto.
  - constructor; [exact HR|]. revert t; induction H; intros [|t]; cbn; auto.
    specialize (IHForall2 t). exact IHForall2.
Qed.
Lemma Forall2_nth {A B} (R : A -> B -> Prop) l l' t x : Forall2 R l l' -> nth_error l t = Some x ->
  exists y, nth_error l' t = Some y /\ R x y.
Proof.
  intros H. revert t; induction H; intros [|t] E; cbn in E; try discriminate E.
  - injection E as <-. exists y. auto.
  - cbn. auto.
Qed.
Lemma rel_shape n gl fl : Forall2 rel gl fl -> map shape gl = map shape (map (inst n) fl).
Proof.
  intros H. induction H as [|g f gl fl [E [_ R]] _ IH]; [reflexivity|]. cbn. rewrite IH. f_equal.
  unfold shape, inst. cbn. rewrite E. f_equal. destruct (cur g) as [[o T]|], (snd f) as [[o' P]|]; try contradiction; cbn; auto.
  now destruct R as [-> _].
Qed.

Lemma matched_families c : Acc (next_of body) c -> forall fl, Forall2 rel (gs c) fl -> short (b_buf (bb (sh c))) ->
  exists N, forall n, (N <= n)%nat -> matched body (text n) c (mkC (sh c) (map (inst n) fl)).
Proof.
  intros A. induction A as [c _ IH]. intros fl R S.
  destruct (uniform (fun t n =>
    (forall h c2, gstep body t c h c2 ->
       exists c2', gstep (text n) t (mkC (sh c) (map (inst n) fl)) h c2' /\ matched body (text n) c2 c2') /\
    (forall h c2', gstep (text n) t (mkC (sh c) (map (inst n) fl)) h c2' ->
       exists c2, gstep body t c h c2 /\ matched body (text n) c2 c2')) (List.length (gs c))) as [N HN].
  { intros t Ht. destruct (nth_error (gs c) t) as [g|] eqn:Eg; [|apply nth_error_None in Eg; lia].
    destruct (Forall2_nth _ _ _ _ _ R Eg) as (f & Ef & Hf).
    assert (Ei : forall n, nth_error (gs (mkC (sh c) (map (inst n) fl))) t = Some (inst n f)).
    { intros n. cbn. now rewrite (map_nth_error _ _ _ Ef). }
    (* the step to [g'], [f'] and [s'] with the events [h], on both sides *)
    assert (GO : forall h g' f' s', gstep body t c h (set_g c t s' g') ->
      (forall h' c2, gstep body t c h' c2 -> h' = h /\ c2 = set_g c t s' g') ->
      rel g' f' -> short (b_buf (bb s')) ->
      (exists M, forall n, (M <= n)%nat -> let c' := mkC (sh c) (map (inst n) fl) in
         gstep (text n) t c' h (set_g c' t s' (inst n f')) /\
         (forall h' c2, gstep (text n) t c' h' c2 -> h' = h /\ c2 = set_g c' t s' (inst n f'))) ->
      exists N, forall n, (N <= n)%nat ->
        (forall h c2, gstep body t c h c2 ->
           exists c2', gstep (text n) t (mkC (sh c) (map (inst n) fl)) h c2' /\ matched body (text n) c2 c2') /\
        (forall h c2', gstep (text n) t (mkC (sh c) (map (inst n) fl)) h c2' ->
           exists c2, gstep body t c h c2 /\ matched body (text n) c2 c2')).
    { intros h g' f' s' G U R' S' [M HM].
      destruct (IH (set_g c t s' g') (ex_intro _ t (ex_intro _ h G)) (set_nth fl t f')) as [N HN].
      { cbn. now apply Forall2_set_nth. } { exact S'. }
      exists (M + N)%nat. intros n Hn. destruct (HM n) as [G' U']; [lia|]. specialize (HN n ltac:(lia)).
      cbn in HN. rewrite map_set_nth in HN.
      split.
      - intros h1 c2 G1. destruct (U _ _ G1) as [-> ->]. eexists. split; [exact G'|exact HN].
      - intros h1 c2 G1. destruct (U' _ _ G1) as [-> ->]. eexists. split; [exact G|exact HN]. }
    destruct g as [os cu], f as [os' cf]. destruct Hf as [E1 [OK Hf]]. cbn in E1, OK, Hf. subst os'.
    destruct cu as [[o T]|], cf as [[o' P]|]; try contradiction.
    - destruct Hf as (<- & C & E). unfold inst at 2 in Ei; cbn [fst snd option_map] in Ei.
      destruct (conv_step T P (sh c) C E S) as [(v & -> & M & HM)|[(e & -> & M & HM)|[[(E1 & E2 & E3) (M & HM)]|(T' & s' & P' & E1 & (M & HM) & C' & E' & S')]]].
      + apply (GO [ERet t o (Returned (view_rv (sh c) v))] (mkG os None) (os, None) (sh c)).
        * now constructor.
        * intros h' c2 G. inversion G as [? ? H|? ? ? ? ? H H1|? ? ? H|? ? ? H]; rewrite Eg in H; try discriminate H; injection H as ->; subst; auto; discriminate.
        * repeat split; auto.
        * exact S.
        * exists M. intros n Hn c'. specialize (Ei n). rewrite HM in Ei by lia. split.
          -- exact (g_return (text n) t c' o os v Ei).
          -- intros h' c2 G. inversion G as [? ? H|? ? ? ? ? H H1|? ? ? H|? ? ? H]; subst c'; rewrite Ei in H; try discriminate H; injection H as ->; subst; auto; discriminate.
      + apply (GO [ERet t o (Raised e)] (mkG os None) (os, None) (sh c)).
        * now constructor.
        * intros h' c2 G. inversion G as [? ? H|? ? ? ? ? H H1|? ? ? H|? ? ? H]; rewrite Eg in H; try discriminate H; injection H as ->; subst; auto; discriminate.
        * repeat split; auto.
        * exact S.
        * exists M. intros n Hn c'. specialize (Ei n). rewrite HM in Ei by lia. split.
          -- exact (g_panic (text n) t c' o os e Ei).
          -- intros h' c2 G. inversion G as [? ? H|? ? ? ? ? H H1|? ? ? H|? ? ? H]; subst c'; rewrite Ei in H; try discriminate H; injection H as ->; subst; auto; discriminate.
      + exists M. intros n Hn. destruct (HM n Hn) as (H1 & H2 & H3). split.
        * intros h' c2 G. exfalso. inversion G as [? ? H|? ? ? ? ? H H0|? ? ? H|? ? ? H]; rewrite Eg in H; try discriminate H; injection H as -> ; subst; congruence.
        * intros h' c2 G. exfalso. inversion G as [? ? H|? ? ? ? ? H H0|? ? ? H|? ? ? H]; rewrite Ei in H; try discriminate H; injection H; intros; subst; cbn in *; congruence.
      + apply (GO [] (mkG os (Some (o, T'))) (os, Some (o, P')) s').
        * econstructor; eauto.
        * intros h' c2 G. inversion G as [? ? H|? ? ? ? ? H H1|? ? ? H|? ? ? H]; rewrite Eg in H; try discriminate H; injection H; intros; subst;
            try (cbn in E1; discriminate E1). rewrite E1 in H1. injection H1 as <- <-. auto.
        * repeat split; auto.
        * exact S'.
        * exists M. intros n Hn c'. specialize (Ei n). specialize (HM n Hn). split.
          -- exact (g_step (text n) t c' o os (P n) (P' n) s' Ei HM).
          -- intros h' c2 G. inversion G as [? ? H|? ? ? ? ? H H1|? ? ? H|? ? ? H]; subst c'; rewrite Ei in H; try discriminate H; injection H; intros; subst.
             ++ cbn in H1. rewrite HM in H1. injection H1 as <- <-. auto.
             ++ match goal with X : P n = Ret _ |- _ => rewrite X in HM; discriminate HM | X : Ret _ = P n |- _ => rewrite <- X in HM; discriminate HM end.
             ++ match goal with X : P n = Panic _ |- _ => rewrite X in HM; discriminate HM | X : Panic _ = P n |- _ => rewrite <- X in HM; discriminate HM end.
    - unfold inst at 2 in Ei; cbn [fst snd option_map] in Ei. destruct os as [|o os].
      + exists 0%nat. intros n _. split; intros h' c2 G; exfalso;
          inversion G as [? ? H|? ? ? ? ? H H0|? ? ? H|? ? ? H]; (rewrite Eg in H || rewrite Ei in H); discriminate H.
      + inversion OK as [|? ? OK1 OK2]; subst.
        apply (GO [ECall t o] (mkG os (Some (o, body o))) (os, Some (o, fun n => text n o)) (sh c)).
        * now constructor.
        * intros h' c2 G. inversion G as [? ? H|? ? ? ? ? H H1|? ? ? H|? ? ? H]; rewrite Eg in H; try discriminate H; injection H; intros; subst. auto.
        * repeat split; auto.
        * exact S.
        * exists 0%nat. intros n _ c'. specialize (Ei n). split.
          -- exact (g_call (text n) t c' o os Ei).
          -- intros h' c2 G. inversion G as [? ? H|? ? ? ? ? H H1|? ? ? H|? ? ? H]; subst c'; rewrite Ei in H; try discriminate H; injection H; intros; subst. auto. }
  destruct (uniform (fun t n => next_access c t = next_access (mkC (sh c) (map (inst n) fl)) t) (List.length (gs c))) as [N2 HA].
  { intros t Ht. destruct (nth_error (gs c) t) as [g|] eqn:Eg; [|apply nth_error_None in Eg; lia].
    destruct (Forall2_nth _ _ _ _ _ R Eg) as (f & Ef & Hf). unfold next_access. cbn [gs sh]. rewrite Eg.
    destruct g as [os cu], f as [os' cf]. destruct Hf as [_ [_ Hf]]. cbn in Hf.
    destruct cu as [[o T]|], cf as [[o' P]|]; try contradiction.
    - destruct Hf as (<- & C & E). destruct (conv_access T P (sh c) C E) as [M HM]. exists M. intros n Hn.
      rewrite (map_nth_error _ _ _ Ef). cbn. now rewrite HM.
    - exists 0%nat. intros n _. rewrite (map_nth_error _ _ _ Ef). reflexivity. }
  exists (N + N2)%nat. intros n Hn. specialize (HN n ltac:(lia)). specialize (HA n ltac:(lia)). constructor.
  - split; [reflexivity|]. cbn. now apply rel_shape.
  - intros t. destruct (Nat.lt_ge_cases t (List.length (gs c))) as [L|L]; [now apply HA|].
    unfold next_access. cbn [gs]. rewrite (proj2 (nth_error_None _ _) L).
    assert (LE : List.length (gs c) = List.length (map (inst n) fl)).
    { rewrite map_length. clear -R. induction R; cbn; congruence. }
    rewrite LE in L. now rewrite (proj2 (nth_error_None _ _) L).
  - intros t h c2 G. apply HN; [|exact G].
    inversion G as [? ? H|? ? ? ? ? H H1|? ? ? H|? ? ? H]; (apply nth_error_Some; congruence).
  - intros t h c2 G. apply HN; [|exact G].
    assert (LE : List.length (gs c) = List.length (map (inst n) fl)).
    { rewrite map_length. clear -R. induction R; cbn; congruence. }
    rewrite LE. inversion G as [? ? H|? ? ? ? ? H H1|? ? ? H|? ? ? H]; cbn [gs] in H; (apply nth_error_Some; congruence).
Qed.

(** One bound for every schedule. *)
Theorem matched_start s programs : short (b_buf (bb s)) -> Forall (Forall ok) programs ->
  exists N, forall n, (N <= n)%nat -> matched body (text n) (start s programs) (start s programs).
Proof.
  intros S F.
  destruct (matched_families (start s programs) (steps_finite body _) (map (fun p => (p, None)) programs)) as [N HN].
  - cbn. induction F; cbn; constructor; auto. repeat split; auto.
  - exact S.
  - exists N. intros n Hn. specialize (HN n Hn). cbn in HN. rewrite map_map in HN. exact HN.
Qed.
End Families.

Lemma body_conv p pol q T : means p pol q T -> conv eq T (fun n => go_body (sources p) pol n q).
Proof.
  intros H. unfold means in H. Transparent D. unfold D in H. Opaque D.
  assert (X : conv eq (bind T Ret) (fun n => go_body (sources p) pol n q)).
  { unfold go_body. eapply (conv_bind answers eq). { exact H. }
    intros a b (v & -> & Hv). rewrite Hv. exists 0%nat, a. auto. }
  clear H. revert X. generalize (fun n => go_body (sources p) pol n q).
  conv_cases T IH; intros P; cbn [bind conv]; auto;
    intros (M & K & HK & H); exists M, K; split; auto; intros x; apply (IH x (fun n => K n x)); auto.
Qed.
