(** * ConcSched: executions of the goroutine model.

    Linearization orders from the atomic object, and solo stretches of one
    goroutine from the sequential semantics. *)
From Coq Require Import ZArith List Bool Lia Arith.
From Verif Require Import GoSem Errors Spec GoLemmas Calls Abs Frame Sim History LockLemmas Conc ConcLemmas ConcInv.
Import ListNotations.
Open Scope Z_scope.

Section Orders.
Context {call state : Type} (seq : call -> state -> answer -> state -> Prop).

Lemma prefix_refl {A} (l : list A) : prefix l l.
Proof. exists []. now rewrite app_nil_r. Qed.
Lemma prefix_app {A} (l m n : list A) : prefix l m -> prefix l (m ++ n).
Proof. intros [k ->]. exists (k ++ n). now rewrite app_assoc. Qed.

Lemma calls_of_app t (h1 h2 : list (event call)) : calls_of t (h1 ++ h2) = calls_of t h1 ++ calls_of t h2.
Proof. apply flat_map_app. Qed.
Lemma returns_of_app t (h1 h2 : list (event call)) : returns_of t (h1 ++ h2) = returns_of t h1 ++ returns_of t h2.
Proof. apply flat_map_app. Qed.
Lemma of_app t (o1 o2 : @order call) : of t (o1 ++ o2) = of t o1 ++ of t o2.
Proof. apply flat_map_app. Qed.

Definition decided (p : pending call) : list (call * answer) :=
  match p with Decided c r => [(c, r)] | _ => [] end.
Definition opened (p : pending call) : list call :=
  match p with Idle => [] | Called c | Decided c _ => [c] end.

Lemma atomic_order a0 h a q : atomic seq a0 h a q ->
  exists o, runs seq a0 o a /\
    (forall t, of t o = returns_of t h ++ decided (q t)) /\
    (forall t, calls_of t h = map fst (returns_of t h) ++ opened (q t)) /\
    (forall h1 h2, h = h1 ++ h2 -> exists o1 o2, o = o1 ++ o2 /\ explains o1 h1).
Proof.
  intro H. induction H as [|h a q t c H IH Q|h a q t c r a' H IH Q S|h a q t c r H IH Q].
  - exists []. split; [constructor|]. split; [reflexivity|]. split; [reflexivity|].
    intros h1 h2 E. symmetry in E. apply app_eq_nil in E as [-> ->]. exists [], []. split; auto.
    intro t. split; exists []; reflexivity.
  - destruct IH as (o & R & D & C & P). exists o. split; auto.
    assert (D' : forall u, of u o = returns_of u (h ++ [ECall t c]) ++ decided (set_q q t (Called c) u)).
    { intro u. rewrite returns_of_app. cbn. rewrite app_nil_r, D. unfold set_q.
      destruct (Nat.eqb_spec u t) as [->|N]; auto. now rewrite Q. }
    assert (C' : forall u, calls_of u (h ++ [ECall t c]) = map fst (returns_of u (h ++ [ECall t c])) ++ opened (set_q q t (Called c) u)).
    { intro u. rewrite calls_of_app, returns_of_app. cbn. rewrite !app_nil_r, C. unfold set_q.
      rewrite Nat.eqb_sym. destruct (Nat.eqb_spec u t) as [->|N]; cbn; rewrite ?app_nil_r; auto.
      rewrite Q. cbn. now rewrite app_nil_r. }
    split; [exact D'|]. split; [exact C'|].
    intros h1 h2 E. destruct h2 as [|e h2 _] using rev_ind.
    + rewrite app_nil_r in E. subst h1. exists o, []. rewrite app_nil_r. split; auto.
      intro u. split; [rewrite D'; now eexists|]. rewrite D', C', map_app. destruct (set_q q t (Called c) u); cbn.
      all: rewrite ?app_nil_r; try apply prefix_refl. now eexists.
    + rewrite app_assoc in E. apply app_inj_tail in E as [E _]. eauto.
  - destruct IH as (o & R & D & C & P). exists (o ++ [(t, (c, r))]).
    split; [econstructor; eauto|].
    assert (D' : forall u, of u (o ++ [(t, (c, r))]) = returns_of u h ++ decided (set_q q t (Decided c r) u)).
    { intro u. rewrite of_app, D. cbn. rewrite app_nil_r. unfold set_q. rewrite (Nat.eqb_sym u t).
      destruct (Nat.eqb_spec t u) as [->|N]; cbn; rewrite ?app_nil_r; auto. rewrite Q. cbn. now rewrite app_nil_r. }
    assert (C' : forall u, calls_of u h = map fst (returns_of u h) ++ opened (set_q q t (Decided c r) u)).
    { intro u. rewrite C. f_equal. unfold set_q. destruct (Nat.eqb_spec u t) as [->|N]; auto. now rewrite Q. }
    split; [exact D'|]. split; [exact C'|].
    intros h1 h2 E. destruct (P h1 h2 E) as (o1 & o2 & -> & X). exists o1, (o2 ++ [(t, (c, r))]).
    split; auto. now rewrite app_assoc.
  - destruct IH as (o & R & D & C & P). exists o. split; auto.
    assert (D' : forall u, of u o = returns_of u (h ++ [ERet t c r]) ++ decided (set_q q t Idle u)).
    { intro u. rewrite returns_of_app, D. cbn. rewrite app_nil_r. unfold set_q. rewrite (Nat.eqb_sym u t).
      destruct (Nat.eqb_spec t u) as [->|N]; cbn; rewrite ?app_nil_r; auto. now rewrite Q. }
    assert (C' : forall u, calls_of u (h ++ [ERet t c r]) = map fst (returns_of u (h ++ [ERet t c r])) ++ opened (set_q q t Idle u)).
    { intro u. rewrite calls_of_app, returns_of_app. cbn. rewrite !app_nil_r, C, map_app. unfold set_q.
      rewrite (Nat.eqb_sym u t). destruct (Nat.eqb_spec t u) as [->|N]; cbn; rewrite ?app_nil_r; auto.
      now rewrite Q. }
    split; [exact D'|]. split; [exact C'|].
    intros h1 h2 E. destruct h2 as [|e h2 _] using rev_ind.
    + rewrite app_nil_r in E. subst h1. exists o, []. rewrite app_nil_r. split; auto.
      intro u. split; [rewrite D'; now eexists|]. rewrite D', C', map_app. destruct (set_q q t Idle u); cbn.
      all: rewrite ?app_nil_r; try apply prefix_refl. now eexists.
    + rewrite app_assoc in E. apply app_inj_tail in E as [E _]. eauto.
Qed.

Theorem atomic_linearizable a0 h a q : atomic seq a0 h a q -> linearizable seq a0 h a.
Proof.
  intro H. destruct (atomic_order _ _ _ _ H) as (o & R & D & C & P). exists o. split; auto. split; auto.
  intro t. rewrite D, C, map_app. split; [now eexists|].
  destruct (q t); cbn; rewrite ?app_nil_r; try apply prefix_refl. now eexists.
Qed.
End Orders.

Section Schedules.
Context {call : Type} (body : call -> prog (rv slice)).

Lemma exec_trans c h1 c1 h2 c2 : exec body c h1 c1 -> exec body c1 h2 c2 -> exec body c (h1 ++ h2) c2.
Proof.
  intros E1 E2. induction E2 as [|h c3 t h' c4 E2 IH St].
  - now rewrite app_nil_r.
  - rewrite app_assoc. econstructor; eauto.
Qed.
Lemma exec_one t c h c' : gstep body t c h c' -> exec body c h c'.
Proof. intro H. rewrite <- (app_nil_l h). econstructor; [constructor|exact H]. Qed.
Lemma exec_cons t c h c1 h2 c2 : gstep body t c h c1 -> exec body c1 h2 c2 -> exec body c (h ++ h2) c2.
Proof. intros G E. eapply exec_trans; eauto using exec_one. Qed.

Lemma set_nth_twice {A} (l : list A) t x y : (t < length l)%nat -> set_nth (set_nth l t x) t y = set_nth l t y.
Proof.
  intro L. unfold set_nth. rewrite firstn_app, firstn_firstn, firstn_length, Nat.min_id, Nat.min_l by lia.
  rewrite Nat.sub_diag. cbn [firstn]. rewrite app_nil_r. f_equal. f_equal.
  rewrite skipn_app, firstn_length, Nat.min_l by lia. rewrite skipn_all2 by (rewrite firstn_length; lia).
  replace (S t - t)%nat with 1%nat by lia. reflexivity.
Qed.
Lemma nth_error_set_same {A} (l : list A) t x : (t < length l)%nat -> nth_error (set_nth l t x) t = Some x.
Proof. intro L. rewrite nth_error_set_nth by auto. now rewrite Nat.eqb_refl. Qed.

(** A goroutine that is scheduled alone until its call ends. *)
Lemma solo_done t os o p : forall c v s',
  nth_error (gs c) t = Some (mkG os (Some (o, p))) -> run p (sh c) = Done v s' ->
  exec body c [ERet t o (Returned (view_rv s' v))] (set_g c t s' (mkG os None)).
Proof.
  assert (ST : forall p p' s1 c v s', nth_error (gs c) t = Some (mkG os (Some (o, p))) -> step1 p (sh c) = Some (p', s1) ->
    (forall c, nth_error (gs c) t = Some (mkG os (Some (o, p'))) -> sh c = s1 ->
       exec body c [ERet t o (Returned (view_rv s' v))] (set_g c t s' (mkG os None))) ->
    exec body c [ERet t o (Returned (view_rv s' v))] (set_g c t s' (mkG os None))).
  { intros q q' s1 c v s' H S K. assert (L : (t < length (gs c))%nat) by (apply nth_error_Some; congruence).
    change [ERet t o (Returned (view_rv s' v))] with ([] ++ [ERet t o (Returned (view_rv s' v))]).
    eapply exec_cons; [eapply g_step; eauto|].
    assert (E : set_g c t s' (mkG os None) = set_g (set_g c t s1 (mkG os (Some (o, q')))) t s' (mkG os None)).
    { unfold set_g; cbn [gs]. now rewrite set_nth_twice. }
    rewrite E. apply K; auto. unfold set_g; cbn [gs]. now apply nth_error_set_same. }
  induction p; intros c v0 s' Ht R; cbn [run] in R; try discriminate.
  - injection R as <- <-. apply exec_one with (t := t). now apply g_return.
  - eapply ST; eauto; [reflexivity|]. intros c' H' E'. eapply H; [exact H'|]. now rewrite E'.
  - eapply ST; eauto; [reflexivity|]. intros c' H' E'. apply IHp; auto. now rewrite E'.
  - eapply ST; eauto; [reflexivity|]. intros c' H' E'. eapply H; [exact H'|]. now rewrite E'.
  - eapply ST; eauto; [reflexivity|]. intros c' H' E'. apply IHp; auto. now rewrite E'.
  - destruct (heap_read (heap (sh c)) blk i 1) as [[|w [|]]|] eqn:ER; try discriminate.
    eapply ST; eauto; [cbn; now rewrite ER|]. intros c' H' E'. eapply H; [exact H'|]. now rewrite E'.
  - destruct (heap_write (heap (sh c)) blk i [v]) eqn:EW; try discriminate.
    eapply ST; eauto; [cbn; now rewrite EW|]. intros c' H' E'. apply IHp; auto. now rewrite E'.
  - destruct (heap_read _ _ _ _) as [d|] eqn:ER; try discriminate.
    destruct (heap_write _ _ _ _) as [h|] eqn:EW; try discriminate.
    eapply ST; eauto; [cbn; rewrite ER, EW; reflexivity|]. intros c' H' E'. apply IHp; auto. now rewrite E'.
  - eapply ST; eauto; [reflexivity|]. intros c' H' E'. eapply H; [exact H'|]. now rewrite E'.
  - eapply ST; eauto; [reflexivity|]. intros c' H' E'. eapply H; [exact H'|]. now rewrite E'.
  - eapply ST; eauto; [reflexivity|]. intros c' H' E'. apply IHp; auto. now rewrite E'.
  - destruct (mu (sh c)) eqn:M; try discriminate.
    eapply ST; eauto; [cbn; now rewrite M|]. intros c' H' E'. apply IHp; auto. now rewrite E'.
  - destruct (mu (sh c)) eqn:M; try discriminate.
    eapply ST; eauto; [cbn; now rewrite M|]. intros c' H' E'. apply IHp; auto. now rewrite E'.
Qed.

Lemma solo_panic t os o p : forall c e s',
  nth_error (gs c) t = Some (mkG os (Some (o, p))) -> run p (sh c) = Panicked e s' ->
  exec body c [ERet t o (Raised e)] (set_g c t s' (mkG os None)).
Proof.
  assert (ST : forall p p' s1 c e s', nth_error (gs c) t = Some (mkG os (Some (o, p))) -> step1 p (sh c) = Some (p', s1) ->
    (forall c, nth_error (gs c) t = Some (mkG os (Some (o, p'))) -> sh c = s1 ->
       exec body c [ERet t o (Raised e)] (set_g c t s' (mkG os None))) ->
    exec body c [ERet t o (Raised e)] (set_g c t s' (mkG os None))).
  { intros q q' s1 c e s' H S K. assert (L : (t < length (gs c))%nat) by (apply nth_error_Some; congruence).
    change [ERet t o (Raised e)] with ([] ++ [ERet t o (Raised e)]).
    eapply exec_cons; [eapply g_step; eauto|].
    assert (E : set_g c t s' (mkG os None) = set_g (set_g c t s1 (mkG os (Some (o, q')))) t s' (mkG os None)).
    { unfold set_g; cbn [gs]. now rewrite set_nth_twice. }
    rewrite E. apply K; auto. unfold set_g; cbn [gs]. now apply nth_error_set_same. }
  induction p; intros c e0 s' Ht R; cbn [run] in R; try discriminate.
  - injection R as <- <-. apply exec_one with (t := t). now apply g_panic.
  - eapply ST; eauto; [reflexivity|]. intros c' H' E'. eapply H; [exact H'|]. now rewrite E'.
  - eapply ST; eauto; [reflexivity|]. intros c' H' E'. apply IHp; auto. now rewrite E'.
  - eapply ST; eauto; [reflexivity|]. intros c' H' E'. eapply H; [exact H'|]. now rewrite E'.
  - eapply ST; eauto; [reflexivity|]. intros c' H' E'. apply IHp; auto. now rewrite E'.
  - destruct (heap_read (heap (sh c)) blk i 1) as [[|w [|]]|] eqn:ER; try discriminate.
    eapply ST; eauto; [cbn; now rewrite ER|]. intros c' H' E'. eapply H; [exact H'|]. now rewrite E'.
  - destruct (heap_write (heap (sh c)) blk i [v]) eqn:EW; try discriminate.
    eapply ST; eauto; [cbn; now rewrite EW|]. intros c' H' E'. apply IHp; auto. now rewrite E'.
  - destruct (heap_read _ _ _ _) as [d|] eqn:ER; try discriminate.
    destruct (heap_write _ _ _ _) as [h|] eqn:EW; try discriminate.
    eapply ST; eauto; [cbn; rewrite ER, EW; reflexivity|]. intros c' H' E'. apply IHp; auto. now rewrite E'.
  - eapply ST; eauto; [reflexivity|]. intros c' H' E'. eapply H; [exact H'|]. now rewrite E'.
  - eapply ST; eauto; [reflexivity|]. intros c' H' E'. eapply H; [exact H'|]. now rewrite E'.
  - eapply ST; eauto; [reflexivity|]. intros c' H' E'. apply IHp; auto. now rewrite E'.
  - destruct (mu (sh c)) eqn:M; try discriminate.
    eapply ST; eauto; [cbn; now rewrite M|]. intros c' H' E'. apply IHp; auto. now rewrite E'.
  - destruct (mu (sh c)) eqn:M; try discriminate.
    eapply ST; eauto; [cbn; now rewrite M|]. intros c' H' E'. apply IHp; auto. now rewrite E'.
Qed.

(** A goroutine that makes [n] accesses and is then interrupted. *)
Fixpoint stepn {A} (n : nat) (p : prog A) (s : St) : option (prog A * St) :=
  match n with
  | O => Some (p, s)
  | S n => match step1 p s with Some (p', s') => stepn n p' s' | None => None end
  end.

Lemma solo_steps t os o n : forall c p p' s',
  nth_error (gs c) t = Some (mkG os (Some (o, p))) -> stepn n p (sh c) = Some (p', s') ->
  exec body c [] (set_g c t s' (mkG os (Some (o, p')))).
Proof.
  induction n as [|n IH]; intros c p p' s' H S; cbn [stepn] in S.
  - injection S as <- <-. replace (set_g c t (sh c) (mkG os (Some (o, p)))) with c; [constructor|].
    destruct c as [s g]. unfold set_g; cbn [sh gs] in *. f_equal. unfold set_nth.
    clear - H. revert t H. induction g as [|x g IHg]; intros [|t] H; cbn in *; try discriminate.
    + now injection H as ->.
    + f_equal. now apply IHg.
  - destruct (step1 p (sh c)) as [[q s1]|] eqn:E; [|discriminate].
    assert (L : (t < length (gs c))%nat) by (apply nth_error_Some; congruence).
    change (@nil (event call)) with (@nil (event call) ++ []).
    eapply exec_cons; [eapply g_step; eauto|].
    assert (X : set_g c t s' (mkG os (Some (o, p'))) = set_g (set_g c t s1 (mkG os (Some (o, q)))) t s' (mkG os (Some (o, p')))).
    { unfold set_g; cbn [gs]. now rewrite set_nth_twice. }
    rewrite X. eapply IH; [|exact S]. unfold set_g; cbn [gs]. now apply nth_error_set_same.
Qed.

(** *** Bookkeeping: the history and the programs *)

(** What goroutine [g] has left to make, the call in progress first. *)
Definition in_progress (g : goroutine call) : list call := match cur g with Some (c, _) => [c] | None => [] end.

Lemma history_programs s programs h cfg : exec body (start s programs) h cfg ->
  forall t, match nth_error (gs cfg) t with
  | Some g => nth_error programs t = Some (calls_of t h ++ todo g) /\
      calls_of t h = map fst (returns_of t h) ++ in_progress g
  | None => nth_error programs t = None /\ calls_of t h = [] /\ returns_of t h = []
  end.
Proof.
  intros E. remember (start s programs) as c0 eqn:E0. induction E as [|h c1 u h' c2 E IH St]; intro t; subst.
  - cbn. rewrite nth_error_map. destruct (nth_error programs t); cbn; auto.
  - rewrite calls_of_app, returns_of_app.
    inversion St as [o os Ht|o os p p' s' Ht Hs|o os v Ht|o os e Ht]; subst;
      assert (L : (u < length (gs c1))%nat) by (apply nth_error_Some; congruence);
      unfold set_g; cbn [gs]; rewrite nth_error_set_nth by exact L; specialize (IH t); rewrite ?(Nat.eqb_sym t u);
      cbn [calls_of returns_of flat_map]; rewrite ?app_nil_r;
      destruct (Nat.eqb_spec u t) as [->|N]; cbn [app]; rewrite ?app_nil_r; auto;
      rewrite Ht in IH; cbn [todo in_progress cur] in *; destruct IH as [I1 I2].
    + rewrite app_nil_r in I2. rewrite <- app_assoc. cbn. split; auto. now rewrite I2.
    + split; auto.
    + split; auto. rewrite map_app. exact I2.
    + split; auto. rewrite map_app. exact I2.
Qed.

(** *** An executable scheduler *)

(** Goroutine [t] makes one step. *)
Definition sched1 (t : nat) (c : config call) : option (list (event call) * config call) :=
  match nth_error (gs c) t with
  | Some g =>
      match cur g with
      | None =>
          match todo g with
          | o :: os => Some ([ECall t o], set_g c t (sh c) (mkG os (Some (o, body o))))
          | [] => None
          end
      | Some (o, p) =>
          match step1 p (sh c) with
          | Some (p', s') => Some ([], set_g c t s' (mkG (todo g) (Some (o, p'))))
          | None =>
              match p with
              | Ret v => Some ([ERet t o (Returned (view_rv (sh c) v))], set_g c t (sh c) (mkG (todo g) None))
              | Panic e => Some ([ERet t o (Raised e)], set_g c t (sh c) (mkG (todo g) None))
              | _ => None
              end
          end
      end
  | None => None
  end.

Lemma sched1_sound t c h c' : sched1 t c = Some (h, c') -> gstep body t c h c'.
Proof.
  unfold sched1. destruct (nth_error (gs c) t) as [[os [[o p]|]]|] eqn:E; cbn [cur todo]; try discriminate.
  - destruct (step1 p (sh c)) as [[p' s']|] eqn:S.
    + intro X; injection X as <- <-. eapply g_step; eauto.
    + destruct p; try discriminate; intro X; injection X as <- <-; [now apply g_return|now apply g_panic].
  - destruct os as [|o os]; [discriminate|]. intro X. injection X as <- <-. now apply g_call.
Qed.

(** Goroutine [t] makes up to [n] steps, but stops where a call returns. *)
Fixpoint schedn (t n : nat) (c : config call) : option (list (event call) * config call) :=
  match n with
  | O => Some ([], c)
  | S n =>
      match sched1 t c with
      | Some ([ERet _ _ _] as h, c') => Some (h, c')
      | Some (h, c') => match schedn t n c' with Some (h2, c2) => Some (h ++ h2, c2) | None => None end
      | None => None
      end
  end.
Fixpoint sched (l : list (nat * nat)) (c : config call) : option (list (event call) * config call) :=
  match l with
  | [] => Some ([], c)
  | (t, n) :: l =>
      match schedn t n c with
      | Some (h, c') => match sched l c' with Some (h2, c2) => Some (h ++ h2, c2) | None => None end
      | None => None
      end
  end.

Lemma schedn_sound t n : forall c h c', schedn t n c = Some (h, c') -> exec body c h c'.
Proof.
  induction n as [|n IH]; intros c h c'; cbn [schedn].
  - intro X. injection X as <- <-. constructor.
  - destruct (sched1 t c) as [[h1 c1]|] eqn:E; [|discriminate]. apply sched1_sound in E.
    assert (K : match schedn t n c1 with Some (h2, c2) => Some (h1 ++ h2, c2) | None => None end = Some (h, c') -> exec body c h c').
    { destruct (schedn t n c1) as [[h2 c2]|] eqn:E2; [|discriminate]. intro X. injection X as <- <-.
      eapply exec_cons; eauto. }
    destruct h1 as [|[] [|]]; auto. intro X. injection X as <- <-. eapply exec_one; eauto.
Qed.
Lemma sched_sound l : forall c h c', sched l c = Some (h, c') -> exec body c h c'.
Proof.
  induction l as [|[t n] l IH]; intros c h c'; cbn [sched].
  - intro X. injection X as <- <-. constructor.
  - destruct (schedn t n c) as [[h1 c1]|] eqn:E; [|discriminate]. apply schedn_sound in E.
    destruct (sched l c1) as [[h2 c2]|] eqn:E2; [|discriminate]. intro X. injection X as <- <-.
    eapply exec_trans; eauto.
Qed.
Lemma sched_exec l c (P : list (event call) -> config call -> Prop) :
  match sched l c with Some (h, c') => P h c' | None => False end ->
  exists h c', exec body c h c' /\ P h c'.
Proof.
  destruct (sched l c) as [[h c']|] eqn:E; [|contradiction]. intro H. exists h, c'. split; auto.
  now apply (sched_sound l).
Qed.

(** *** Every execution is finite *)

Inductive glt : goroutine call -> goroutine call -> Prop :=
| glt_call o os : glt (mkG os (Some (o, body o))) (mkG (o :: os) None)
| glt_step o os p p' s s' : step1 p s = Some (p', s') -> glt (mkG os (Some (o, p'))) (mkG os (Some (o, p)))
| glt_ret o os p : glt (mkG os None) (mkG os (Some (o, p))).

Lemma glt_acc g : Acc glt g.
Proof.
  assert (P : forall os, Acc glt (mkG os None) -> forall o p, Acc glt (mkG os (Some (o, p)))).
  { intros os A o. induction p; constructor; intros g' L; inversion L as [|o' os' q q' st st' S|]; subst; auto;
      cbn [step1] in S; try discriminate.
    - injection S as <- <-. auto.
    - injection S as <- <-. auto.
    - injection S as <- <-. auto.
    - injection S as <- <-. auto.
    - destruct (heap_read _ _ _ _) as [[|w [|]]|]; try discriminate. injection S as <- <-. auto.
    - destruct (heap_write _ _ _ _); try discriminate. injection S as <- <-. auto.
    - destruct (heap_read _ _ _ _); try discriminate. destruct (heap_write _ _ _ _); try discriminate.
      injection S as <- <-. auto.
    - injection S as <- <-. auto.
    - injection S as <- <-. auto.
    - injection S as <- <-. auto.
    - destruct (mu st); try discriminate. injection S as <- <-. auto.
    - destruct (mu st); try discriminate. injection S as <- <-. auto. }
  destruct g as [os c]. revert c.
  assert (N : forall os, Acc glt (mkG os None)).
  { clear os. induction os as [|o os IH]; constructor; intros g' L; inversion L; subst. now apply P. }
  intros [[o p]|]; auto.
Qed.

Definition llt (l' l : list (goroutine call)) : Prop :=
  exists t g g', nth_error l t = Some g /\ glt g' g /\ l' = set_nth l t g'.

Lemma llt_acc l : Acc llt l.
Proof.
  induction l as [|g l IH].
  - constructor. intros l' (t & g & g' & H & _). destruct t; discriminate.
  - revert g. assert (Q : forall g, Acc glt g -> forall l, Acc llt l -> Acc llt (g :: l)); [|intro g; apply Q; auto using glt_acc].
    clear. intros g Ag. induction Ag as [g Ag IHg]. intros l Al. induction Al as [l Al IHl].
    constructor. intros l' (t & x & x' & H & L & ->). destruct t as [|t]; cbn in H.
    + injection H as <-. unfold set_nth. cbn. apply IHg; auto. now constructor.
    + change (set_nth (g :: l) (S t) x') with (g :: set_nth l t x'). apply IHl. exists t, x, x'. auto.
Qed.

(** One step of any goroutine. *)
Definition next_of (c' c : config call) : Prop := exists t h, gstep body t c h c'.

Theorem steps_finite c : Acc next_of c.
Proof.
  assert (Q : forall l, Acc llt l -> forall s, Acc next_of (mkC s l)).
  { intros l A. induction A as [l A IH]. intro s. constructor. intros c' (t & h & G).
    inversion G as [o os Ht|o os p p' s' Ht Hs|o os v Ht|o os e Ht]; subst; cbn [gs sh] in *; apply IH;
      do 3 eexists; (split; [exact Ht|]); (split; [|reflexivity]).
    - constructor.
    - econstructor; eauto.
    - constructor.
    - constructor. }
  destruct c as [s l]. apply Q. apply llt_acc.
Qed.

End Schedules.
