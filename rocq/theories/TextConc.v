(** * TextConc: goroutines that run Go text, at every bound.

    FrontConc.v: above some bound the executions of the text are those of the models.
    Here: at every bound they are among those of the models. *)
From Coq Require Import ZArith List Bool String Lia Arith.
From Verif Require Import GoSem Spec Calls Abs History Conc ConcLemmas ConcSpec Race Conv Enough FrontConc Bound TextWeak.
Import ListNotations.
Open Scope Z_scope.
Open Scope list_scope.

(** ** One call *)

Lemma below_run {A} (p q : prog A) : below p q -> forall s, run p s = Stuck \/ run p s = run q s.
Proof.
  intro H. induction H; intro st; cbn [run]; auto.
  - destruct (heap_read _ _ _ _) as [[|w [|]]|]; auto.
  - destruct (heap_write _ _ _ _); auto.
  - destruct (heap_read _ _ _ _); auto. destruct (heap_write _ _ _ _); auto.
  - destruct (mu st); auto.
  - destruct (mu st); auto.
Qed.

(** ** Many goroutines *)

Section Every.
Context {call : Type} (body body' : call -> prog (rv slice)).
Variable ok : call -> Prop.
Hypothesis ok_under : forall c, ok c -> under (body' c) (body c).

Definition csim (c c' : config call) : Prop := sh c = sh c' /\ short (b_buf (bb (sh c))) /\ Forall2 (gsim ok) (gs c) (gs c').
Lemma csim_start s programs : short (b_buf (bb s)) -> Forall (Forall ok) programs -> csim (start s programs) (start s programs).
Proof.
  intros S F. split; [reflexivity|]. split; [exact S|]. cbn. induction F; cbn; constructor; auto. repeat split; auto.
Qed.
Lemma csim_step t c h c2 c' : csim c c' -> gstep body' t c h c2 ->
  exists c2', gstep body t c' h c2' /\ csim c2 c2' /\ next_access c t = next_access c' t.
Proof.
  intros (E & S & F) G. unfold next_access.
  destruct G as [o os Eg|o os p p' s' Eg St|o os v Eg|o os e Eg]; destruct (Forall2_nth _ _ _ _ _ F Eg) as ([os' cu'] & Eg' & (G1 & G2 & G3));
    cbn in G1, G2, G3; subst os'; rewrite Eg, Eg'.
  - destruct cu' as [[]|]; [contradiction|]. inversion G2; subst. eexists. split; [eapply g_call; exact Eg'|]. split; [|reflexivity].
    split; [exact E|]. split; [exact S|]. apply Forall2_set; auto. repeat split; auto.
  - destruct cu' as [[o' q]|]; [|contradiction]. destruct G3 as [<- U].
    destruct (under_step p q (sh c) p' s' U S St) as (q' & St' & U' & S').
    eexists. split; [apply (g_step _ _ _ _ _ q q' s' Eg'); now rewrite <- E|]. split.
    + split; [reflexivity|]. split; [exact S'|]. apply Forall2_set; auto. repeat split; auto.
    + rewrite <- E. cbn [cur]. destruct U; try reflexivity. discriminate St.
  - destruct cu' as [[o' q]|]; [|contradiction]. destruct G3 as [<- U]. inversion U; subst. rewrite E.
    eexists. split; [eapply g_return; exact Eg'|]. split; [|reflexivity]. split; [reflexivity|]. split; [cbn; now rewrite <- E|]. apply Forall2_set; auto. repeat split; auto.
  - destruct cu' as [[o' q]|]; [|contradiction]. destruct G3 as [<- U]. inversion U; subst.
    eexists. split; [eapply g_panic; exact Eg'|]. split; [|reflexivity]. split; [exact E|]. split; [exact S|]. apply Forall2_set; auto. repeat split; auto.
Qed.
Theorem csim_exec c c' h c2 : csim c c' -> exec body' c h c2 -> exists c2', exec body c' h c2' /\ csim c2 c2'.
Proof.
  intros S E. induction E as [|h c1 t h1 c2 E (c1' & E' & S') G].
  - exists c'. split; [constructor|exact S].
  - destruct (csim_step t c1 h1 c2 c1' S' G) as (c2' & G' & S2 & _). exists c2'. split; auto. econstructor; eauto.
Qed.
Theorem csim_traced c c' tr c2 : csim c c' -> traced body' c tr c2 -> exists c2', traced body c' tr c2' /\ csim c2 c2'.
Proof.
  intros S E. induction E as [|tr c1 t h1 c2 E (c1' & E' & S') G].
  - exists c'. split; [constructor|exact S].
  - destruct (csim_step t c1 h1 c2 c1' S' G) as (c2' & G' & S2 & A). exists c2'. split; auto. rewrite A. econstructor; eauto.
Qed.
Lemma csim_same c c' : csim c c' -> same c c'.
Proof.
  intros (E & _ & F). split; [exact E|]. induction F as [|g g' l l' (G1 & _ & G3) F IH]; [reflexivity|]. cbn [map]. f_equal; [|exact IH].
  unfold shape. rewrite G1. f_equal. destruct (cur g) as [[]|], (cur g') as [[]|]; try contradiction; [|reflexivity]. destruct G3 as [-> _]. reflexivity.
Qed.
End Every.
