(** * IsolateBound: the goroutines of IsolateSpec.v, running the Go text at any bound.

    At every bound of the interpreter what they do is what the models do, except that
    calls may be cut short. *)
From Coq Require Import ZArith List Bool Lia Arith.
From Verif Require Import GoSem Errors GoLemmas Conv Spec V1Lemmas Typed Calls Abs MiniAbs History MiniHistory OldCalls V1Calls Abs2 MiniAbs2 FrontOldCalls Enough Conc ConcLemmas Race FrontConc
  IsolateSpec Isolate IsolateText Bound TextWeak.
Import ListNotations.
Open Scope Z_scope.
Open Scope list_scope.

Lemma job_mono pol n m k j : (n <= m)%nat -> below (job_text pol n k j) (job_text pol m k j).
Proof.
  intro L. destruct k as [| |v|v], j as [c o|c o]; cbn [job_text]; try apply below_refl; try now apply body_mono.
  - unfold then_find. destruct (finds3 c); [|now apply body_mono]. apply below_bind; [now apply body_mono|]. intro. apply below_refl.
  - unfold then_find. destruct (finds_old v c); [|now apply body_mono]. apply below_bind; [now apply body_mono|]. intro. apply below_refl.
Qed.
Lemma job_under pol s n k j : wf_heap (heap s) -> valid_job k s j -> under (job_text pol n k j) (job_body pol k j).
Proof.
  intros W V. eapply under_limit; [eapply job_conv; exact V|eapply job_enough; eauto|].
  exists n. intros m L. now apply job_mono.
Qed.

Section Shops.
Variables (body text : sort -> job -> prog (rv slice)) (ok : sort -> job -> Prop).
Hypothesis ok_under : forall k j, ok k j -> under (text k j) (body k j).

(** A goroutine of the text and one of the models. *)
Definition near1 (w w' : worker) : Prop :=
  w_sort w = w_sort w' /\ w_buf w = w_buf w' /\ w_mu w = w_mu w' /\ w_outs w = w_outs w' /\ w_todo w = w_todo w' /\ w_done w = w_done w' /\
  Forall (ok (w_sort w)) (w_todo w) /\ short (b_buf (w_buf w)) /\
  match w_cur w, w_cur w' with None, None => True | Some p, Some q => under p q | _, _ => False end.
Definition near (c c' : shop) : Prop := memory c = memory c' /\ Forall2 near1 (workers c) (workers c').

Lemma near_step m w w' m1 w1 : near1 w w' -> wstep text m w m1 w1 -> exists w1', wstep body m w' m1 w1' /\ near1 w1 w1'.
Proof.
  destruct w' as [k' b' mu' o' js' cu' l']. intros (E1 & E2 & E3 & E4 & E5 & E6 & F & S & U) ST.
  inversion ST; subst; cbn [w_sort w_buf w_mu w_outs w_todo w_done w_cur] in *; subst; destruct cu' as [q|]; try contradiction.
  - inversion F; subst. eexists. split; [constructor|]. unfold near1; cbn; auto 12.
  - destruct (under_step p q (mkSt m b' mu' o') p' s' U S H) as (q' & Eq & U' & S'). eexists. split; [constructor; exact Eq|]. unfold near1; cbn; auto 12.
  - inversion U; subst. eexists. split; [constructor|]. unfold near1; cbn; auto 12.
  - inversion U; subst. eexists. split; [constructor|]. unfold near1; cbn; auto 12.
Qed.
Lemma near_access c c' t : near c c' -> forall w m w1, nth_error (workers c) t = Some w -> wstep text (memory c) w m w1 -> shop_access c t = shop_access c' t.
Proof.
  intros [EM F] w m w1 E ST. destruct (Forall2_nth _ _ _ _ _ F E) as (w' & E' & (E1 & E2 & E3 & E4 & E5 & E6 & _ & _ & U)).
  unfold shop_access, sees. rewrite E, E', EM, E2, E3, E4.
  destruct (w_cur w) as [p|] eqn:C, (w_cur w') as [q|]; try contradiction; auto.
  destruct U; cbn [access_of]; auto. inversion ST; subst; cbn [w_cur] in C; try discriminate; injection C as ->; discriminate.
Qed.
Theorem near_works c0 c0' sch tr c : near c0 c0' -> works text c0 sch tr c -> exists c', works body c0' sch tr c' /\ near c c'.
Proof.
  intros T W. induction W as [|sch tr c1 t w m w' W IH E S].
  - exists c0'. split; [constructor|exact T].
  - destruct IH as (c2 & W2 & N2). pose proof N2 as [EM F]. destruct (Forall2_nth _ _ _ _ _ F E) as (v & E2 & N1).
    destruct (near_step _ _ _ _ _ N1 S) as (v' & S' & N'). rewrite (near_access _ _ _ N2 _ _ _ E S).
    eexists. split; [eapply wk_step; eauto; rewrite <- EM; exact S'|]. split; cbn; auto. now apply Forall2_set.
Qed.
End Shops.

Theorem text_near pol c0 n : opened c0 -> near (fun k j => under (job_text pol n k j) (job_body pol k j)) c0 c0.
Proof.
  intros O. split; [reflexivity|]. unfold opened in O.
  induction O as [|w l (W & M & C & D & V) O IH]; constructor; auto. do 6 (split; [reflexivity|]). split; [|split].
  - revert V. apply Forall_impl. intro j. apply job_under, W.
  - apply (wf_slice_short (heap (sees (memory c0) w))); apply W.
  - now rewrite C.
Qed.
