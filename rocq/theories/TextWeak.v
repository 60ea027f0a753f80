(** * TextWeak: goroutines that run Go text, without a global order of accesses.

    At every bound the executions of the text (WeakSpec.v) are executions of the model,
    with the same views and the same events; and every execution of the model is one of
    the text at every bound that is large enough. *)
From Coq Require Import ZArith List Bool String Lia Arith.
From Verif Require Import GoSem Spec Calls Abs History Conc ConcLemmas Race RaceSpec3 WeakSpec Conv Enough FrontConc Bound.
Import ListNotations.
Open Scope Z_scope.
Open Scope list_scope.

Section Text.
Context {C : Type} (body body' : C -> prog (rv slice)) (wr : C -> piece -> bool) (s0 : St) (programs : list (list C)).
Variable ok : C -> Prop.
Hypothesis ok_under : forall c, ok c -> under (body' c) (body c).
Hypothesis ok_programs : Forall (Forall ok) programs.

(** A goroutine of the text and one of the model. *)
Definition gsim (g g' : goroutine C) : Prop :=
  todo g = todo g' /\ Forall ok (todo g) /\
  match cur g, cur g' with
  | None, None => True
  | Some (o, p), Some (o', q) => o = o' /\ under p q
  | _, _ => False
  end.
Definition wsim (c w : wconfig C) : Prop := views c = views w /\ owners c = owners w /\ Forall2 gsim (wgs c) (wgs w).

Lemma Forall2_nth {A B} (R : A -> B -> Prop) l l' t x : Forall2 R l l' -> nth_error l t = Some x -> exists y, nth_error l' t = Some y /\ R x y.
Proof. intro H. revert t. induction H; intros [|t] E; try discriminate; cbn in *; [injection E as ->; eauto|eauto]. Qed.
Lemma Forall2_set {A B} (R : A -> B -> Prop) l l' t x y : Forall2 R l l' -> R x y -> Forall2 R (set_nth l t x) (set_nth l' t y).
Proof.
  intros H X. unfold set_nth. apply Forall2_app; [|constructor; [exact X|]].
  - revert t. induction H; intros [|t]; cbn; constructor; auto.
  - generalize (S t). clear t. induction H as [|a b l l' Hab H IH]; intros [|t]; cbn [skipn]; auto.
Qed.
Lemma set_self {A} (l : list A) t x : nth_error l t = Some x -> set_nth l t x = l.
Proof.
  unfold set_nth. revert t. induction l as [|y r IH]; intros [|t] E; try discriminate; cbn in *; [now injection E as ->|].
  f_equal. now apply IH.
Qed.
Lemma wsim_start : wsim (wstart s0 programs) (wstart s0 programs).
Proof.
  split; [reflexivity|]. split; [reflexivity|]. cbn. induction ok_programs; cbn; constructor; auto.
  repeat split; auto.
Qed.

Lemma wsim_step t c e c' w : wsim c w -> (forall V, In V (views w) -> short (b_buf (bb V))) -> own_wstep body' t c e c' ->
  exists w', own_wstep body t w e w' /\ wsim c' w'.
Proof.
  intros (E1 & E2 & F) SH ST. destruct ST as [o os V Eg Ev|o os p p' V V' Eg Ev NA St|o os l k V Eg Ev|o os v V Eg Ev|o os e V Eg Ev];
    destruct (Forall2_nth _ _ _ _ _ F Eg) as ([os' cu'] & Eg' & (G1 & G2 & G3)); cbn in G1, G2, G3; subst os'; rewrite E1 in Ev.
  - destruct cu' as [[]|]; [contradiction|]. inversion G2; subst. eexists. split; [eapply w_call; eauto|].
    split; [|split]; cbn; [now rewrite E1|exact E2|]. apply Forall2_set; auto. repeat split; auto.
  - destruct cu' as [[o' q]|]; [|contradiction]. destruct G3 as [<- U].
    destruct (under_step p q V p' V' U (SH V (nth_error_In _ _ Ev)) St) as (q' & St' & U' & _).
    eexists. split; [apply (w_access body t w o os q q' V V'); auto; inversion U; subst; try contradiction; try discriminate St; exact I|].
    split; [|split]; cbn; [now rewrite E1|exact E2|]. apply Forall2_set; auto. repeat split; auto.
  - destruct cu' as [[o' q]|]; [|contradiction]. destruct G3 as [<- U]. inversion U; subst.
    eexists. split; [eapply w_alloc; eauto|].
    split; [|split]; cbn; [now rewrite E1|now rewrite E2|]. apply Forall2_set; auto. repeat split; auto.
  - destruct cu' as [[o' q]|]; [|contradiction]. destruct G3 as [<- U]. inversion U; subst.
    eexists. split; [eapply w_return; eauto|].
    split; [|split]; cbn; [now rewrite E1|exact E2|]. apply Forall2_set; auto. repeat split; auto.
  - destruct cu' as [[o' q]|]; [|contradiction]. destruct G3 as [<- U]. inversion U; subst.
    eexists. split; [eapply w_panic; eauto|].
    split; [|split]; cbn; [now rewrite E1|exact E2|]. apply Forall2_set; auto. repeat split; auto.
Qed.
Lemma sim_liberty c w u l : wsim c w -> at_liberty wr s0 programs c u l <-> at_liberty wr s0 programs w u l.
Proof. intros (_ & E & _). unfold at_liberty. rewrite E. tauto. Qed.
Lemma wsim_news t c c' w : wsim c w -> news wr s0 programs t c c' -> exists w', news wr s0 programs t w w' /\ wsim c' w'.
Proof.
  intros S N. pose proof S as (E1 & E2 & F). destruct N as [V V' g Ev Eg SS L]. destruct (Forall2_nth _ _ _ _ _ F Eg) as (g' & Eg' & G).
  exists (set_view w t V' g'). split.
  - rewrite E1 in Ev. apply (w_news wr s0 programs t w V V' g'); auto. intro l. destruct (L l) as [X|(u & X & Y)]; [auto|].
    right. exists u. split; auto. apply (sim_liberty c w); auto.
  - split; [|split]; cbn; [now rewrite E1|exact E2|]. apply Forall2_set; auto.
Qed.
(** The views of the model keep their headers (AloneGen.v). *)
Hypothesis views_short : forall h w V, wexec body wr s0 programs (wstart s0 programs) h w -> In V (views w) -> short (b_buf (bb V)).
Theorem wsim_exec h c : wexec body' wr s0 programs (wstart s0 programs) h c ->
  exists w, wexec body wr s0 programs (wstart s0 programs) h w /\ wsim c w.
Proof.
  intro E. induction E as [|h c1 t e c2 E (w & X & S) ST|h c1 t c2 E (w & X & S) N].
  - exists (wstart s0 programs). split; [constructor|apply wsim_start].
  - destruct (wsim_step t c1 e c2 w S (fun V => views_short h w V X) ST) as (w' & Y & S'). exists w'. split; auto. econstructor; eauto.
  - destruct (wsim_news t c1 c2 w S N) as (w' & Y & S'). exists w'. split; auto. eapply wx_news; eauto.
Qed.
Lemma sim_finished c w : wsim c w -> wfinished c -> wfinished w.
Proof.
  intros (_ & _ & F) H. unfold wfinished in *. induction F as [|g g' l l' G F IH]; constructor; inversion H; subst; auto.
  destruct g' as [td cu], G as (A & _ & B). cbn in A, B. subst td. destruct cu as [[]|]; [contradiction|reflexivity].
Qed.
Lemma sim_resting c w : wsim c w -> wresting c -> wresting w.
Proof.
  intros (_ & _ & F) H. unfold wresting in *. induction F as [|g g' l l' G F IH]; constructor; inversion H as [|? ? Z]; subst; auto.
  destruct G as (_ & _ & B). rewrite Z in B. destruct (cur g') as [[]|]; [contradiction|reflexivity].
Qed.
Lemma sim_joined c w m : wsim c w -> joined wr s0 programs c m <-> joined wr s0 programs w m.
Proof.
  intros S. pose proof S as (E1 & E2 & _). unfold joined. rewrite E1, E2.
  assert (L : forall u l, at_liberty wr s0 programs c u l <-> at_liberty wr s0 programs w u l) by (intros; now apply sim_liberty).
  split; intros (A & B & D & F & G); (split; [|split; [|split; [|split]]]); auto.
  - intros u V l Ev X. apply (F u); auto. now apply L.
  - intros l N. apply G. intros u X. apply (N u). now apply L.
  - intros u V l Ev X. apply (F u); auto. now apply L.
  - intros l N. apply G. intros u X. apply (N u). now apply L.
Qed.
Lemma sim_access c w t os o p V a : wsim c w -> nth_error (wgs c) t = Some (mkG os (Some (o, p))) -> nth_error (views c) t = Some V ->
  access_of p V = Some a ->
  exists q, nth_error (wgs w) t = Some (mkG os (Some (o, q))) /\ nth_error (views w) t = Some V /\ access_of q V = Some a /\ under p q.
Proof.
  intros (E1 & _ & F) Eg Ev Ea. destruct (Forall2_nth _ _ _ _ _ F Eg) as ([os' cu'] & Eg' & (G1 & G2 & G3)). cbn in G1, G3. subst os'.
  destruct cu' as [[o' q]|]; [|contradiction]. destruct G3 as [<- U]. exists q. rewrite <- E1. repeat split; auto. eapply under_access; eauto.
Qed.
End Text.

(** ** Every execution of the model, at large bounds *)
Section Limit.
Context {C : Type} (body : C -> prog (rv slice)) (text : nat -> C -> prog (rv slice)) (wr : C -> piece -> bool) (s0 : St) (programs : list (list C)).
Variable ok : C -> Prop.
Hypothesis ok_conv : forall c, ok c -> conv eq (body c) (fun n => text n c).
Hypothesis ok_enough : forall c, ok c -> enough any (body c).
Hypothesis ok_programs : Forall (Forall ok) programs.
Hypothesis views_short : forall h w V, wexec body wr s0 programs (wstart s0 programs) h w -> In V (views w) -> short (b_buf (bb V)).

(** A goroutine of the text, for each bound. *)
Definition family : Type := list C * option (C * (nat -> prog (rv slice))).
Definition at_bound (n : nat) (G : family) : goroutine C :=
  mkG (fst G) (match snd G with Some (o, P) => Some (o, P n) | None => None end).
Definition glim (g : goroutine C) (G : family) : Prop :=
  todo g = fst G /\ Forall ok (todo g) /\
  match cur g, snd G with
  | None, None => True
  | Some (o, p), Some (o', P) => o = o' /\ conv eq p P /\ enough any p
  | _, _ => False
  end.
Definition wlim (h : list (Conc.event C)) (w : wconfig C) : Prop :=
  exists Gs N, Forall2 glim (wgs w) Gs /\
    forall n, (N <= n)%nat -> wexec (text n) wr s0 programs (wstart s0 programs) h (mkW (views w) (map (at_bound n) Gs) (owners w)).

Lemma map_set {A B} (f : A -> B) l t x : map f (set_nth l t x) = set_nth (map f l) t (f x).
Proof. unfold set_nth. rewrite map_app. cbn [map]. now rewrite firstn_map, skipn_map. Qed.
Lemma nth_bound n (Gs : list family) t G : nth_error Gs t = Some G -> nth_error (map (at_bound n) Gs) t = Some (at_bound n G).
Proof. intro E. now apply map_nth_error. Qed.

Lemma conv_no_alloc {A} (p : prog A) P : conv eq p P -> enough any p -> match p with Alloc _ _ => False | _ => True end ->
  exists N, forall n, (N <= n)%nat -> match P n with Alloc _ _ => False | _ => True end.
Proof.
  intros CV EN NA. destruct p; cbn [conv enough] in CV, EN; try contradiction.
  1: destruct CV as (N & b & _ & H). 2: destruct CV as (N & H).
  3-13: destruct CV as (N & K & H & _). all: exists N; intros m Hm; rewrite H by exact Hm; exact I.
Qed.
Theorem wlim_exec h w : wexec body wr s0 programs (wstart s0 programs) h w -> wlim h w.
Proof.
  intro E. induction E as [|h w1 t e w2 E IH ST|h w1 t w2 E (Gs & N & F & H) NW].
  - exists (map (fun p => (p, None)) programs), 0%nat. split.
    + clear -ok_programs. cbn. induction ok_programs; cbn; constructor; auto. repeat split; auto.
    + intros n _. rewrite map_map. cbn. constructor.
  - destruct IH as (Gs & N & F & H). destruct ST as [o os V Eg Ev|o os p p' V V' Eg Ev NA St|o os l k V Eg Ev|o os v V Eg Ev|o os e V Eg Ev];
      destruct (Forall2_nth _ _ _ _ _ F Eg) as ([os' cu'] & Eg' & (G1 & G2 & G3)); cbn in G1, G2, G3; subst os'.
    + destruct cu' as [[]|]; [contradiction|]. inversion G2; subst.
      exists (set_nth Gs t (os, Some (o, fun n => text n o))), N. split.
      * cbn. apply Forall2_set; auto. repeat split; cbn; auto.
      * intros n Hn. eapply wx_step; [apply H; exact Hn|]. cbn. rewrite map_set.
        apply (w_call (text n) t (mkW (views w1) (map (at_bound n) Gs) (owners w1)) o os V); cbn; auto.
        now rewrite (nth_bound n _ _ _ Eg').
    + destruct cu' as [[o' P]|]; [|contradiction]. destruct G3 as (<- & CV & EN).
      assert (SH : short (b_buf (bb V))) by (eapply views_short; eauto using nth_error_In).
      destruct (conv_step p P V CV EN SH) as [(v & -> & _)|[(x & -> & _)|[((X & _) & _)|(p1 & s1 & P' & X & (N' & Y) & CV' & EN' & _)]]]; try (cbn in St; discriminate); [congruence|].
      rewrite St in X. injection X as <- <-. destruct (conv_no_alloc p P CV EN NA) as [N2 Z].
      exists (set_nth Gs t (os, Some (o, P'))), (N + N' + N2)%nat. split.
      * cbn. apply Forall2_set; auto. repeat split; cbn; auto.
      * intros n Hn. eapply wx_step; [apply H; lia|]. cbn. rewrite map_set.
        apply (w_access (text n) t (mkW (views w1) (map (at_bound n) Gs) (owners w1)) o os (P n) (P' n) V V'); cbn; auto.
        -- now rewrite (nth_bound n _ _ _ Eg').
        -- apply Z. lia.
        -- apply Y. lia.
    + destruct cu' as [[o' P]|]; [|contradiction]. destruct G3 as (<- & CV & EN). cbn [conv enough] in CV, EN.
      destruct CV as (N' & K & CV & CV').
      exists (set_nth Gs t (os, Some (o, fun n => K n (List.length (heap V))))), (N + N')%nat. split.
      * cbn. apply Forall2_set; auto. repeat split; cbn; auto.
      * intros n Hn. eapply wx_step; [apply H; lia|]. cbn. rewrite map_set.
        apply (w_alloc (text n) t (mkW (views w1) (map (at_bound n) Gs) (owners w1)) o os l (K n) V); cbn; auto.
        rewrite (nth_bound n _ _ _ Eg'). unfold at_bound. cbn. now rewrite CV by lia.
    + destruct cu' as [[o' P]|]; [|contradiction]. destruct G3 as (<- & CV & EN). cbn [conv enough] in CV, EN.
      destruct CV as (N' & b & <- & CV).
      exists (set_nth Gs t (os, None)), (N + N')%nat. split.
      * cbn. apply Forall2_set; auto. repeat split; cbn; auto.
      * intros n Hn. eapply wx_step; [apply H; lia|]. cbn. rewrite map_set.
        apply (w_return (text n) t (mkW (views w1) (map (at_bound n) Gs) (owners w1)) o os v V); cbn; auto.
        rewrite (nth_bound n _ _ _ Eg'). unfold at_bound. cbn. now rewrite CV by lia.
    + destruct cu' as [[o' P]|]; [|contradiction]. destruct G3 as (<- & CV & EN). cbn [conv enough] in CV, EN.
      destruct CV as (N' & CV).
      exists (set_nth Gs t (os, None)), (N + N')%nat. split.
      * cbn. apply Forall2_set; auto. repeat split; cbn; auto.
      * intros n Hn. eapply wx_step; [apply H; lia|]. cbn. rewrite map_set.
        apply (w_panic (text n) t (mkW (views w1) (map (at_bound n) Gs) (owners w1)) o os e V); cbn; auto.
        rewrite (nth_bound n _ _ _ Eg'). unfold at_bound. cbn. now rewrite CV by lia.
  - destruct NW as [V V' g Ev Eg SS L]. exists Gs, N. split.
    + cbn. now rewrite set_self.
    + intros n Hn. destruct (Forall2_nth _ _ _ _ _ F Eg) as (G & Eg' & _).
      eapply wx_news; [apply H; exact Hn|]. cbn.
      assert (X : map (at_bound n) Gs = set_nth (map (at_bound n) Gs) t (at_bound n G)).
      { rewrite <- map_set. now rewrite set_self. }
      rewrite X at 2. apply (w_news wr s0 programs t (mkW (views w1) (map (at_bound n) Gs) (owners w1)) V V'); cbn; auto.
      now apply nth_bound.
Qed.
End Limit.
