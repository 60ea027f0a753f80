(** * RaceLog: the accesses of a call that runs alone, and executions in which
    goroutines take turns. *)
From Coq Require Import ZArith List Bool Lia Arith ZifyBool.
From Verif Require Import GoSem Errors Spec GoLemmas Calls Conc ConcLemmas Race RaceLemmas Race3.
Import ListNotations.
Open Scope Z_scope.
Open Scope list_scope.

(** ** The accesses of a run *)

Fixpoint log {A} (p : prog A) (s : St) : list access :=
  match p with
  | Ret _ | Panic _ | OutOfFuel => []
  | GetBuf k => Rd LHeader :: log (k (b_buf (bb s))) s
  | SetBuf sl k => Wr LHeader :: log k (set_bb s (upd_buf (bb s) sl))
  | GetF f k => Rd (LField f) :: log (k (get_fld (bb s) f)) s
  | SetF f v k => Wr (LField f) :: log k (set_bb s (upd_fld (bb s) f v))
  | Load b i k => match heap_read (heap s) b i 1 with Some [v] => Rd (LByte b i) :: log (k v) s | _ => [] end
  | Store b i v k => match heap_write (heap s) b i [v] with Some h => Wr (LByte b i) :: log k (set_heap s h) | None => [] end
  | Move db di sb si n k =>
      match heap_read (heap s) sb si n with
      | Some d => match heap_write (heap s) db di d with Some h => Mv db di sb si n :: log k (set_heap s h) | None => [] end
      | None => []
      end
  | Alloc l k => New (List.length (heap s)) :: log (k (List.length (heap s))) (set_heap s (heap s ++ [l]))
  | GetOuts k => Rd LOut :: log (k (outs s)) s
  | SetOuts l k => Wr LOut :: log k (set_outs s l)
  | Lock k => if mu s then [] else Acquire :: log k (set_mu s true)
  | Unlock k => if mu s then Release :: log k (set_mu s false) else []
  end.

Lemma log_bind {A B} (p : prog A) (f : A -> prog B) : forall s,
  log (bind p f) s = log p s ++ match run p s with Done a s' => log (f a) s' | _ => [] end.
Proof.
  induction p; intro s0; cbn [bind log run app]; try (now rewrite H); try (now rewrite IHp); auto.
  - destruct (heap_read _ _ _ _) as [[|x [|? ?]]|]; auto. now rewrite H.
  - destruct (heap_write _ _ _ _); auto. now rewrite IHp.
  - destruct (heap_read _ _ _ _); auto. destruct (heap_write _ _ _ _); auto. now rewrite IHp.
  - destruct (mu s0); auto. now rewrite IHp.
  - destruct (mu s0); auto. now rewrite IHp.
Qed.

(** ** Taking turns *)

Section Turns.
Context {call : Type} (body : call -> prog (rv slice)).

Definition ends (r : res (rv slice)) (s' : St) (p' : prog (rv slice)) : Prop :=
  match r with
  | Done v s1 => s1 = s' /\ p' = Ret v
  | Panicked e s1 => s1 = s' /\ p' = Panic e
  | _ => False
  end.

Lemma set_same {A} (l : list A) t x y : (t < length l)%nat -> set_nth (set_nth l t x) t y = set_nth l t y.
Proof.
  intro H. apply nth_error_same. intro i. rewrite !nth_error_set_nth by (rewrite ?length_set_nth; auto).
  destruct (i =? t)%nat eqn:E; auto.
Qed.

(** Goroutine [t] runs the call it is in to its end. *)
Lemma run_turn c0 t o os : forall p c tr s' p',
  nth_error (gs c) t = Some (mkG os (Some (o, p))) -> ends (run p (sh c)) s' p' -> traced body c0 tr c ->
  traced body c0 (tr ++ map (fun a => (t, a)) (log p (sh c))) (set_g c t s' (mkG os (Some (o, p')))).
Proof.
  assert (STEP : forall p p1 s1 a c tr s' p' l,
    (forall c tr s' p', nth_error (gs c) t = Some (mkG os (Some (o, p1))) -> ends (run p1 (sh c)) s' p' -> traced body c0 tr c ->
       traced body c0 (tr ++ map (fun a => (t, a)) (log p1 (sh c))) (set_g c t s' (mkG os (Some (o, p'))))) ->
    nth_error (gs c) t = Some (mkG os (Some (o, p))) -> step1 p (sh c) = Some (p1, s1) -> access_of p (sh c) = Some a ->
    ends (run p1 s1) s' p' -> traced body c0 tr c -> l = log p1 s1 ->
    traced body c0 (tr ++ map (fun a => (t, a)) (a :: l)) (set_g c t s' (mkG os (Some (o, p'))))).
  { intros p p1 s1 a c tr s' p' l IH N S AC E T ->.
    assert (L : (t < length (gs c))%nat) by (apply nth_error_Some; congruence).
    assert (T1 : traced body c0 (tr ++ [(t, a)]) (set_g c t s1 (mkG os (Some (o, p1))))).
    { replace [(t, a)] with (next_access c t) by (unfold next_access; now rewrite N, AC).
      eapply tr_step; [exact T|]. exact (g_step body t c o os p p1 s1 N S). }
    specialize (IH (set_g c t s1 (mkG os (Some (o, p1)))) (tr ++ [(t, a)]) s' p'). cbn [set_g gs sh] in IH.
    rewrite nth_error_set_nth, Nat.eqb_refl in IH by auto. specialize (IH eq_refl E T1).
    unfold set_g in *. cbn [gs sh] in IH. rewrite set_same in IH by auto. rewrite <- app_assoc in IH. exact IH. }
  assert (BASE : forall p c tr s', nth_error (gs c) t = Some (mkG os (Some (o, p))) -> traced body c0 tr c -> sh c = s' ->
    traced body c0 (tr ++ map (fun a => (t, a)) []) (set_g c t s' (mkG os (Some (o, p))))).
  { intros p c tr s' N T <-. cbn [map]. rewrite app_nil_r.
    assert (L : (t < length (gs c))%nat) by (apply nth_error_Some; congruence).
    replace (set_g c t (sh c) (mkG os (Some (o, p)))) with c; auto. unfold set_g. destruct c as [s1 g]. cbn [gs sh] in *. f_equal.
    apply nth_error_same. intro i. rewrite nth_error_set_nth by auto. destruct (Nat.eqb_spec i t); subst; auto. }
  induction p; intros c tr s' p' N E T; cbn [run ends log] in *.
  - destruct E as [E ->]. apply BASE; auto.
  - destruct E as [E ->]. apply BASE; auto.
  - contradiction.
  - eapply STEP; eauto; reflexivity.
  - eapply STEP; eauto; reflexivity.
  - eapply STEP; eauto; reflexivity.
  - eapply STEP; eauto; reflexivity.
  - destruct (heap_read (heap (sh c)) blk i 1) as [[|v [|? ?]]|] eqn:R; try contradiction.
    eapply STEP; eauto; cbn; rewrite ?R; reflexivity.
  - destruct (heap_write (heap (sh c)) blk i [v]) as [h|] eqn:R; try contradiction.
    eapply STEP; eauto; cbn; rewrite ?R; reflexivity.
  - destruct (heap_read (heap (sh c)) sb si n) as [d|] eqn:R; try contradiction.
    destruct (heap_write (heap (sh c)) db di d) as [h|] eqn:R2; try contradiction.
    eapply STEP; eauto; cbn; rewrite ?R, ?R2; reflexivity.
  - eapply STEP; eauto; reflexivity.
  - eapply STEP; eauto; reflexivity.
  - eapply STEP; eauto; reflexivity.
  - destruct (mu (sh c)) eqn:R; try contradiction. eapply STEP; eauto; cbn; rewrite ?R; reflexivity.
  - destruct (mu (sh c)) eqn:R; try contradiction. eapply STEP; eauto; cbn; rewrite ?R; reflexivity.
Qed.

(** The calls of one goroutine, one after the other, with their accesses. *)
Inductive turn : St -> list call -> list access -> St -> Prop :=
| turn_nil s : turn s [] [] s
| turn_cons s c cs s1 p1 l s2 : ends (run (body c) s) s1 p1 -> turn s1 cs l s2 -> turn s (c :: cs) (log (body c) s ++ l) s2.

Lemma turn_traced c0 t rest : forall s cs l s', turn s cs l s' -> forall c tr,
  sh c = s -> nth_error (gs c) t = Some (mkG (cs ++ rest) None) -> traced body c0 tr c ->
  traced body c0 (tr ++ map (fun a => (t, a)) l) (set_g c t s' (mkG rest None)).
Proof.
  intros s cs l s' H. induction H as [s|s o cs s1 p1 l s2 E H IH]; intros c tr <- N T.
  - cbn [map]. rewrite app_nil_r. cbn [app] in N. assert (L : (t < length (gs c))%nat) by (apply nth_error_Some; congruence).
    replace (set_g c t (sh c) (mkG rest None)) with c; auto. unfold set_g. destruct c as [s1 g]. cbn [gs sh] in *. f_equal.
    apply nth_error_same. intro i. rewrite nth_error_set_nth by auto. destruct (Nat.eqb_spec i t); subst; auto.
  - cbn [app] in N. assert (L : (t < length (gs c))%nat) by (apply nth_error_Some; congruence).
    assert (T1 : traced body c0 tr (set_g c t (sh c) (mkG (cs ++ rest) (Some (o, body o))))).
    { replace tr with (tr ++ next_access c t) by (unfold next_access; rewrite N; apply app_nil_r).
      eapply tr_step; [exact T|]. exact (g_call body t c o (cs ++ rest) N). }
    set (c1 := set_g c t (sh c) (mkG (cs ++ rest) (Some (o, body o)))) in *.
    assert (N1 : nth_error (gs c1) t = Some (mkG (cs ++ rest) (Some (o, body o)))).
    { unfold c1, set_g. cbn [gs]. now rewrite nth_error_set_nth, Nat.eqb_refl. }
    pose proof (run_turn c0 t o (cs ++ rest) (body o) c1 tr s1 p1 N1 E T1) as T2.
    replace (set_g c1 t s1 (mkG (cs ++ rest) (Some (o, p1)))) with (set_g c t s1 (mkG (cs ++ rest) (Some (o, p1)))) in T2
      by (unfold c1, set_g; cbn [gs sh]; now rewrite set_same).
    set (c2 := set_g c t s1 (mkG (cs ++ rest) (Some (o, p1)))) in *.
    assert (N2 : nth_error (gs c2) t = Some (mkG (cs ++ rest) (Some (o, p1)))).
    { unfold c2, set_g. cbn [gs]. now rewrite nth_error_set_nth, Nat.eqb_refl. }
    assert (T3 : traced body c0 (tr ++ map (fun a => (t, a)) (log (body o) (sh c1))) (set_g c t s1 (mkG (cs ++ rest) None))).
    { replace (tr ++ map (fun a => (t, a)) (log (body o) (sh c1))) with ((tr ++ map (fun a => (t, a)) (log (body o) (sh c1))) ++ next_access c2 t).
      - replace (set_g c t s1 (mkG (cs ++ rest) None)) with (set_g c2 t (sh c2) (mkG (cs ++ rest) None)) by (unfold c2, set_g; cbn [gs sh]; now rewrite set_same).
        assert (ST : exists h, gstep body t c2 h (set_g c2 t (sh c2) (mkG (cs ++ rest) None))).
        { destruct (run (body o) (sh c)) as [v s3|e s3|s3|]; cbn [ends] in E; try contradiction; destruct E as [_ ->]; eexists;
          [exact (g_return body t c2 o (cs ++ rest) v N2)|exact (g_panic body t c2 o (cs ++ rest) e N2)]. }
        destruct ST as [h ST]. eapply tr_step; [exact T2|exact ST].
      - unfold next_access. rewrite N2. destruct (run (body o) (sh c)) as [v s3|e s3|s3|]; cbn [ends] in E; try contradiction; destruct E as [_ ->]; cbn; apply app_nil_r. }
    assert (N3 : nth_error (gs (set_g c t s1 (mkG (cs ++ rest) None))) t = Some (mkG (cs ++ rest) None)).
    { unfold set_g. cbn [gs]. now rewrite nth_error_set_nth, Nat.eqb_refl. }
    specialize (IH (set_g c t s1 (mkG (cs ++ rest) None)) _ eq_refl N3 T3).
    rewrite map_app, app_assoc. unfold c1 in IH. unfold set_g in *. cbn [gs sh] in IH. rewrite set_same in IH by auto. exact IH.
Qed.

(** Two goroutines take turns; an access of the first conflicts with one of the second. *)
Lemma turns_race s programs t u cs rest ds rest' l s1 l' s2 a b :
  t <> u -> nth_error programs t = Some (cs ++ rest) -> nth_error programs u = Some (ds ++ rest') ->
  turn s cs l s1 -> turn s1 ds l' s2 -> forallb no_sync l = true -> forallb no_sync l' = true ->
  In a l -> In b l' -> conflict a b ->
  exists tr c, traced body (start s programs) tr c /\ ~ race_free tr.
Proof.
  intros D P1 P2 T1 T2 NA NB IA IB C.
  assert (G1 : nth_error (gs (start s programs)) t = Some (mkG (cs ++ rest) None)) by (unfold start; cbn [gs]; rewrite nth_error_map, P1; reflexivity).
  pose proof (turn_traced _ t rest _ _ _ _ T1 (start s programs) [] eq_refl G1 (tr_start _ _)) as X1. cbn [app] in X1.
  assert (L : (t < length (gs (start s programs)))%nat) by (apply nth_error_Some; congruence).
  assert (G2 : nth_error (gs (set_g (start s programs) t s1 (mkG rest None))) u = Some (mkG (ds ++ rest') None)).
  { unfold set_g. cbn [gs]. rewrite nth_error_set_nth by auto. destruct (Nat.eqb_spec u t); [congruence|]. unfold start. cbn [gs]. rewrite nth_error_map, P2. reflexivity. }
  pose proof (turn_traced _ u rest' _ _ _ _ T2 (set_g (start s programs) t s1 (mkG rest None)) _ eq_refl G2 X1) as X2.
  eexists _, _. split; [exact X2|]. intro F.
  apply In_nth_error in IA as [i IA]. apply In_nth_error in IB as [j IB].
  set (tr := map _ l ++ map _ l') in *.
  assert (Li : (i < length l)%nat) by (apply nth_error_Some; congruence).
  assert (H1 : nth_error tr i = Some (t, a)).
  { unfold tr. rewrite nth_error_app1 by (rewrite map_length; exact Li). now rewrite nth_error_map, IA. }
  assert (H2 : nth_error tr (length l + j) = Some (u, b)).
  { unfold tr. rewrite nth_error_app2 by (rewrite map_length; lia).
    replace (length l + j - length (map (fun a => (t, a)) l))%nat with j by (rewrite map_length; lia). now rewrite nth_error_map, IB. }
  apply (F i (length l + j)%nat). exists t, a, u, b. repeat split; auto; [lia|]. intro B.
  apply before_same in B.
  - destruct B as (v & x & y & X & Y). rewrite H1 in X. rewrite H2 in Y. congruence.
  - unfold tr. rewrite Forall_app. rewrite forallb_forall in NA, NB.
    split; apply Forall_forall; intros x X; apply in_map_iff in X as (y & <- & Y); cbn; auto.
Qed.
End Turns.

(** ** Programs without a mutex *)

Fixpoint lockless {A} (p : prog A) : Prop :=
  match p with
  | Ret _ | Panic _ | OutOfFuel => True
  | GetBuf k => forall s, lockless (k s)
  | SetBuf _ k | SetF _ _ k | Store _ _ _ k | Move _ _ _ _ _ k | SetOuts _ k => lockless k
  | GetF _ k | Load _ _ k => forall v, lockless (k v)
  | Alloc _ k => forall b, lockless (k b)
  | GetOuts k => forall l, lockless (k l)
  | Lock _ | Unlock _ => False
  end.
Lemma lockless_log {A} (p : prog A) : lockless p -> forall s, forallb no_sync (log p s) = true.
Proof.
  induction p; cbn [lockless log]; intros L s0; cbn [forallb no_sync andb]; auto; try contradiction.
  - destruct (heap_read _ _ _ _) as [[|x [|? ?]]|]; cbn; auto.
  - destruct (heap_write _ _ _ _); cbn; auto.
  - destruct (heap_read _ _ _ _); auto. destruct (heap_write _ _ _ _); cbn; auto.
Qed.
Lemma lockless_bind {A B} (p : prog A) (f : A -> prog B) : lockless p -> (forall a, lockless (f a)) -> lockless (bind p f).
Proof. intros H F. induction p; cbn in *; auto; contradiction. Qed.

(** ** What a run that returns has accessed *)

Definition post {A} (p : prog A) (s : St) (Q : A -> St -> list access -> Prop) : Prop :=
  forall a s', run p s = Done a s' -> Q a s' (log p s).

Lemma post_bind {A B} (p : prog A) (f : A -> prog B) s (Q : B -> St -> list access -> Prop) :
  post p s (fun a s1 l1 => post (f a) s1 (fun b s2 l2 => Q b s2 (l1 ++ l2))) -> post (bind p f) s Q.
Proof.
  intros H b s' E. rewrite run_bind in E. rewrite log_bind. destruct (run p s) as [a s1| | |] eqn:R; try discriminate.
  exact (H a s1 R b s' E).
Qed.
Lemma post_weaken {A} (p : prog A) s (Q Q' : A -> St -> list access -> Prop) :
  post p s Q -> (forall a s' l, Q a s' l -> Q' a s' l) -> post p s Q'.
Proof. intros H F a s' E. auto. Qed.
Lemma post_ret {A} (a : A) s (Q : A -> St -> list access -> Prop) : Q a s [] -> post (Ret a) s Q.
Proof. intros H b s' E. injection E as <- <-. exact H. Qed.
Lemma post_get f s (Q : Z -> St -> list access -> Prop) : Q (get_fld (bb s) f) s [Rd (LField f)] -> post (get f) s Q.
Proof. intros H a s' E. injection E as <- <-. exact H. Qed.
Lemma post_get_buf s (Q : slice -> St -> list access -> Prop) : Q (b_buf (bb s)) s [Rd LHeader] -> post get_buf s Q.
Proof. intros H a s' E. injection E as <- <-. exact H. Qed.
Lemma post_panic_if (b : bool) e s (Q : unit -> St -> list access -> Prop) : (b = false -> Q tt s []) -> post (panic_if b e) s Q.
Proof. intros H a s' E. destruct b; [discriminate|]. injection E as <- <-. now apply H. Qed.

(** A loop that returns has made all its rounds. *)
Lemma post_goto {S} n (b : Z -> S -> prog S) a s (I : St -> Prop) (H : Z -> list access -> Prop) : n < 2 ^ 63 ->
  (forall i l l', (forall x, In x l -> In x l') -> H i l -> H i l') ->
  (forall i a s, I s -> 0 <= i < Z.max 1 n -> post (b i a) s (fun _ s' l => I s' /\ H i l)) -> I s ->
  post (goto_loop n b a) s (fun _ s' l => I s' /\ forall i, 0 <= i < Z.max 1 n -> H i l).
Proof.
  intros N M B I0. unfold goto_loop.
  assert (G : forall f j a s, I s -> 0 <= j < Z.max 1 n ->
    post (dw f n b j a) s (fun _ s' l => I s' /\ forall i, j <= i < Z.max 1 n -> H i l)).
  { clear I0 s a. induction f as [|f IH]; intros j a s I0 J; cbn [dw]; [intros ? ? E; discriminate E|].
    apply post_bind. eapply post_weaken; [apply (B j a s I0 J)|]. cbv beta zeta. intros a1 s1 l1 [I1 H1].
    rewrite add64_id by (unfold is_i64; lia). destruct (Z.ltb_spec (j + 1) n).
    - eapply post_weaken; [apply IH; [exact I1|lia]|]. cbv beta. intros a2 s2 l2 [I2 H2]. split; auto. intros i Hi.
      destruct (Z.eq_dec i j) as [->|].
      + eapply M; [|exact H1]. intros x X. apply in_or_app. now left.
      + eapply M; [|apply H2; lia]. intros x X. apply in_or_app. now right.
    - apply post_ret. split; auto. intros i Hi. replace i with j by lia. rewrite app_nil_r. exact H1. }
  intros x s' E. destruct (G _ 0 a s I0 ltac:(lia) x s' E) as [G1 G2]. split; auto.
Qed.
