(** * AloneGen: goroutines that keep to different parts of a buffer behave as if alone,
    for any kind of buffer without a mutex.

    As the last part of Alone.v, with the kind of call left open.  AloneMini.v uses it
    for the [MiniBuffer]s. *)
From Coq Require Import ZArith List Bool Lia Arith ZifyBool.
From Verif Require Import ConcLemmas GoSem Errors Spec GoLemmas Typed V3ByteLemmas Calls Abs Frame Sim History Conc ConcSched ConcInv Race RaceSpec3 RaceLemmas RaceOld Race3 AloneSpec AloneMiniSpec Alone WeakSpec.
Import ListNotations.
Open Scope Z_scope.
Open Scope list_scope.

(** ** Runs in which others may allocate *)

(** [p] comes to an end with [Q] or [E], whatever arrays others allocate before its own. *)
Fixpoint wq {A} (p : prog A) (s : St) (Q : A -> St -> Prop) (E : err -> St -> Prop) : Prop :=
  match p with
  | Ret a => Q a s
  | Panic e => E e s
  | OutOfFuel | GetOuts _ | SetOuts _ _ | Lock _ | Unlock _ => False
  | GetBuf k => wq (k (b_buf (bb s))) s Q E
  | SetBuf b k => wq k (set_bb s (upd_buf (bb s) b)) Q E
  | GetF f k => wq (k (get_fld (bb s) f)) s Q E
  | SetF f v k => wq k (set_bb s (upd_fld (bb s) f v)) Q E
  | Load b i k => match heap_read (heap s) b i 1 with Some [v] => wq (k v) s Q E | _ => False end
  | Store b i v k => match heap_write (heap s) b i [v] with Some h => wq k (set_heap s h) Q E | None => False end
  | Move db di sb si n k =>
      match heap_read (heap s) sb si n with
      | Some d => match heap_write (heap s) db di d with Some h => wq k (set_heap s h) Q E | None => False end
      | None => False
      end
  | Alloc l k => forall j, wq (k (length (heap (pad s j)))) (set_heap (pad s j) (heap (pad s j) ++ [l])) Q E
  end.
Lemma wq_step {A} (p : prog A) s p' s' Q E : wq p s Q E -> match p with Alloc _ _ => False | _ => True end -> step1 p s = Some (p', s') -> wq p' s' Q E.
Proof.
  intros H N St. destruct p; cbn [step1 wq] in *; try discriminate; try contradiction; try (injection St as <- <-; exact H).
  - destruct (heap_read _ _ _ _) as [[|v [|]]|]; try discriminate. injection St as <- <-. exact H.
  - destruct (heap_write _ _ _ _); try discriminate. injection St as <- <-. exact H.
  - destruct (heap_read _ _ _ _); try discriminate. destruct (heap_write _ _ _ _); try discriminate. injection St as <- <-. exact H.
Qed.
Lemma wq_progress {A} (p : prog A) s Q E : wq p s Q E -> match p with Ret _ | Panic _ => True | _ => exists p' s', step1 p s = Some (p', s') end.
Proof.
  destruct p; cbn [step1 wq]; try contradiction; eauto.
  - destruct (heap_read _ _ _ _) as [[|v [|]]|]; try contradiction. eauto.
  - destruct (heap_write _ _ _ _); try contradiction. eauto.
  - destruct (heap_read _ _ _ _); try contradiction. destruct (heap_write _ _ _ _); try contradiction. eauto.
Qed.
Lemma wq_weaken {A} (p : prog A) : forall s (Q Q' : A -> St -> Prop) (E E' : err -> St -> Prop), (forall a s, Q a s -> Q' a s) -> (forall e s, E e s -> E' e s) -> wq p s Q E -> wq p s Q' E'.
Proof.
  induction p; intros st Q Q' E E' HQ HE; cbn [wq]; eauto.
  - destruct (heap_read _ _ _ _) as [[|v [|]]|]; eauto.
  - destruct (heap_write _ _ _ _); eauto.
  - destruct (heap_read _ _ _ _); eauto. destruct (heap_write _ _ _ _); eauto.
Qed.
Lemma wq_bind {A B} (p : prog A) (f : A -> prog B) : forall s (Q : B -> St -> Prop) (E : err -> St -> Prop), wq p s (fun a s' => wq (f a) s' Q E) E -> wq (bind p f) s Q E.
Proof.
  induction p; intros st Q E'; cbn [wq bind]; eauto.
  - destruct (heap_read _ _ _ _) as [[|v [|]]|]; eauto.
  - destruct (heap_write _ _ _ _); eauto.
  - destruct (heap_read _ _ _ _); eauto. destruct (heap_write _ _ _ _); eauto.
Qed.
(** Without allocations this is the ordinary run. *)
Lemma wq_quiet {A} (p : prog A) : quiet p -> forall s (Q : A -> St -> Prop) (E : err -> St -> Prop),
  match run p s with Done a s' => Q a s' | Panicked e s' => E e s' | _ => False end -> wq p s Q E.
Proof.
  induction p; intros H' st Q E; cbn [quiet run wq] in *; try contradiction; auto.
  - destruct (heap_read _ _ _ _) as [[|v [|]]|]; auto.
  - destruct (heap_write _ _ _ _); auto.
  - destruct (heap_read _ _ _ _); auto. destruct (heap_write _ _ _ _); auto.
Qed.

Section Gen.
Context {C : Type}.
Variables (body : C -> prog (rv slice)) (wr see : C -> piece -> bool).
Variables (one : St -> C -> abuf -> answer * abuf) (ok : St -> C -> Prop).

(** The slice arguments, which are not in the array of the buffer, are as before. *)
Definition same_args (s0 V : St) : Prop :=
  b_buf (bb V) = b_buf (bb s0) /\ (length (heap s0) <= length (heap V))%nat /\
  forall b, (b < length (heap s0))%nat -> b <> s_blk (b_buf (bb s0)) -> nth b (heap V) [] = nth b (heap s0) [].
(** A returned slice shows only bytes that the caller sees. *)
Definition shows (V : St) (c : C) (v : rv slice) : Prop :=
  match v with
  | RBytes sl => s_blk sl = s_blk (b_buf (bb V)) /\ 0 <= s_off sl /\ 0 <= s_len sl /\
      forall j, s_off sl <= j < s_off sl + s_len sl -> see c (Byte (j - s_off (b_buf (bb V)))) = true
  | _ => True
  end.
Definition ends_well (V : St) (c : C) (v : rv slice) (U : St) : Prop :=
  WF U /\ one V c (abs V) = (Returned (view_rv U v), abs U) /\ shows V c v.
Definition ends_badly (V : St) (c : C) (e : err) (U : St) : Prop := WF U /\ one V c (abs V) = (Raised e, abs U).

Hypothesis H_fits : forall s V c, ok s c -> same_args s V -> ok V c /\ forall a, one V c a = one s c a.
Hypothesis H_run : forall V c, WF V -> ok V c -> wq (body c) V (ends_well V c) (ends_badly V c).
Hypothesis H_disc : forall s pm t c, WF s -> ok s c -> pm Slice = Frozen ->
  (forall x, see c x = true -> may_read (pm x) t false) -> (forall x, wr c x = true -> may_write (pm x) t false) ->
  disc (modes3 (b_buf (bb s)) (length (heap s)) pm) (headers3 (b_buf (bb s)) (length (heap s)) pm) t RaceLemmas.none (initial (length (heap s))) false yes (fun _ => True) (body c).
Hypothesis H_slice : forall s c, ok s c -> wr c Slice = false.

Variables (s0 : St) (programs : list (list C)).
Hypothesis W0 : WF s0.
Hypothesis ok0 : Forall (Forall (ok s0)) programs.
Hypothesis indep : unrelated see wr programs.

(** The goroutine that writes [x], if there is one. *)
Definition gowner (x : piece) : option nat :=
  find (fun t => existsb (fun u => wr u x) (nth t programs [])) (seq 0 (length programs)).
Definition gowner_mode (x : piece) : mode := match gowner x with Some t => Exclusive t | None => Frozen end.
Lemma gowner_some x u : gowner x = Some u -> exists cs c, nth_error programs u = Some cs /\ In c cs /\ wr c x = true.
Proof.
  intro H. apply find_some in H as [H1 H2]. apply in_seq in H1. apply existsb_exists in H2 as (c & C1 & C2).
  exists (nth u programs []), c. split; auto. apply nth_error_nth'. lia.
Qed.
Lemma gowner_none x t cs c : gowner x = None -> nth_error programs t = Some cs -> In c cs -> wr c x = false.
Proof.
  intros H E I. destruct (wr c x) eqn:W; auto.
  assert (L : (t < length programs)%nat) by (apply nth_error_Some; congruence).
  pose proof (find_none _ _ H t) as N. rewrite in_seq in N. specialize (N ltac:(lia)). cbv beta in N.
  rewrite (nth_error_nth _ _ _ E) in N. rewrite <- N. symmetry. apply existsb_exists. eauto.
Qed.
Lemma gowner_sees x t cs c : nth_error programs t = Some cs -> In c cs -> see c x = true -> may_read (gowner_mode x) t false.
Proof.
  intros E I R. unfold gowner_mode. destruct (gowner x) as [u|] eqn:O; cbn; auto.
  apply gowner_some in O as (ds & d & E' & I' & X). destruct (Nat.eq_dec t u) as [|N]; auto.
  destruct (indep u t ds cs d c x) as [S1 _]; auto. congruence.
Qed.
Lemma gowner_writes x t cs c : nth_error programs t = Some cs -> In c cs -> wr c x = true -> may_write (gowner_mode x) t false.
Proof.
  intros E I R. unfold gowner_mode. destruct (gowner x) as [u|] eqn:O; cbn.
  - apply gowner_some in O as (ds & d & E' & I' & W). destruct (Nat.eq_dec t u) as [|N]; auto.
    destruct (indep u t ds cs d c x) as [_ S1]; auto. congruence.
  - rewrite (gowner_none x t cs c O E I) in R. discriminate.
Qed.

Let hd0 := b_buf (bb s0).
Let h0 := length (heap s0).
Let pm := gowner_mode.
Let M := modes3 hd0 h0 pm.
Let Hd := headers3 hd0 h0 pm.
Let no_one := length programs.

Lemma g_of_program t cs c : nth_error programs t = Some cs -> In c cs -> ok s0 c.
Proof. intros E I. apply nth_error_In in E. rewrite Forall_forall in ok0. specialize (ok0 cs E). rewrite Forall_forall in ok0. auto. Qed.
Lemma g_slice_frozen : pm Slice = Frozen.
Proof.
  unfold pm, gowner_mode. destruct (gowner Slice) as [u|] eqn:O; auto.
  apply gowner_some in O as (cs & c & E & I & X). pose proof (H_slice s0 c (g_of_program u cs c E I)). congruence.
Qed.
Lemma g_hd_in : (s_blk hd0 < h0)%nat.
Proof. apply wf_blk. exact W0. Qed.
Lemma g_Hd_is s : Hd s <-> s = hd0.
Proof. unfold Hd, headers3. rewrite g_slice_frozen. reflexivity. Qed.
Lemma g_M_header : M LHeader = Frozen.
Proof. exact g_slice_frozen. Qed.
Lemma g_M_own i : M (LByte (s_blk hd0) i) = pm (Byte (i - s_off hd0)).
Proof. unfold M, modes3. rewrite own_inside, g_slice_frozen, Nat.eqb_refl. reflexivity. Qed.
Lemma g_M_outside b i : (b < h0)%nat -> b <> s_blk hd0 -> M (LByte b i) = Frozen.
Proof. intros H1 H2. unfold M, modes3, outside. apply Nat.ltb_lt in H1. apply Nat.eqb_neq in H2. now rewrite H1, H2. Qed.

Notation agree := (agree M hd0 h0).
Notation disc t P K p := (disc M Hd t P K false yes (fun _ => True) p).

Lemma g_call_disc t cs c : nth_error programs t = Some cs -> In c cs -> disc t RaceLemmas.none (initial h0) (body c).
Proof.
  intros E I. apply H_disc; auto.
  - eapply g_of_program; eauto.
  - exact g_slice_frozen.
  - intros x X. eapply gowner_sees; eauto.
  - intros x X. eapply gowner_writes; eauto.
Qed.
Lemma agree_args t P S V : agree t P S V -> agree no_one RaceLemmas.none S s0 -> same_args s0 V.
Proof.
  intros A N. split; [apply (ag_hdU _ _ _ _ _ _ _ A)|]. split; [apply (ag_len _ _ _ _ _ _ _ A)|]. intros b B NB.
  assert (Z : zlen (block V b) = zlen (block s0 b)) by (rewrite <- (ag_size _ _ _ _ _ _ _ A), <- (ag_size _ _ _ _ _ _ _ N); auto).
  apply (nth_ext _ _ 0 0). { unfold zlen, block in Z. lia. }
  intros i Hi. assert (X : byte_at V b (Z.of_nat i) = byte_at s0 b (Z.of_nat i)).
  { rewrite <- (ag_byte _ _ _ _ _ _ _ A), <- (ag_byte _ _ _ _ _ _ _ N); auto; try lia; right; split; auto; rewrite g_M_outside; cbn; auto. }
  unfold byte_at, block in X. now rewrite Nat2Z.id in X.
Qed.

(** The calls that have returned, one after the other. *)
Definition after (rs : list (C * answer)) (V : St) : Prop :=
  WF V /\ one_by_one (one s0) (map fst rs) (abs s0) = (map snd rs, abs V).
Lemma one_by_one_app (f : C -> abuf -> answer * abuf) l m : forall a,
  one_by_one f (l ++ m) a = let (x, b) := one_by_one f l a in let (y, c) := one_by_one f m b in (x ++ y, c).
Proof.
  induction l as [|c l IH]; intro a; cbn [app one_by_one].
  - destruct (one_by_one f m a); reflexivity.
  - destruct (f c a) as [x a1]. rewrite IH. destruct (one_by_one f l a1) as [xs a2]. destruct (one_by_one f m a2); reflexivity.
Qed.
Lemma after_call rs V c r U : after rs V -> WF U -> one s0 c (abs V) = (r, abs U) -> after (rs ++ [(c, r)]) U.
Proof.
  intros [W A] WU E. split; auto. rewrite !map_app, one_by_one_app, A. cbn [map fst snd one_by_one]. rewrite E. reflexivity.
Qed.

Definition gtrack (t : nat) (P : nat -> Prop) (S : St) (g : goroutine C) (rs : list (C * answer)) : Prop :=
  exists cs, nth_error programs t = Some cs /\
  match cur g with
  | None => map fst rs ++ todo g = cs /\ exists V, after rs V /\ agree t P S V
  | Some (c, p) => map fst rs ++ c :: todo g = cs /\
      exists V U K, after rs V /\ same_args s0 V /\ incl K (initial h0) /\ disc t P K p /\ agree t P S U /\
        wq p U (ends_well V c) (ends_badly V c)
  end.

Record ginv (h : list (Conc.event C)) (c : config C) (P : nat -> nat -> Prop) : Prop := mkGinv {
  gi_len : length (gs c) = length programs;
  gi_track : forall t g, nth_error (gs c) t = Some g -> gtrack t (P t) (sh c) g (returns_of t h);
  gi_apart : forall t u b, t <> u -> P t b -> P u b -> False;
  gi_new : forall t b, P t b -> (h0 <= b < length (heap (sh c)))%nat;
  gi_cover : forall b, (h0 <= b < length (heap (sh c)))%nat -> exists t, (t < length programs)%nat /\ P t b;
  gi_frozen : agree no_one RaceLemmas.none (sh c) s0 }.

Lemma g_agree_start t : agree t RaceLemmas.none s0 s0.
Proof. constructor; auto; try contradiction. Qed.
Lemma ginv_start : ginv [] (start s0 programs) (fun _ => RaceLemmas.none).
Proof.
  constructor; cbn [gs sh start]; try (intros; contradiction).
  - apply map_length.
  - intros t g E. rewrite nth_error_map in E. destruct (nth_error programs t) as [cs|] eqn:E'; [|discriminate]. injection E as <-.
    exists cs. split; auto. cbn. split; auto. exists s0. split; [split; auto|apply g_agree_start].
  - intros b H. unfold h0 in H. lia.
  - apply g_agree_start.
Qed.

Lemma ginv_still h c P t g g' e : ginv h c P -> nth_error (gs c) t = Some g -> (forall u, u <> t -> returns_of u e = []) ->
  gtrack t (P t) (sh c) g' (returns_of t (h ++ e)) -> ginv (h ++ e) (set_g c t (sh c) g') P.
Proof.
  intros [I1 I2 I3 I4 I5 I6] E He T. assert (L : (t < length (gs c))%nat) by (apply nth_error_Some; congruence).
  constructor; cbn [gs sh set_g]; auto.
  - now rewrite length_set_nth.
  - intros u gu Eu. rewrite nth_error_set_nth in Eu by auto. destruct (Nat.eqb_spec u t) as [->|N].
    + injection Eu as <-. exact T.
    + rewrite returns_of_app, He, app_nil_r by auto. auto.
Qed.
Lemma gtrack_other t u (Pt Pu K : nat -> Prop) S (p : prog (rv slice)) p' S' g rs : t <> u -> (forall c, Pt c -> Pu c -> False) ->
  (forall c, Pu c -> (h0 <= c)%nat) -> incl K (initial h0) -> disc u Pu K p ->
  match p with Lock _ | Unlock _ => False | _ => True end ->
  step1 p S = Some (p', S') -> gtrack t Pt S g rs -> gtrack t Pt S' g rs.
Proof.
  intros N Dj HP HK D L H (cs & E & T). exists cs. split; auto. destruct (cur g) as [[c q]|].
  - destruct T as (T1 & V & U & K' & A1 & A2 & A3 & A4 & A5 & A6). split; auto. exists V, U, K'.
    repeat (split; [assumption|]). split; auto. eapply (other_step M Hd hd0 h0 g_Hd_is g_hd_in g_M_header t u Pt Pu K); eauto.
  - destruct T as (T1 & V & A1 & A2). split; auto. exists V. split; auto.
    eapply (other_step M Hd hd0 h0 g_Hd_is g_hd_in g_M_header t u Pt Pu K); eauto.
Qed.

(** A step of goroutine [t] inside a call. *)
Lemma ginv_access h c P t os o p p' s' : ginv h c P -> nth_error (gs c) t = Some (mkG os (Some (o, p))) -> step1 p (sh c) = Some (p', s') ->
  exists P', ginv (h ++ []) (set_g c t s' (mkG os (Some (o, p')))) P'.
Proof.
  intros [I1 I2 I3 I4 I6 I5] E St. rewrite app_nil_r. assert (L : (t < length (gs c))%nat) by (apply nth_error_Some; congruence).
  destruct (I2 t _ E) as (cs & Ec & T). cbn [cur todo] in T. destruct T as (T1 & V & U & K & A1 & A2 & A3 & A4 & A5 & A6).
  assert (LK : match p with Lock _ | Unlock _ => False | _ => True end) by (destruct p; auto).
  assert (N : no_one <> t) by (unfold no_one; lia).
  assert (F : agree no_one RaceLemmas.none s' s0).
  { eapply (other_step M Hd hd0 h0 g_Hd_is g_hd_in g_M_header no_one t RaceLemmas.none (P t) K); eauto. intros b B. apply I4 in B. lia. }
  assert (O : forall u g, u <> t -> nth_error (gs c) u = Some g -> gtrack u (P u) s' g (returns_of u h)).
  { intros u g Nu Eu. eapply (gtrack_other u t (P u) (P t) K); eauto. intros b B. apply I4 in B. lia. }
  destruct (Bool.bool_dec (match p with Alloc _ _ => true | _ => false end) true) as [AL|AL].
  - (* an allocation: the goroutine alone gets the same array *)
    destruct p as [| | | | | | | | | |l kk| | | |]; try discriminate AL. clear AL. cbn [step1] in St. injection St as <- <-.
    set (k := (length (heap (sh c)) - length (heap U))%nat). set (b := length (heap (sh c))) in *.
    assert (Lk : (length (heap U) + k = length (heap (sh c)))%nat) by (pose proof (ag_len _ _ _ _ _ _ _ A5); unfold k, b; lia).
    assert (Lp : length (heap (pad U k)) = b) by (unfold pad; cbn; rewrite app_length, repeat_length; lia).
    exists (set_p P t (add (P t) b)). constructor; cbn [gs sh set_g]; auto.
    + now rewrite length_set_nth.
    + intros u gu Eu. rewrite nth_error_set_nth in Eu by auto. unfold set_p. destruct (Nat.eqb_spec u t) as [->|Nu]; [|auto].
      injection Eu as <-. exists cs. split; auto. cbn [cur todo]. split; auto.
      exists V, (set_heap (pad U k) (heap (pad U k) ++ [l])), K.
      split; [exact A1|]. split; [exact A2|]. split; [exact A3|]. split; [|split].
      * cbn [RaceLemmas.disc] in A4. apply A4. intro X. apply A3 in X. unfold initial in X. pose proof (ag_len _ _ _ _ _ _ _ A5). unfold b in X. lia.
      * apply (agree_alloc M Hd hd0 h0 g_Hd_is g_hd_in); [exact Lp|]. apply (agree_pad M Hd hd0 h0 g_Hd_is g_hd_in); auto. lia.
      * cbn [wq] in A6. specialize (A6 k). rewrite Lp in A6. exact A6.
    + intros u v x Nu. unfold set_p. destruct (Nat.eqb_spec u t) as [->|N1], (Nat.eqb_spec v t) as [->|N2]; try congruence.
      * intros [X|X] Y; [eauto|]. subst x. apply I4 in Y. unfold b in Y. lia.
      * intros X [Y|Y]; [eauto|]. subst x. apply I4 in X. unfold b in X. lia.
      * apply I3. auto.
    + intros u x. cbn [heap set_heap]. rewrite app_length. cbn [length]. unfold set_p. destruct (Nat.eqb_spec u t) as [->|].
      * intros [X| ->]; [apply I4 in X; lia|]. pose proof (ag_len _ _ _ _ _ _ _ A5). unfold b. lia.
      * intro X. apply I4 in X. lia.
    + intros x. cbn [heap set_heap]. rewrite app_length. cbn [length]. intro X. unfold set_p. destruct (Nat.eq_dec x b) as [->|Nx].
      * exists t. rewrite Nat.eqb_refl. split; [lia|right; reflexivity].
      * destruct (I6 x) as (u & U1 & U2); [unfold b in Nx; lia|]. exists u. split; auto. destruct (Nat.eqb_spec u t) as [->|]; auto. left. auto.
  - (* any other access: the goroutine alone makes the same one *)
    assert (SU : exists p'' U', step1 p U = Some (p'', U')).
    { pose proof (wq_progress _ _ _ _ A6) as X. destruct p; auto; discriminate St. }
    destruct SU as (p'' & U' & SU).
    assert (LC : local p) by (destruct p; cbn in *; auto; congruence).
    destruct (own_step M Hd hd0 h0 g_Hd_is g_hd_in g_M_header t (P t) K (sh c) U p _ _ p' s' p'' U' A5 A3 A4 LC St SU) as (-> & A' & LU & K' & K1 & K2).
    assert (LS : length (heap s') = length (heap (sh c))).
    { clear - St AL. destruct p; cbn [step1] in St; try discriminate; try congruence; try (injection St as <- <-; reflexivity).
      - destruct (heap_read _ _ _ _) as [[|v [|]]|]; try discriminate. injection St as <- <-. reflexivity.
      - destruct (heap_write _ _ _ _) eqn:E; try discriminate. injection St as <- <-. now apply written in E.
      - destruct (heap_read _ _ _ _); try discriminate. destruct (heap_write _ _ _ _) eqn:E; try discriminate. injection St as <- <-. now apply written in E.
      - destruct (mu (sh c)); try discriminate. injection St as <- <-. reflexivity.
      - destruct (mu (sh c)); try discriminate. injection St as <- <-. reflexivity. }
    exists P. constructor; cbn [gs sh set_g]; auto.
    + now rewrite length_set_nth.
    + intros u gu Eu. rewrite nth_error_set_nth in Eu by auto. destruct (Nat.eqb_spec u t) as [->|Nu]; [|auto].
      injection Eu as <-. exists cs. split; auto. cbn [cur todo]. split; auto. exists V, U', K'.
      repeat (split; [assumption|]). eapply wq_step; eauto. destruct p; auto; congruence.
    + intros u b. rewrite LS. apply I4.
    + intros b. rewrite LS. apply I6.
Qed.

(** The answer is the same for the goroutine alone. *)
Lemma g_same_view t P cs c V S U v : nth_error programs t = Some cs -> In c cs -> b_buf (bb V) = hd0 -> shows V c v ->
  agree t P S U -> view_rv S v = view_rv U v.
Proof.
  intros E I B R A. destruct v as [|z|sl|l]; cbn [view_rv]; auto. f_equal. cbn [shows] in R. rewrite B in R.
  destruct R as (H1 & H2 & H3 & H4). unfold slice_bytes. rewrite H1. apply sub_same; auto.
  - apply (ag_size _ _ _ _ _ _ _ A). right. exact g_hd_in.
  - intros j Hj. change (byte_at S (s_blk hd0) j = byte_at U (s_blk hd0) j). apply (ag_byte _ _ _ _ _ _ _ A); [lia|].
    right. split; [exact g_hd_in|]. rewrite g_M_own. eapply gowner_sees; eauto.
Qed.

Theorem ginv_step h c P t e c' : ginv h c P -> gstep body t c e c' -> exists P', ginv (h ++ e) c' P'.
Proof.
  intros I St. destruct St as [o os E|o os p p' s' E St|o os v E|o os er E].
  - exists P. destruct (gi_track _ _ _ I t _ E) as (cs & Ec & T). cbn [cur todo] in T. destruct T as (T1 & V & A1 & A2).
    assert (Io : In o cs) by (rewrite <- T1; apply in_or_app; right; left; reflexivity).
    pose proof (agree_args _ _ _ _ A2 (gi_frozen _ _ _ I)) as SA.
    destruct (H_fits s0 V o (g_of_program _ _ _ Ec Io) SA) as [X1 X2].
    eapply ginv_still; eauto. exists cs. split; auto. cbn [cur todo]. rewrite returns_of_app. cbn [returns_of flat_map].
    rewrite app_nil_r. split; auto. exists V, V, (initial h0).
    split; auto. split; auto. split; [apply incl_refl|]. split; [|split; [exact A2|apply H_run; auto; apply A1]].
    eapply (disc_mono M Hd t yes yes); [| | | |eapply g_call_disc; eauto]; auto using incl_refl. intros b [].
  - eapply ginv_access; eauto.
  - exists P. destruct (gi_track _ _ _ I t _ E) as (cs & Ec & T). cbn [cur todo] in T.
    destruct T as (T1 & V & U & K & A1 & A2 & A3 & A4 & A5 & A6). cbn [wq] in A6. destruct A6 as (WU & EQ & SH).
    assert (Io : In o cs) by (rewrite <- T1; apply in_or_app; right; left; reflexivity).
    eapply ginv_still; eauto.
    { intros u Nu. cbn. destruct (Nat.eqb_spec t u); [congruence|reflexivity]. }
    exists cs. split; auto. cbn [cur todo]. rewrite returns_of_app. cbn [returns_of flat_map]. rewrite Nat.eqb_refl. cbn [app].
    rewrite map_app, <- app_assoc. split; auto. exists U. split; [|exact A5].
    rewrite (g_same_view t (P t) cs o V (sh c) U v Ec Io (proj1 A2) SH A5). eapply after_call; eauto.
    destruct (H_fits s0 V o (g_of_program _ _ _ Ec Io) A2) as [_ X2]. rewrite <- X2. exact EQ.
  - exists P. destruct (gi_track _ _ _ I t _ E) as (cs & Ec & T). cbn [cur todo] in T.
    destruct T as (T1 & V & U & K & A1 & A2 & A3 & A4 & A5 & A6). cbn [wq] in A6. destruct A6 as (WU & EQ).
    assert (Io : In o cs) by (rewrite <- T1; apply in_or_app; right; left; reflexivity).
    eapply ginv_still; eauto.
    { intros u Nu. cbn. destruct (Nat.eqb_spec t u); [congruence|reflexivity]. }
    exists cs. split; auto. cbn [cur todo]. rewrite returns_of_app. cbn [returns_of flat_map]. rewrite Nat.eqb_refl. cbn [app].
    rewrite map_app, <- app_assoc. split; auto. exists U. split; [|exact A5].
    eapply after_call; eauto.
    destruct (H_fits s0 V o (g_of_program _ _ _ Ec Io) A2) as [_ X2]. rewrite <- X2. exact EQ.
Qed.

Theorem ginv_exec h c : exec body (start s0 programs) h c -> exists P, ginv h c P.
Proof. induction 1 as [|h c1 t h' c2 E [P IH] St]; [eauto using ginv_start|]. eapply ginv_step; eauto. Qed.

(** ** Results *)

Notation galone cs := (one_by_one (one s0) cs (abs s0)).

Lemma gi_as_alone h c P t cs : ginv h c P -> nth_error programs t = Some cs ->
  prefix (map fst (returns_of t h)) cs /\ map snd (returns_of t h) = fst (galone (map fst (returns_of t h))).
Proof.
  intros I Et.
  assert (L : (t < length (gs c))%nat) by (rewrite (gi_len _ _ _ I); apply nth_error_Some; congruence).
  apply nth_error_Some in L. destruct (nth_error (gs c) t) as [g|] eqn:G; [|congruence].
  destruct (gi_track _ _ _ I t g G) as (cs' & E' & T). rewrite Et in E'. injection E' as <-.
  destruct (cur g) as [[o p]|].
  - destruct T as (T1 & V & U & K & [_ A] & _). rewrite A. split; auto. rewrite <- T1. now eexists.
  - destruct T as (T1 & V & [_ A] & _). rewrite A. split; auto. rewrite <- T1. now eexists.
Qed.
Theorem g_as_alone h c t cs : exec body (start s0 programs) h c -> nth_error programs t = Some cs ->
  prefix (map fst (returns_of t h)) cs /\ map snd (returns_of t h) = fst (galone (map fst (returns_of t h))).
Proof. intros E Et. destruct (ginv_exec h c E) as [P I]. eapply gi_as_alone; eauto. Qed.

Theorem g_never_stuck h c t g : exec body (start s0 programs) h c -> nth_error (gs c) t = Some g -> g <> mkG [] None ->
  exists e c', gstep body t c e c'.
Proof.
  intros E G N. destruct (ginv_exec h c E) as [P I]. destruct (gi_track _ _ _ I t g G) as (cs & _ & T).
  destruct g as [os [[c0 p]|]].
  - cbn [cur todo] in T. destruct T as (_ & V & U & K & A1 & A2 & A3 & A4 & A5 & A6).
    assert (LK : match p with Lock _ | Unlock _ => False | _ => True end) by (destruct p; auto).
    pose proof (wq_progress _ _ _ _ A6) as X.
    assert (D : (exists p'' U', step1 p U = Some (p'', U')) \/ match p with Ret _ | Panic _ => True | _ => False end) by (destruct p; auto).
    destruct D as [(p'' & U' & SU)|D].
    + destruct (steps_too M Hd hd0 h0 g_Hd_is g_hd_in t (P t) K (sh c) U p _ _ p'' U' A5 A3 A4 LK SU) as (q & S' & ST).
      do 2 eexists; eapply g_step; eauto.
    + destruct p; try contradiction; do 2 eexists; [eapply g_return|eapply g_panic]; eauto.
  - destruct os as [|o os]; [congruence|]. do 2 eexists; eapply g_call; exact G.
Qed.

(** No goroutine is inside a call. *)
Definition g_at_rest (c : config C) : Prop := forall t g, nth_error (gs c) t = Some g -> cur g = None.

Lemma g_rest_track h c P t : ginv h c P -> g_at_rest c -> (t < length programs)%nat ->
  exists V, agree t (P t) (sh c) V /\ WF V /\ galone (map fst (returns_of t h)) = (map snd (returns_of t h), abs V).
Proof.
  intros I R L. rewrite <- (gi_len _ _ _ I) in L. apply nth_error_Some in L. destruct (nth_error (gs c) t) as [g|] eqn:G; [|congruence].
  destruct (gi_track _ _ _ I t g G) as (cs' & E' & T). rewrite (R t g G) in T. destruct T as (_ & V & [A1 A3] & A2).
  exists V. auto.
Qed.
Lemma g_part_left x : (exists t, (t < length programs)%nat /\ pm x = Exclusive t) \/ pm x = Frozen.
Proof.
  unfold pm, gowner_mode. destruct (gowner x) as [u|] eqn:O; auto. left. exists u. split; auto.
  apply gowner_some in O as (cs & c & E & _). apply nth_error_Some. congruence.
Qed.
Lemma g_rest_byte h c P b i : ginv h c P -> g_at_rest c -> (b < length (heap (sh c)))%nat -> 0 <= i ->
  exists X, WF X /\ (b < length (heap X))%nat /\ zlen (block (sh c) b) = zlen (block X b) /\ byte_at (sh c) b i = byte_at X b i.
Proof.
  intros I R B Hi. destruct (Nat.lt_ge_cases b h0) as [L|L].
  - assert (FR : may_read (M (LByte b i)) no_one false -> exists X, WF X /\ (b < length (heap X))%nat /\ zlen (block (sh c) b) = zlen (block X b) /\ byte_at (sh c) b i = byte_at X b i).
    { intro F. exists s0. split; [exact W0|]. split; [exact L|]. split; [apply (ag_size _ _ _ _ _ _ _ (gi_frozen _ _ _ I)); auto|].
      apply (ag_byte _ _ _ _ _ _ _ (gi_frozen _ _ _ I)); auto. right. auto. }
    destruct (Nat.eq_dec b (s_blk hd0)) as [->|N]; [|apply FR; rewrite g_M_outside; cbn; auto].
    destruct (g_part_left (Byte (i - s_off hd0))) as [(u & Lu & E)|E]; [|apply FR; rewrite g_M_own, E; exact Logic.I].
    destruct (g_rest_track h c P u I R Lu) as (V & A & WV & _). exists V. split; auto. split; [pose proof (ag_len _ _ _ _ _ _ _ A); lia|].
    split; [apply (ag_size _ _ _ _ _ _ _ A); auto|]. apply (ag_byte _ _ _ _ _ _ _ A); auto. right. split; auto. rewrite g_M_own, E. reflexivity.
  - destruct (gi_cover _ _ _ I b (conj L B)) as (u & Lu & Pu). destruct (g_rest_track h c P u I R Lu) as (V & A & WV & _). exists V.
    split; auto. split; [apply (ag_priv _ _ _ _ _ _ _ A) in Pu; lia|]. split; [apply (ag_size _ _ _ _ _ _ _ A); auto|].
    apply (ag_byte _ _ _ _ _ _ _ A); auto. left. auto.
Qed.
Lemma g_rest_fld h c P f : ginv h c P -> g_at_rest c -> exists X, WF X /\ b_buf (bb X) = hd0 /\ get_fld (bb (sh c)) f = get_fld (bb X) f.
Proof.
  intros I R. destruct (g_part_left (Fields f)) as [(u & Lu & E)|E].
  - destruct (g_rest_track h c P u I R Lu) as (V & A & WV & _). exists V. split; auto. split; [apply (ag_hdU _ _ _ _ _ _ _ A)|].
    apply (ag_fld _ _ _ _ _ _ _ A). cbn. rewrite E. reflexivity.
  - exists s0. split; auto. split; auto. apply (ag_fld _ _ _ _ _ _ _ (gi_frozen _ _ _ I)). cbn. rewrite E. exact Logic.I.
Qed.

Lemma gi_rest_WF h c P : ginv h c P -> g_at_rest c -> WF (sh c).
Proof.
  intros I R. pose proof (gi_frozen _ _ _ I) as F. pose proof (ag_hdS _ _ _ _ _ _ _ F) as HS.
  assert (Z : zlen (block (sh c) (s_blk hd0)) = zlen (block s0 (s_blk hd0))) by (apply (ag_size _ _ _ _ _ _ _ F); right; exact g_hd_in).
  constructor.
  - unfold wf_heap. apply Forall_forall. intros a Ia. apply In_nth_error in Ia as [b Eb].
    assert (B : (b < length (heap (sh c)))%nat) by (apply nth_error_Some; congruence).
    assert (Ea : a = block (sh c) b) by (unfold block; now rewrite (nth_error_nth _ _ [] Eb)). subst a.
    assert (WX : forall X, WF X -> (b < length (heap X))%nat -> Forall is_byte (block X b) /\ zlen (block X b) <= maxAlloc).
    { intros X WX LX. pose proof (wf_h _ WX) as H. unfold wf_heap in H. rewrite Forall_forall in H. apply H. apply nth_In. exact LX. }
    split.
    + apply Forall_forall. intros v Iv. apply In_nth_error in Iv as [i Ei].
      assert (Li : (i < length (block (sh c) b))%nat) by (apply nth_error_Some; congruence).
      destruct (g_rest_byte h c P b (Z.of_nat i) I R B ltac:(lia)) as (X & X1 & X2 & X3 & X4).
      unfold byte_at in X4. rewrite Nat2Z.id in X4. rewrite (nth_error_nth _ _ 0 Ei) in X4. subst v.
      destruct (WX X X1 X2) as [H _]. rewrite Forall_forall in H. apply H. apply nth_In. unfold zlen in X3. lia.
    + destruct (g_rest_byte h c P b 0 I R B ltac:(lia)) as (X & X1 & X2 & X3 & _). rewrite X3. now apply WX.
  - rewrite HS. destruct (wf_sl _ W0) as (W1 & W2 & W3 & W4). fold hd0 in W1, W2, W3, W4. unfold block in Z.
    split; [|split; [exact W2|split; [exact W3|]]]; [|rewrite Z; exact W4]. pose proof (ag_len _ _ _ _ _ _ _ F). unfold h0 in *. lia.
  - destruct (g_rest_fld h c P FCap I R) as (X & X1 & X2 & X3). cbn in X3. rewrite X3, HS, (wf_cap _ X1), X2. reflexivity.
  - destruct (g_rest_fld h c P FBcap I R) as (X & X1 & X2 & X3). cbn in X3. rewrite X3, HS, (wf_bcap _ X1), X2. reflexivity.
  - destruct (g_rest_fld h c P FOff I R) as (X & X1 & X2 & X3). cbn in X3. rewrite X3. apply (wf_off _ X1).
  - destruct (g_rest_fld h c P FBoff I R) as (X & X1 & X2 & X3). cbn in X3. rewrite X3. apply (wf_boff _ X1).
Qed.
Theorem g_rest_WF h c : exec body (start s0 programs) h c -> g_at_rest c -> WF (sh c).
Proof. intros E R. destruct (ginv_exec h c E) as [P I]. eapply gi_rest_WF; eauto. Qed.

Lemma g_part_same t P S V x : WF S -> WF V -> agree t P S V -> may_read (pm x) t false -> part x (abs S) = part x (abs V).
Proof.
  intros WS WV A R. pose proof (ag_hdS _ _ _ _ _ _ _ A) as HS. pose proof (ag_hdU _ _ _ _ _ _ _ A) as HV.
  destruct x as [|f|i].
  - cbn [part abs a_bytes]. rewrite !part_len by auto. congruence.
  - pose proof (ag_fld _ _ _ _ _ _ _ A f R) as F. destruct f; cbn [part abs a_bytes a_off a_boff get_fld] in *; auto; rewrite !part_len by auto; congruence.
  - rewrite !part_byte by auto. rewrite HS, HV. destruct (_ && _) eqn:Cc; auto. apply (ag_byte _ _ _ _ _ _ _ A).
    { destruct (wf_sl _ WS) as (_ & W2 & _). rewrite HS in W2. lia. }
    right. split; [exact g_hd_in|]. rewrite g_M_own. replace (s_off hd0 + i - s_off hd0) with i by lia. exact R.
Qed.

(** At rest, goroutine [t] has left its parts as if alone ... *)
Lemma gi_rest_own h c P t cs d x : ginv h c P -> g_at_rest c -> nth_error programs t = Some cs -> In d cs ->
  wr d x = true -> part x (abs (sh c)) = part x (snd (galone (map fst (returns_of t h)))).
Proof.
  intros I R Et Id Wx. pose proof (gi_rest_WF h c P I R) as WS.
  destruct (g_rest_track h c P t I R) as (V & A & WV & ->). { apply nth_error_Some. congruence. }
  apply (g_part_same t (P t)); auto. pose proof (gowner_writes x t cs d Et Id Wx) as X. fold pm in X. destruct (pm x); cbn in *; tauto.
Qed.
Theorem g_rest_own h c t cs d x : exec body (start s0 programs) h c -> g_at_rest c -> nth_error programs t = Some cs -> In d cs ->
  wr d x = true -> part x (abs (sh c)) = part x (snd (galone (map fst (returns_of t h)))).
Proof. intros E R Et Id Wx. destruct (ginv_exec h c E) as [P I]. eapply gi_rest_own; eauto. Qed.
(** ... and nobody has changed the others. *)
Lemma gi_rest_frozen h c P x : ginv h c P -> g_at_rest c ->
  (forall cs d, In cs programs -> In d cs -> wr d x = false) -> part x (abs (sh c)) = part x (abs s0).
Proof.
  intros I R N. pose proof (gi_rest_WF h c P I R) as WS.
  apply (g_part_same no_one RaceLemmas.none); auto. { exact (gi_frozen _ _ _ I). }
  destruct (g_part_left x) as [(u & Lu & X)|X]; [|rewrite X; exact Logic.I]. exfalso.
  unfold pm, gowner_mode in X. destruct (gowner x) as [v|] eqn:O; [|discriminate].
  apply gowner_some in O as (cs & d & E' & I' & X'). apply nth_error_In in E'. rewrite (N cs d E' I') in X'. discriminate.
Qed.
Theorem g_rest_frozen h c x : exec body (start s0 programs) h c -> g_at_rest c ->
  (forall cs d, In cs programs -> In d cs -> wr d x = false) -> part x (abs (sh c)) = part x (abs s0).
Proof. intros E R N. destruct (ginv_exec h c E) as [P I]. eapply gi_rest_frozen; eauto. Qed.
Lemma g_rest_of_finished (c : config C) : finished c -> g_at_rest c.
Proof. intros F t g G. apply nth_error_In in G. unfold finished in F. rewrite Forall_forall in F. rewrite (F g G). reflexivity. Qed.

(** In the end every goroutine has had an answer to every call. *)
Lemma gi_all_returned h c P t cs : ginv h c P -> finished c -> nth_error programs t = Some cs ->
  map fst (returns_of t h) = cs.
Proof.
  intros I F Et.
  assert (L : (t < length (gs c))%nat) by (rewrite (gi_len _ _ _ I); apply nth_error_Some; congruence).
  apply nth_error_Some in L. destruct (nth_error (gs c) t) as [g|] eqn:G; [|congruence].
  destruct (gi_track _ _ _ I t g G) as (cs' & E' & T). rewrite Et in E'. injection E' as <-.
  unfold finished in F. rewrite Forall_forall in F. rewrite (F g (nth_error_In _ _ G)) in T. cbn [cur todo] in T.
  destruct T as (T1 & _). rewrite app_nil_r in T1. exact T1.
Qed.
Theorem g_all_returned h c t cs : exec body (start s0 programs) h c -> finished c -> nth_error programs t = Some cs ->
  map fst (returns_of t h) = cs.
Proof. intros E F Et. destruct (ginv_exec h c E) as [P I]. eapply gi_all_returned; eauto. Qed.
Theorem g_keeps_slice h c : exec body (start s0 programs) h c -> b_buf (bb (sh c)) = b_buf (bb s0).
Proof. intro E. destruct (ginv_exec h c E) as [P I]. apply (ag_hdS _ _ _ _ _ _ _ (gi_frozen _ _ _ I)). Qed.

(** The parts that are written, and the others, are the same in every finished run. *)
Theorem g_same_buffer h1 c1 h2 c2 :
  exec body (start s0 programs) h1 c1 -> finished c1 -> exec body (start s0 programs) h2 c2 -> finished c2 -> abs (sh c1) = abs (sh c2).
Proof.
  intros E1 F1 E2 F2. pose proof (g_rest_of_finished _ F1) as R1. pose proof (g_rest_of_finished _ F2) as R2.
  apply parts_abs; try (eapply g_rest_WF; eauto; fail).
  { rewrite (g_keeps_slice _ _ E1), (g_keeps_slice _ _ E2). reflexivity. }
  intro x. destruct (gowner x) as [u|] eqn:O.
  - apply gowner_some in O as (cs & d & E & I & X). rewrite (g_rest_own h1 c1 u cs d x), (g_rest_own h2 c2 u cs d x) by auto.
    now rewrite (g_all_returned h1 c1 u cs), (g_all_returned h2 c2 u cs).
  - assert (N : forall cs d, In cs programs -> In d cs -> wr d x = false).
    { intros cs d Ic Id. apply In_nth_error in Ic as [t Et]. eapply gowner_none; eauto. }
    rewrite (g_rest_frozen h1 c1 x), (g_rest_frozen h2 c2 x); auto.
Qed.
Theorem g_all_return h c : exec body (start s0 programs) h c -> exists h' c', exec body (start s0 programs) (h ++ h') c' /\ finished c'.
Proof.
  intro E. pose proof (steps_finite body c) as A. revert h E. induction A as [c _ IH]. intros h E.
  assert (D : finished c \/ exists t g, nth_error (gs c) t = Some g /\ g <> mkG [] None).
  { unfold finished. clear. induction (gs c) as [|[os cu] l [F|(t & g & G & N)]]; [left; constructor| |right; exists (S t), g; auto].
    destruct os as [|o os], cu as [p|].
    - right. exists O. eexists. split; [reflexivity|discriminate].
    - left. constructor; auto.
    - right. exists O. eexists. split; [reflexivity|discriminate].
    - right. exists O. eexists. split; [reflexivity|discriminate]. }
  destruct D as [F|(t & g & G & N)].
  - exists [], c. rewrite app_nil_r. auto.
  - destruct (g_never_stuck h c t g E G N) as (e & c1 & G1).
    destruct (IH c1 (ex_intro _ t (ex_intro _ e G1)) (h ++ e)) as (h2 & c2 & E2 & D); [econstructor; eauto|].
    exists (e ++ h2), c2. rewrite app_assoc. auto.
Qed.

(** ** Goroutines with views of their own (WeakSpec.v) *)

Definition owned (w : wconfig C) (t b : nat) : Prop := exists k, nth_error (owners w) k = Some t /\ b = (h0 + k)%nat.
Notation at_liberty := (at_liberty wr s0 programs).

Lemma M_place x : M (place s0 x) = pm x.
Proof.
  destruct x as [|f|i]; [reflexivity|reflexivity|]. unfold place. change (b_buf (bb s0)) with hd0. rewrite g_M_own. f_equal. f_equal. lia.
Qed.
Lemma liberty_mode w u l : at_liberty w u l -> (exists b i, l = LByte b i /\ owned w u b) \/ may_write (M l) u false.
Proof.
  intros [(cs & d & x & E & I & X & ->)|(k & i & E & ->)].
  - right. rewrite M_place. eapply gowner_writes; eauto.
  - left. exists (h0 + k)%nat, i. split; auto. exists k. auto.
Qed.
Lemma liberty_goroutine w u l : Forall (fun u => (u < length programs)%nat) (owners w) -> at_liberty w u l -> (u < length programs)%nat.
Proof.
  intros F [(cs & d & x & E & _)|(k & i & E & _)]; [apply nth_error_Some; congruence|].
  rewrite Forall_forall in F. apply F. eapply nth_error_In; eauto.
Qed.
Lemma mode_liberty w t l : may_write (M l) t false -> at_liberty w t l.
Proof.
  intro H. assert (X : exists x, l = place s0 x /\ may_write (pm x) t false).
  { destruct l as [|f|b i|]; cbn in H; try contradiction.
    - exists Slice. split; auto.
    - exists (Fields f). split; auto.
    - destruct (Nat.lt_ge_cases b h0) as [L|L]; [destruct (Nat.eq_dec b (s_blk hd0)) as [->|N]|].
      + exists (Byte (i - s_off hd0)). split; [unfold place; fold hd0; f_equal; lia|]. rewrite <- g_M_own. exact H.
      + exfalso. change (may_write (M (LByte b i)) t false) in H. rewrite g_M_outside in H by auto. exact H.
      + exfalso. change (may_write (M (LByte b i)) t false) in H. pose proof g_hd_in. unfold M, modes3, outside in H. rewrite g_slice_frozen in H.
        destruct (Nat.eqb_spec b (s_blk hd0)) as [->|]; [lia|]. destruct (_ && _); exact H. }
  destruct X as (x & -> & H'). unfold pm, gowner_mode in H'. destruct (gowner x) as [u|] eqn:O; [|contradiction].
  cbn in H'. subst u. apply gowner_some in O as (cs & d & E & I & W). left. exists cs, d, x. auto.
Qed.

(** What others may have written does not matter. *)
Lemma news_agree a (P : nat -> Prop) w V V' U : same_shape V V' -> (forall l, same_at l V V' \/ exists u, u <> a /\ at_liberty w u l) ->
  (forall b u, u <> a -> P b -> ~ owned w u b) -> (forall b, P b -> (h0 <= b)%nat) -> agree a P V U -> agree a P V' U.
Proof.
  intros [S1 S2] H O G [A1 A2 A3 A4 A5 A6 A7].
  assert (RD : forall l, may_read (M l) a false -> (forall b i u, l = LByte b i -> u <> a -> ~ owned w u b) -> same_at l V V').
  { intros l R NO. destruct (H l) as [X|(u & N & X)]; auto. exfalso.
    apply liberty_mode in X as [(b & i & -> & X)|X]; [eapply NO; eauto|]. eapply (others_differ a u); eauto. }
  constructor; auto.
  - rewrite <- A1. symmetry. apply (RD LHeader); [rewrite g_M_header; exact I|discriminate].
  - intros f R. rewrite <- (A3 f R). symmetry. apply (RD (LField f)); auto. discriminate.
  - rewrite <- S1. exact A4.
  - intros b B. rewrite <- (A6 b B). unfold zlen, block. now rewrite S2.
  - intros b i Hi B. rewrite <- (A7 b i Hi B). symmetry. destruct B as [B|[B R]].
    + destruct (H (LByte b i)) as [X|(u & N & X)]; [exact (X Hi)|]. exfalso.
      apply liberty_mode in X as [(b' & i' & X1 & X2)|X]; [injection X1 as <- <-; eapply O; eauto|].
      pose proof (G b B). pose proof g_hd_in. unfold M, modes3, outside in X. rewrite g_slice_frozen in X.
      destruct (Nat.eqb_spec b (s_blk hd0)) as [->|]; [lia|]. destruct (_ && _); exact X.
    + apply (RD (LByte b i)); auto. intros b' i' u X1 _ (k & _ & X2). injection X1 as <- <-. lia.
Qed.

Record winv (h : list (Conc.event C)) (w : wconfig C) : Prop := mkWinv {
  wi_gs : length (wgs w) = length programs;
  wi_views : length (views w) = length programs;
  wi_owners : Forall (fun u => (u < length programs)%nat) (owners w);
  wi_heap : forall t V, nth_error (views w) t = Some V -> length (heap V) = (h0 + length (owners w))%nat;
  wi_track : forall t g V, nth_error (wgs w) t = Some g -> nth_error (views w) t = Some V -> gtrack t (owned w t) V g (returns_of t h);
  wi_frozen : forall t V, nth_error (views w) t = Some V -> agree no_one RaceLemmas.none V s0 }.

Lemma owned_apart w t u b : t <> u -> owned w t b -> owned w u b -> False.
Proof. intros N (k & E & ->) (k' & E' & X). assert (k' = k) by lia. subst k'. congruence. Qed.
Lemma owned_new w t b : owned w t b -> (h0 <= b)%nat.
Proof. intros (k & _ & ->). lia. Qed.

Lemma winv_start : winv [] (wstart s0 programs).
Proof.
  constructor; cbn [wgs views owners wstart].
  - apply map_length.
  - apply map_length.
  - constructor.
  - intros t V E. rewrite nth_error_map in E. destruct (nth_error programs t); [|discriminate]. injection E as <-. unfold h0. cbn. lia.
  - intros t g V E E1. rewrite nth_error_map in E. rewrite nth_error_map in E1. destruct (nth_error programs t) as [cs|] eqn:E'; [|discriminate]. injection E as <-. injection E1 as <-.
    exists cs. split; auto. cbn. split; auto. exists s0. split; [split; auto|].
    eapply (agree_less M hd0 h0); [|apply g_agree_start]. intros b (k & X & _). destruct k; discriminate.
  - intros t V E. rewrite nth_error_map in E. destruct (nth_error programs t); [|discriminate]. injection E as <-. apply g_agree_start.
Qed.

(** The view of one goroutine changes. *)
Lemma winv_set h w t V V' g' e : winv h w -> nth_error (views w) t = Some V -> length (heap V') = length (heap V) ->
  agree no_one RaceLemmas.none V' s0 -> (forall u, u <> t -> returns_of u e = []) ->
  gtrack t (owned w t) V' g' (returns_of t (h ++ e)) -> winv (h ++ e) (set_view w t V' g').
Proof.
  intros [I1 I2 I3 I4 I5 I6] E HL F He T. assert (L : (t < length (views w))%nat) by (apply nth_error_Some; congruence).
  assert (L' : (t < length (wgs w))%nat) by lia.
  constructor; cbn [wgs views owners set_view]; auto.
  - now rewrite length_set_nth.
  - now rewrite length_set_nth.
  - intros u W Eu. rewrite nth_error_set_nth in Eu by auto. destruct (Nat.eqb_spec u t) as [->|N]; [|eauto]. injection Eu as <-. rewrite HL. eauto.
  - intros u gu W Eg Ev. rewrite nth_error_set_nth in Eg by auto. rewrite nth_error_set_nth in Ev by auto. change (owned (set_view w t V' g')) with (owned w).
    destruct (Nat.eqb_spec u t) as [->|N].
    + injection Eg as <-. injection Ev as <-. exact T.
    + rewrite returns_of_app, He, app_nil_r by auto. auto.
  - intros u W Eu. rewrite nth_error_set_nth in Eu by auto. destruct (Nat.eqb_spec u t) as [->|N]; [|eauto]. now injection Eu as <-.
Qed.

Lemma gtrack_same t (P P' : nat -> Prop) S g rs : (forall b, P b <-> P' b) -> gtrack t P S g rs -> gtrack t P' S g rs.
Proof.
  intros H (cs & E & T). exists cs. split; auto. destruct (cur g) as [[c p]|].
  - destruct T as (T1 & V & U & K & A1 & A2 & A3 & A4 & A5 & A6). split; auto. exists V, U, K. repeat (split; [assumption|]). split; [|split; auto].
    + eapply (disc_mono M Hd t yes yes); [| | | |exact A4]; auto using incl_refl. intros b B. now apply H.
    + eapply (agree_less M hd0 h0); [|exact A5]. intros b B. now apply H.
  - destruct T as (T1 & V & A1 & A2). split; auto. exists V. split; auto. eapply (agree_less M hd0 h0); [|exact A2]. intros b B. now apply H.
Qed.

Lemma step_length {A} (p : prog A) S p' S' : match p with Alloc _ _ => False | _ => True end -> step1 p S = Some (p', S') -> length (heap S') = length (heap S).
Proof.
  intros AL St. destruct p; cbn [step1] in St; try discriminate; try contradiction; try (injection St as <- <-; reflexivity).
  - destruct (heap_read _ _ _ _) as [[|v [|]]|]; try discriminate. injection St as <- <-. reflexivity.
  - destruct (heap_write _ _ _ _) eqn:E; try discriminate. injection St as <- <-. now apply written in E.
  - destruct (heap_read _ _ _ _); try discriminate. destruct (heap_write _ _ _ _) eqn:E; try discriminate. injection St as <- <-. now apply written in E.
  - destruct (mu S); try discriminate. injection St as <- <-. reflexivity.
  - destruct (mu S); try discriminate. injection St as <- <-. reflexivity.
Qed.

Lemma winv_own h w t e w' : winv h w -> own_wstep body t w e w' -> winv (h ++ e) w'.
Proof.
  intros I St. destruct St as [o os S E Ev|o os p p' S S' E Ev AL St|o os l k S E Ev|o os v S E Ev|o os er S E Ev].
  - destruct (wi_track _ _ I t _ _ E Ev) as (cs & Ec & T). cbn [cur todo] in T. destruct T as (T1 & V & A1 & A2).
    assert (Io : In o cs) by (rewrite <- T1; apply in_or_app; right; left; reflexivity).
    pose proof (agree_args _ _ _ _ A2 (wi_frozen _ _ I _ _ Ev)) as SA.
    destruct (H_fits s0 V o (g_of_program _ _ _ Ec Io) SA) as [X1 X2].
    eapply winv_set; eauto using wi_frozen. exists cs. split; auto. cbn [cur todo]. rewrite returns_of_app. cbn [returns_of flat_map].
    rewrite app_nil_r. split; auto. exists V, V, (initial h0).
    split; auto. split; auto. split; [apply incl_refl|]. split; [|split; [exact A2|apply H_run; auto; apply A1]].
    eapply (disc_mono M Hd t yes yes); [| | | |eapply g_call_disc; eauto]; auto using incl_refl. intros b [].
  - destruct (wi_track _ _ I t _ _ E Ev) as (cs & Ec & T). cbn [cur todo] in T. destruct T as (T1 & V & U & K & A1 & A2 & A3 & A4 & A5 & A6).
    assert (LK : match p with Lock _ | Unlock _ => False | _ => True end) by (destruct p; auto).
    assert (N : no_one <> t). { assert (t < length programs)%nat by (apply nth_error_Some; congruence). unfold no_one. lia. }
    assert (SU : exists p'' U', step1 p U = Some (p'', U')).
    { pose proof (wq_progress _ _ _ _ A6) as X. destruct p; auto; discriminate St. }
    destruct SU as (p'' & U' & SU).
    assert (LC : local p) by (destruct p; cbn in *; auto; congruence).
    destruct (own_step M Hd hd0 h0 g_Hd_is g_hd_in g_M_header t (owned w t) K S U p _ _ p' S' p'' U' A5 A3 A4 LC St SU) as (-> & A' & LU & K' & K1 & K2).
    eapply winv_set; eauto.
    + eapply step_length; eauto.
    + eapply (other_step M Hd hd0 h0 g_Hd_is g_hd_in g_M_header no_one t RaceLemmas.none (owned w t) K); eauto using wi_frozen, owned_new.
    + exists cs. split; auto. cbn [cur todo]. rewrite app_nil_r. split; auto. exists V, U', K'.
      repeat (split; [assumption|]). eapply wq_step; eauto.
  - destruct (wi_track _ _ I t _ _ E Ev) as (cs & Ec & T). cbn [cur todo] in T. destruct T as (T1 & V & U & K & A1 & A2 & A3 & A4 & A5 & A6).
    destruct I as [I1 I2 I3 I4 I5 I6]. rewrite app_nil_r.
    assert (Lt : (t < length programs)%nat) by (apply nth_error_Some; congruence). assert (L : (t < length (wgs w))%nat) by lia.
    assert (N : no_one <> t) by (unfold no_one; lia).
    set (w' := mkW _ _ _).
    assert (OT : forall b, owned w' t b <-> add (owned w t) (h0 + length (owners w)) b).
    { intro b. unfold owned, add, w'; cbn [owners]. split.
      - intros (j & X & ->). destruct (Nat.lt_ge_cases j (length (owners w))) as [Lj|Lj].
        + left. exists j. rewrite nth_error_app1 in X by auto. auto.
        + right. rewrite nth_error_app2 in X by auto. destruct (j - length (owners w))%nat as [|[]] eqn:J; try discriminate. f_equal. lia.
      - intros [(j & X & ->)| ->].
        + exists j. rewrite nth_error_app1; auto. apply nth_error_Some. congruence.
        + exists (length (owners w)). rewrite nth_error_app2, Nat.sub_diag by auto. auto. }
    assert (OU : forall u, u <> t -> forall b, owned w u b <-> owned w' u b).
    { intros u Nu b. unfold owned, w'; cbn [owners]. split; intros (j & X & ->); exists j; split; auto.
      - rewrite nth_error_app1; auto. apply nth_error_Some. congruence.
      - destruct (Nat.lt_ge_cases j (length (owners w))) as [Lj|Lj]; [now rewrite nth_error_app1 in X|].
        rewrite nth_error_app2 in X by auto. destruct (j - length (owners w))%nat as [|[]]; try discriminate. injection X as X. congruence. }
    assert (ST : forall W, step1 (Alloc l k) W = Some (k (length (heap W)), set_heap W (heap W ++ [l]))) by reflexivity.
    constructor; unfold w'; cbn [wgs views owners].
    + now rewrite length_set_nth.
    + now rewrite map_length.
    + apply Forall_app. split; auto.
    + intros u W Eu. rewrite nth_error_map in Eu. destruct (nth_error (views w) u) as [W0'|] eqn:Ew; [|discriminate]. injection Eu as <-.
      cbn [heap set_heap]. rewrite !app_length, (I4 u W0' Ew). cbn. lia.
    + fold w'. intros u gu W Eg Eu. rewrite nth_error_map in Eu. destruct (nth_error (views w) u) as [W1|] eqn:Ew; [|discriminate]. injection Eu as <-.
      rewrite nth_error_set_nth in Eg by auto. destruct (Nat.eqb_spec u t) as [->|Nu].
      * injection Eg as <-. assert (W1 = S) as -> by congruence. clear Ew.
        eapply gtrack_same; [intro; symmetry; apply OT|].
        pose proof (I4 t S Ev) as LS. rewrite <- LS. set (b := length (heap S)).
        set (j := (length (heap S) - length (heap U))%nat).
        assert (Lk : (length (heap U) + j = length (heap S))%nat) by (pose proof (ag_len _ _ _ _ _ _ _ A5); unfold j; lia).
        assert (Lp : length (heap (pad U j)) = b) by (unfold pad; cbn; rewrite app_length, repeat_length; unfold b; lia).
        exists cs. split; auto. cbn [cur todo]. split; auto.
        exists V, (set_heap (pad U j) (heap (pad U j) ++ [l])), K.
        split; [exact A1|]. split; [exact A2|]. split; [exact A3|]. split; [|split].
        -- cbn [RaceLemmas.disc] in A4. apply A4. intro X. apply A3 in X. unfold initial in X. unfold b in X. lia.
        -- apply (agree_alloc M Hd hd0 h0 g_Hd_is g_hd_in); [exact Lp|]. apply (agree_pad M Hd hd0 h0 g_Hd_is g_hd_in); auto. lia.
        -- cbn [wq] in A6. specialize (A6 j). rewrite Lp in A6. exact A6.
      * eapply gtrack_same; [apply OU; auto|].
        eapply (gtrack_other u t (owned w u) (owned w t) K W1 (Alloc l k)); eauto using owned_new, owned_apart.
    + intros u W Eu. rewrite nth_error_map in Eu. destruct (nth_error (views w) u) as [W1|] eqn:Ew; [|discriminate]. injection Eu as <-.
      eapply (other_step M Hd hd0 h0 g_Hd_is g_hd_in g_M_header no_one t RaceLemmas.none (owned w t) K W1 s0 (Alloc l k)); eauto using owned_new.
  - destruct (wi_track _ _ I t _ _ E Ev) as (cs & Ec & T). cbn [cur todo] in T.
    destruct T as (T1 & V & U & K & A1 & A2 & A3 & A4 & A5 & A6). cbn [wq] in A6. destruct A6 as (WU & EQ & SH).
    assert (Io : In o cs) by (rewrite <- T1; apply in_or_app; right; left; reflexivity).
    eapply winv_set; eauto using wi_frozen.
    { intros u Nu. cbn. destruct (Nat.eqb_spec t u); [congruence|reflexivity]. }
    exists cs. split; auto. cbn [cur todo]. rewrite returns_of_app. cbn [returns_of flat_map]. rewrite Nat.eqb_refl. cbn [app].
    rewrite map_app, <- app_assoc. split; auto. exists U. split; [|exact A5].
    rewrite (g_same_view t (owned w t) cs o V S U v Ec Io (proj1 A2) SH A5). eapply after_call; eauto.
    destruct (H_fits s0 V o (g_of_program _ _ _ Ec Io) A2) as [_ X2]. rewrite <- X2. exact EQ.
  - destruct (wi_track _ _ I t _ _ E Ev) as (cs & Ec & T). cbn [cur todo] in T.
    destruct T as (T1 & V & U & K & A1 & A2 & A3 & A4 & A5 & A6). cbn [wq] in A6. destruct A6 as (WU & EQ).
    assert (Io : In o cs) by (rewrite <- T1; apply in_or_app; right; left; reflexivity).
    eapply winv_set; eauto using wi_frozen.
    { intros u Nu. cbn. destruct (Nat.eqb_spec t u); [congruence|reflexivity]. }
    exists cs. split; auto. cbn [cur todo]. rewrite returns_of_app. cbn [returns_of flat_map]. rewrite Nat.eqb_refl. cbn [app].
    rewrite map_app, <- app_assoc. split; auto. exists U. split; [|exact A5].
    eapply after_call; eauto.
    destruct (H_fits s0 V o (g_of_program _ _ _ Ec Io) A2) as [_ X2]. rewrite <- X2. exact EQ.
Qed.

Lemma winv_news h w t w' : winv h w -> news wr s0 programs t w w' -> winv h w'.
Proof.
  intros I N. destruct N as [V V' g Ev Eg SS H]. rewrite <- (app_nil_r h).
  assert (Lt : (t < length programs)%nat) by (rewrite <- (wi_gs _ _ I); apply nth_error_Some; congruence).
  eapply winv_set; eauto.
  - symmetry. apply SS.
  - eapply (news_agree no_one RaceLemmas.none w V V'); eauto using wi_frozen.
    + intro l. destruct (H l) as [X|(u & Nu & X)]; auto. right. exists u. split; auto.
      apply (liberty_goroutine w u l (wi_owners _ _ I)) in X. unfold no_one. lia.
    + intros b [].
  - rewrite app_nil_r. destruct (wi_track _ _ I t g V Eg Ev) as (cs & E & T). exists cs. split; auto.
    assert (A : forall U, agree t (owned w t) V U -> agree t (owned w t) V' U).
    { intros U A. eapply news_agree; eauto using owned_new. intros b u Nu P1 P2. eapply owned_apart; eauto. }
    destruct (cur g) as [[c p]|].
    + destruct T as (T1 & X & U & K & A1 & A2 & A3 & A4 & A5 & A6). split; auto. exists X, U, K. auto 8.
    + destruct T as (T1 & X & A1 & A2). split; auto. exists X. auto.
Qed.

Theorem winv_exec h w : wexec body wr s0 programs (wstart s0 programs) h w -> winv h w.
Proof. induction 1; eauto using winv_start, winv_own, winv_news. Qed.

(** *** Results *)

Lemma w_goroutine h w t : winv h w -> (t < length programs)%nat -> exists g V, nth_error (wgs w) t = Some g /\ nth_error (views w) t = Some V.
Proof.
  intros I L. assert (L1 : (t < length (wgs w))%nat) by (rewrite (wi_gs _ _ I); auto). assert (L2 : (t < length (views w))%nat) by (rewrite (wi_views _ _ I); auto).
  apply nth_error_Some in L1, L2. destruct (nth_error (wgs w) t) as [g|]; [|congruence]. destruct (nth_error (views w) t) as [V|]; [|congruence]. eauto.
Qed.
Lemma wi_as_alone h w t cs : winv h w -> nth_error programs t = Some cs ->
  prefix (map fst (returns_of t h)) cs /\ map snd (returns_of t h) = fst (galone (map fst (returns_of t h))).
Proof.
  intros I Et. destruct (w_goroutine h w t I) as (g & V & Eg & Ev). { apply nth_error_Some. congruence. }
  destruct (wi_track _ _ I t g V Eg Ev) as (cs' & E' & T). rewrite Et in E'. injection E' as <-.
  destruct (cur g) as [[o p]|].
  - destruct T as (T1 & X & U & K & [_ A] & _). rewrite A. split; auto. rewrite <- T1. now eexists.
  - destruct T as (T1 & X & [_ A] & _). rewrite A. split; auto. rewrite <- T1. now eexists.
Qed.
Lemma wi_all_returned h w t cs : winv h w -> wfinished w -> nth_error programs t = Some cs -> map fst (returns_of t h) = cs.
Proof.
  intros I F Et. destruct (w_goroutine h w t I) as (g & V & Eg & Ev). { apply nth_error_Some. congruence. }
  destruct (wi_track _ _ I t g V Eg Ev) as (cs' & E' & T). rewrite Et in E'. injection E' as <-.
  unfold wfinished in F. rewrite Forall_forall in F. rewrite (F g (nth_error_In _ _ Eg)) in T. cbn [cur todo] in T.
  destruct T as (T1 & _). rewrite app_nil_r in T1. exact T1.
Qed.
Lemma wi_never_stuck h w t g : winv h w -> nth_error (wgs w) t = Some g -> g <> mkG [] None -> exists e w', own_wstep body t w e w'.
Proof.
  intros I Eg N. assert (L : (t < length programs)%nat) by (rewrite <- (wi_gs _ _ I); apply nth_error_Some; congruence).
  destruct (w_goroutine h w t I L) as (g' & V & Eg' & Ev). destruct (wi_track _ _ I t g V Eg Ev) as (cs & _ & T).
  destruct g as [os [[c0 p]|]].
  - cbn [cur todo] in T. destruct T as (_ & X & U & K & A1 & A2 & A3 & A4 & A5 & A6).
    assert (LK : match p with Lock _ | Unlock _ => False | _ => True end) by (destruct p; auto).
    pose proof (wq_progress _ _ _ _ A6) as Y.
    assert (D : (exists p'' U', step1 p U = Some (p'', U')) \/ match p with Ret _ | Panic _ => True | _ => False end) by (destruct p; auto).
    destruct D as [(p'' & U' & SU)|D].
    + destruct (steps_too M Hd hd0 h0 g_Hd_is g_hd_in t (owned w t) K V U p _ _ p'' U' A5 A3 A4 LK SU) as (q & S' & ST).
      destruct p; try (do 2 eexists; eapply w_access; eauto; exact Logic.I; fail). do 2 eexists; eapply w_alloc; eauto.
    + destruct p; try contradiction; do 2 eexists; [eapply w_return|eapply w_panic]; eauto.
  - destruct os as [|o os]; [congruence|]. do 2 eexists; eapply w_call; eauto.
Qed.
Lemma own_llt t w e w' : own_wstep body t w e w' -> llt body (wgs w') (wgs w).
Proof.
  intro St. destruct St as [o os S E Ev|o os p p' S S' E Ev AL St|o os l k S E Ev|o os v S E Ev|o os er S E Ev]; cbn [wgs set_view];
    do 3 eexists; (split; [exact E|]); (split; [|reflexivity]).
  - constructor.
  - econstructor; eauto.
  - eapply (glt_step body o os (Alloc l k) _ S). reflexivity.
  - constructor.
  - constructor.
Qed.
Theorem w_all_return h w : wexec body wr s0 programs (wstart s0 programs) h w ->
  exists h' w', wexec body wr s0 programs (wstart s0 programs) (h ++ h') w' /\ wfinished w'.
Proof.
  intro E. pose proof (llt_acc body (wgs w)) as A. remember (wgs w) as l eqn:El. revert w El h E. induction A as [l _ IH]. intros w -> h E.
  assert (D : wfinished w \/ exists t g, nth_error (wgs w) t = Some g /\ g <> mkG [] None).
  { unfold wfinished. clear. induction (wgs w) as [|[os cu] l [F|(t & g & G & N)]]; [left; constructor| |right; exists (S t), g; auto].
    destruct os as [|o os], cu as [p|].
    - right. exists O. eexists. split; [reflexivity|discriminate].
    - left. constructor; auto.
    - right. exists O. eexists. split; [reflexivity|discriminate].
    - right. exists O. eexists. split; [reflexivity|discriminate]. }
  destruct D as [F|(t & g & G & N)].
  - exists [], w. rewrite app_nil_r. auto.
  - destruct (wi_never_stuck h w t g (winv_exec h w E) G N) as (e & w1 & G1).
    destruct (IH (wgs w1) (own_llt _ _ _ _ G1) w1 eq_refl (h ++ e)) as (h2 & w2 & E2 & D); [eapply wx_step; eauto|].
    exists (e ++ h2), w2. rewrite app_assoc. auto.
Qed.

(** **** Where a goroutine writes *)

Lemma shape_refl S : same_shape S S. Proof. split; auto. Qed.
Lemma same_refl l S : same_at l S S. Proof. destruct l; cbn; auto. Qed.
Lemma write_liberty w t (K : nat -> Prop) S b i d h : heap_write (heap S) b i d = Some h ->
  (forall j, i <= j < i + zlen d -> can_write M t (owned w t) K false b j) ->
  same_shape S (set_heap S h) /\ forall l, same_at l S (set_heap S h) \/ at_liberty w t l.
Proof.
  intros H D. apply written in H as (H1 & H2 & H3). split.
  - split; [cbn; auto|]. intro b'. specialize (H2 b'). unfold zlen, block in H2. cbn [heap set_heap] in *. lia.
  - intros [|f|b' j|]; try (left; first [reflexivity|exact Logic.I]).
    destruct (Z.ltb_spec j 0) as [J|J]; [left; intro; lia|].
    destruct ((b' =? b)%nat && ((i <=? j) && (j <? i + zlen d))) eqn:B.
    + right. apply andb_true_iff in B as [B1 B2]. apply Nat.eqb_eq in B1. subst b'. destruct (D j) as [X|[_ X]]; [lia| |].
      * destruct X as (k & X1 & ->). right. exists k, j. auto.
      * now apply mode_liberty.
    + left. intros _. specialize (H3 b' j J). rewrite B in H3. symmetry. exact H3.
Qed.
Lemma step_liberty {A} w t K S (p : prog A) Q R p' S' : RaceLemmas.disc M Hd t (owned w t) K false Q R p ->
  match p with Alloc _ _ | Lock _ | Unlock _ => False | _ => True end -> step1 p S = Some (p', S') ->
  same_shape S S' /\ forall l, same_at l S S' \/ at_liberty w t l.
Proof.
  intros D L H. destruct p; cbn [RaceLemmas.disc step1] in *; try discriminate; try contradiction.
  - injection H as <- <-. auto using shape_refl, same_refl.
  - rewrite g_M_header in D. destruct D as [[] _].
  - injection H as <- <-. auto using shape_refl, same_refl.
  - injection H as <- <-. split; [split; reflexivity|]. intros [|g|b i|]; cbn [same_at bb set_bb heap]; rewrite ?buf_upd; auto.
    rewrite get_upd. destruct (fld_eqb g f) eqn:E; auto. assert (g = f) as -> by (destruct g, f; auto; discriminate).
    right. apply mode_liberty. apply D.
  - destruct (heap_read (heap S) blk i 1) as [[|v [|]]|] eqn:R1; try discriminate. injection H as <- <-. auto using shape_refl, same_refl.
  - destruct (heap_write (heap S) blk i [v]) as [h|] eqn:R1; try discriminate. injection H as <- <-.
    destruct D as [D _]. eapply write_liberty; eauto. change (zlen [v]) with 1. intros j Hj. replace j with i by lia. exact D.
  - destruct (heap_read (heap S) _ _ n) as [d|] eqn:R1; try discriminate.
    destruct (heap_write (heap S) _ _ d) as [h|] eqn:R2; try discriminate. injection H as <- <-.
    destruct D as (_ & _ & D & _). eapply write_liberty; eauto. apply heap_read_inv in R1 as (_ & R1 & R3 & R4 & ->).
    rewrite sub_length by auto. exact D.
Qed.
Lemma wi_step_liberty h w t os o p V p' V' : winv h w -> nth_error (wgs w) t = Some (mkG os (Some (o, p))) -> nth_error (views w) t = Some V ->
  match p with Alloc _ _ => False | _ => True end -> step1 p V = Some (p', V') ->
  same_shape V V' /\ forall l, same_at l V V' \/ at_liberty w t l.
Proof.
  intros I Eg Ev AL St. destruct (wi_track _ _ I t _ V Eg Ev) as (cs & _ & T). cbn [cur todo] in T.
  destruct T as (_ & X & U & K & A1 & A2 & A3 & A4 & A5 & A6). eapply step_liberty; eauto.
  destruct p; auto.
Qed.
(** The steps of a goroutine change its view only where it is at liberty to write. *)
Lemma wi_own_writes h w t e w' V V' : winv h w -> own_wstep body t w e w' -> nth_error (views w) t = Some V -> nth_error (views w') t = Some V' ->
  forall l, same_at l V V' \/ at_liberty w' t l.
Proof.
  intros I St Ev Ev' l. assert (L : (t < length (views w))%nat) by (apply nth_error_Some; congruence).
  destruct St as [o os S E Es|o os p p' S S' E Es AL St|o os d k S E Es|o os v S E Es|o os er S E Es]; cbn [views set_view] in Ev';
    try (rewrite nth_error_set_nth, Nat.eqb_refl in Ev' by auto; injection Ev' as <-; assert (S = V) as -> by congruence; auto using same_refl).
  - destruct (wi_step_liberty h w t os o p V p' S' I E Es AL St) as [_ H]. apply H.
  - rewrite nth_error_map, Ev in Ev'. cbn in Ev'. injection Ev' as <-. pose proof (wi_heap _ _ I t V Ev) as HL.
    destruct l as [|f|b i|]; try (left; first [reflexivity|exact Logic.I]).
    destruct (Nat.lt_trichotomy b (length (heap V))) as [B|[B|B]].
    + left. intros _. cbn [heap set_heap]. now rewrite app_nth1 by auto.
    + right. right. exists (length (owners w)), i. cbn [owners]. rewrite nth_error_app2, Nat.sub_diag by auto. split; auto. f_equal. unfold h0 in HL. lia.
    + left. intros _. cbn [heap set_heap]. rewrite !(nth_overflow _ []); auto; try (rewrite app_length; cbn; lia); lia.
Qed.
(** The views of the others stay, apart from new arrays. *)
Lemma wi_others_stay h w t e w' u V V' : winv h w -> own_wstep body t w e w' -> u <> t -> nth_error (views w) u = Some V -> nth_error (views w') u = Some V' ->
  forall l, (forall b i, l = LByte b i -> (b < length (heap V))%nat) -> same_at l V V'.
Proof.
  intros I St N Ev Ev' l Hl. assert (L : forall S, nth_error (views w) t = Some S -> (t < length (views w))%nat) by (intros S X; apply nth_error_Some; congruence).
  destruct St as [o os S E Es|o os p p' S S' E Es AL St|o os d k S E Es|o os v S E Es|o os er S E Es]; cbn [views set_view] in Ev'; specialize (L _ Es);
    try (rewrite nth_error_set_nth in Ev' by auto; destruct (Nat.eqb_spec u t); [congruence|]; assert (V' = V) as -> by congruence; apply same_refl).
  rewrite nth_error_map, Ev in Ev'. cbn in Ev'. injection Ev' as <-. destruct l as [|f|b i|]; try first [reflexivity|exact Logic.I].
  intros _. cbn [heap set_heap]. rewrite app_nth1; auto. eapply Hl; eauto.
Qed.

(** **** All writes together *)

Lemma liberty_unowned w l : (forall u, ~ at_liberty w u l) -> may_read (M l) no_one false.
Proof.
  intro N. destruct (M l) as [| |u|u] eqn:E; cbn; auto.
  - exfalso. destruct l as [|f|b i|]; unfold M, modes3 in E; try discriminate; revert E; unfold pm, gowner_mode; repeat destruct (gowner _); repeat destruct (outside _ _ _); try destruct (_ =? _)%nat; discriminate.
  - exfalso. destruct l as [|f|b i|]; unfold M, modes3 in E; try discriminate; revert E; unfold pm, gowner_mode; repeat destruct (gowner _); repeat destruct (outside _ _ _); try destruct (_ =? _)%nat; discriminate.
  - exfalso. apply (N u). apply mode_liberty. rewrite E. reflexivity.
Qed.
Lemma mode_cases l : M l = Frozen \/ exists u, M l = Exclusive u.
Proof.
  destruct (M l) as [| |u|u] eqn:E; eauto; exfalso; destruct l as [|f|b i|]; unfold M, modes3 in E; try discriminate; revert E; unfold pm, gowner_mode;
    repeat destruct (gowner _); repeat destruct (outside _ _ _); try destruct (_ =? _)%nat; discriminate.
Qed.
Lemma no_liberty w l : (forall b i, l = LByte b i -> (b < h0)%nat) -> M l = Frozen -> forall u, ~ at_liberty w u l.
Proof.
  intros B F u X. apply liberty_mode in X as [(b & i & -> & X)|X]; [|rewrite F in X; exact X].
  apply owned_new in X. specialize (B b i eq_refl). lia.
Qed.
Lemma joined_ginv h w m : winv h w -> joined wr s0 programs w m -> ginv h (mkC m (wgs w)) (owned w).
Proof.
  intros I (J1 & J2 & J3 & J4 & J5).
  assert (FR : forall l, (forall b i, l = LByte b i -> (b < h0)%nat) -> M l = Frozen -> same_at l m s0).
  { intros l B F. apply J5. now apply no_liberty. }
  assert (HD : b_buf (bb m) = hd0) by (apply (FR LHeader); [discriminate|apply g_M_header]).
  assert (NO : agree no_one RaceLemmas.none m s0).
  { assert (RD : forall l, (forall b i, l = LByte b i -> (b < h0)%nat) -> may_read (M l) no_one false -> same_at l m s0).
    { intros l B R. destruct (mode_cases l) as [F|(u & F)]; auto. exfalso. rewrite F in R. cbn in R. subst u.
      assert (X : at_liberty w no_one l) by (apply mode_liberty; rewrite F; reflexivity).
      apply (liberty_goroutine w no_one l (wi_owners _ _ I)) in X. unfold no_one in X. lia. }
    constructor; auto.
    - intros f R. apply (RD (LField f)); auto. discriminate.
    - fold h0 in J1. split; [unfold h0; lia|]. rewrite J1. unfold h0. lia.
    - intros b [].
    - intros b [[]|B]. unfold zlen, block. rewrite J2; auto.
    - intros b i Hi [[]|[B R]]. apply (RD (LByte b i)); auto. intros b' i' X. now injection X as <- <-. }
  constructor; cbn [gs sh].
  - apply (wi_gs _ _ I).
  - intros t g Eg. assert (L : (t < length programs)%nat) by (rewrite <- (wi_gs _ _ I); apply nth_error_Some; congruence).
    destruct (w_goroutine h w t I L) as (g' & V & Eg' & Ev).
    assert (A : forall U, agree t (owned w t) V U -> agree t (owned w t) m U).
    { intros U [A1 A2 A3 A4 A5 A6 A7]. pose proof (wi_frozen _ _ I t V Ev) as FV. destruct (J3 V (nth_error_In _ _ Ev)) as [SH1 SH2].
      assert (RD : forall l, (forall b i, l = LByte b i -> (b < h0)%nat) -> may_read (M l) t false -> same_at l m V \/ (M l = Frozen /\ same_at l m s0)).
      { intros l B R. destruct (mode_cases l) as [F|(u & F)]; [right; auto|]. left. rewrite F in R. cbn in R. subst u.
        eapply J4; eauto. apply mode_liberty. rewrite F. reflexivity. }
      constructor; auto.
      - intros f R. rewrite <- (A3 f R). destruct (RD (LField f)) as [X|[F X]]; auto; [discriminate|].
        cbn in X. rewrite X. symmetry. apply (ag_fld _ _ _ _ _ _ _ FV). rewrite F. exact Logic.I.
      - rewrite SH1. exact A4.
      - intros b B. rewrite <- (A6 b B). unfold zlen, block. now rewrite SH2.
      - intros b i Hi B. rewrite <- (A7 b i Hi B). destruct B as [B|[B R]].
        + apply (J4 t V (LByte b i)); auto. destruct B as (k & B & ->). right. exists k, i. auto.
        + assert (PB : forall b' i', LByte b i = LByte b' i' -> (b' < h0)%nat) by (intros b' i' X; now injection X as <- <-).
          destruct (RD (LByte b i) PB R) as [X|[F X]]; [exact (X Hi)|].
          assert (Y : byte_at V b i = byte_at s0 b i) by (apply (ag_byte _ _ _ _ _ _ _ FV b i Hi); right; rewrite F; split; [exact B|exact Logic.I]).
          rewrite Y. exact (X Hi). }
    destruct (wi_track _ _ I t g V Eg Ev) as (cs & E & T). exists cs. split; auto. destruct (cur g) as [[c p]|].
    + destruct T as (T1 & X & U & K & A1 & A2 & A3 & A4 & A5 & A6). split; auto. exists X, U, K. auto 8.
    + destruct T as (T1 & X & A1 & A2). split; auto. exists X. auto.
  - apply owned_apart.
  - intros t b (k & E & ->). rewrite J1. fold h0. split; [lia|]. apply Nat.add_lt_mono_l. apply nth_error_Some. congruence.
  - intros b [B1 B2]. rewrite J1 in B2. fold h0 in B2. assert (L : (b - h0 < length (owners w))%nat) by lia.
    apply nth_error_Some in L. destruct (nth_error (owners w) (b - h0)) as [u|] eqn:E; [|congruence]. exists u. split.
    + pose proof (wi_owners _ _ I) as F. rewrite Forall_forall in F. apply F. eapply nth_error_In; eauto.
    + exists (b - h0)%nat. split; auto. lia.
  - exact NO.
Qed.
Lemma w_rest w m : wresting w -> g_at_rest (mkC m (wgs w)).
Proof. intros R t g G. unfold wresting in R. rewrite Forall_forall in R. apply R. eapply nth_error_In. exact G. Qed.
Lemma w_finished_rest (w : wconfig C) : wfinished w -> wresting w.
Proof. apply Forall_impl. intros g ->. reflexivity. Qed.

(** **** One global order is a special case *)

Definition all_view (w : wconfig C) (S : St) : Prop := forall u V, nth_error (views w) u = Some V -> V = S.
Lemma set_nth_self {A} (l : list A) : forall n x, nth_error l n = Some x -> set_nth l n x = l.
Proof.
  induction l as [|y l IH]; intros [|n] x E; cbn in E; try discriminate.
  - injection E as <-. reflexivity.
  - change (y :: set_nth l n x = y :: l). now rewrite IH.
Qed.
Lemma liberty_owners w w' u l : owners w = owners w' -> at_liberty w u l -> at_liberty w' u l.
Proof. intros E [H|H]; [left; exact H|right]. now rewrite <- E. Qed.

(** Everyone hears of what goroutine [t] has written. *)
Lemma spread h w t S S' : wexec body wr s0 programs (wstart s0 programs) h w ->
  same_shape S S' -> (forall l, same_at l S S' \/ at_liberty w t l) ->
  nth_error (views w) t = Some S' -> (forall u V, u <> t -> nth_error (views w) u = Some V -> V = S) ->
  exists w', wexec body wr s0 programs (wstart s0 programs) h w' /\ wgs w' = wgs w /\ all_view w' S'.
Proof.
  intros E SS D Et Eo.
  assert (X : forall k, exists w', wexec body wr s0 programs (wstart s0 programs) h w' /\ wgs w' = wgs w /\ owners w' = owners w /\
    forall u V, nth_error (views w') u = Some V -> V = S' \/ (V = S /\ (k <= u)%nat /\ u <> t)).
  { induction k as [|k (w1 & E1 & G1 & O1 & V1)].
    - exists w. repeat (split; auto). intros u V Eu. destruct (Nat.eq_dec u t) as [->|N]; [left; congruence|]. right. split; [|split; auto; lia]. eauto.
    - destruct (nth_error (views w1) k) as [V|] eqn:Ek.
      + destruct (V1 k V Ek) as [->|(-> & _ & N)].
        * exists w1. repeat (split; auto). intros u V Eu. destruct (V1 u V Eu) as [->|(-> & L & N)]; auto.
          destruct (Nat.eq_dec u k) as [->|]; [left; congruence|]. right. repeat split; auto. lia.
        * pose proof (winv_exec h w1 E1) as I1. assert (L : (k < length (views w1))%nat) by (apply nth_error_Some; congruence).
          destruct (w_goroutine h w1 k I1) as (g & V & Eg & _). { rewrite <- (wi_views _ _ I1). exact L. }
          exists (set_view w1 k S' g). split; [|split; [|split]].
          -- eapply wx_news; [exact E1|]. econstructor; eauto. intro l. destruct (D l) as [Y|Y]; auto. right. exists t. split; auto.
             eapply liberty_owners; [|exact Y]. auto.
          -- cbn [wgs set_view]. rewrite set_nth_self; auto.
          -- exact O1.
          -- cbn [views set_view]. intros u W Eu. rewrite nth_error_set_nth in Eu by auto. destruct (Nat.eqb_spec u k) as [->|Nu].
             ++ left. congruence.
             ++ destruct (V1 u W Eu) as [->|(-> & Lu & Nt)]; auto. right. repeat split; auto. lia.
      + exists w1. repeat (split; auto). intros u V Eu. destruct (V1 u V Eu) as [->|(-> & L & N)]; auto.
        destruct (Nat.eq_dec u k) as [->|]; [congruence|]. right. repeat split; auto. lia. }
  destruct (X (length programs)) as (w' & E' & G' & O' & V'). exists w'. split; auto. split; auto.
  intros u V Eu. destruct (V' u V Eu) as [->|(-> & L & N)]; auto.
  assert (u < length (views w'))%nat by (apply nth_error_Some; congruence). rewrite (wi_views _ _ (winv_exec h w' E')) in *. lia.
Qed.

Lemma all_view_joined h w S : winv h w -> all_view w S -> (programs = [] -> S = s0) -> joined wr s0 programs w S.
Proof.
  intros I A N. assert (F : agree no_one RaceLemmas.none S s0 /\ length (heap S) = (h0 + length (owners w))%nat).
  { destruct (views w) as [|V l] eqn:Ev.
    - pose proof (wi_views _ _ I) as L. rewrite Ev in L. cbn [length] in L. symmetry in L.
      rewrite N by (now apply length_zero_iff_nil). split; [apply g_agree_start|].
      pose proof (wi_owners _ _ I) as FO. destruct (owners w) as [|u o]; [cbn; unfold h0; lia|]. apply Forall_inv in FO. lia.
    - assert (Ev0 : nth_error (views w) 0 = Some V) by now rewrite Ev. rewrite <- (A 0%nat V Ev0). split; [eapply wi_frozen|eapply wi_heap]; eauto. }
  destruct F as [F L]. split; [exact L|]. split; [|split; [|split]].
  - intros b B. pose proof (ag_size _ _ _ _ _ _ _ F b (or_intror B)) as Z. unfold zlen, block in Z. lia.
  - intros V In. apply In_nth_error in In as [u Eu]. rewrite (A u V Eu). apply shape_refl.
  - intros u V l Eu _. rewrite (A u V Eu). apply same_refl.
  - intros l NL. pose proof (liberty_unowned w l NL) as R. destruct l as [|f|b i|]; cbn [same_at]; auto.
    + rewrite (ag_hdS _ _ _ _ _ _ _ F). reflexivity.
    + apply (ag_fld _ _ _ _ _ _ _ F). exact R.
    + intro Hi. destruct (Nat.lt_ge_cases b h0) as [B|B].
      * apply (ag_byte _ _ _ _ _ _ _ F b i Hi). right. split; auto.
      * destruct (Nat.lt_ge_cases b (h0 + length (owners w))) as [B2|B2].
        -- exfalso. assert (Lb : (b - h0 < length (owners w))%nat) by lia. apply nth_error_Some in Lb.
           destruct (nth_error (owners w) (b - h0)) as [u|] eqn:E; [|congruence]. apply (NL u). right. exists (b - h0)%nat, i. split; auto. f_equal. fold h0. lia.
        -- rewrite !(nth_overflow _ []); auto. rewrite L. exact B2.
Qed.

Theorem interleaving_is_weak h c : exec body (start s0 programs) h c ->
  exists w, wexec body wr s0 programs (wstart s0 programs) h w /\ wgs w = gs c /\ all_view w (sh c).
Proof.
  induction 1 as [|h c1 t h' c2 E (w & Ew & G & A) St].
  - exists (wstart s0 programs). split; [constructor|]. split; [reflexivity|]. intros u V Eu. cbn in Eu. rewrite nth_error_map in Eu.
    destruct (nth_error programs u); [|discriminate]. injection Eu as <-. reflexivity.
  - pose proof (winv_exec h w Ew) as I.
    assert (VT : forall g, nth_error (gs c1) t = Some g -> nth_error (views w) t = Some (sh c1) /\ (t < length (views w))%nat).
    { intros g Eg. rewrite <- G in Eg. assert (L : (t < length programs)%nat) by (rewrite <- (wi_gs _ _ I); apply nth_error_Some; congruence).
      destruct (w_goroutine h w t I L) as (g' & V & _ & Ev). rewrite <- (A t V Ev). split; auto. apply nth_error_Some. congruence. }
    assert (KEEP : forall g, (t < length (views w))%nat -> all_view (set_view w t (sh c1) g) (sh c1)).
    { intros g L u V Eu. cbn [views set_view] in Eu. rewrite nth_error_set_nth in Eu by auto. destruct (_ =? _)%nat; [congruence|eauto]. }
    destruct St as [o os Eg|o os p p' s' Eg St|o os v Eg|o os er Eg]; destruct (VT _ Eg) as [Ev L]; pose proof Eg as Eg'; rewrite <- G in Eg'.
    + exists (set_view w t (sh c1) (mkG os (Some (o, body o)))). split; [eapply wx_step; [exact Ew|econstructor; eauto]|].
      split; [cbn; now rewrite G|]. apply KEEP. exact L.
    + destruct (Bool.bool_dec (match p with Alloc _ _ => true | _ => false end) true) as [AL|AL].
      * destruct p as [| | | | | | | | | |l k| | | |]; try discriminate AL. cbn [step1] in St. injection St as <- <-.
        eexists. split; [eapply wx_step; [exact Ew|eapply w_alloc; eauto]|]. split; [cbn; now rewrite G|].
        intros u V Eu. cbn [views] in Eu. rewrite nth_error_map in Eu. destruct (nth_error (views w) u) as [V1|] eqn:E1; [|discriminate].
        injection Eu as <-. rewrite (A u V1 E1). reflexivity.
      * assert (AL' : match p with Alloc _ _ => False | _ => True end) by (destruct p; auto; congruence).
        destruct (wi_step_liberty h w t os o p (sh c1) p' s' I Eg' Ev AL' St) as [S1 S2].
        destruct (spread (h ++ []) (set_view w t s' (mkG os (Some (o, p')))) t (sh c1) s') as (w' & E' & G2 & A2); auto.
        -- eapply wx_step; [exact Ew|eapply w_access; eauto].
        -- cbn [views set_view]. rewrite nth_error_set_nth, Nat.eqb_refl by auto. reflexivity.
        -- intros u V N Eu. cbn [views set_view] in Eu. rewrite nth_error_set_nth in Eu by auto. destruct (Nat.eqb_spec u t); [congruence|eauto].
        -- exists w'. split; auto. split; auto. rewrite G2. cbn. now rewrite G.
    + exists (set_view w t (sh c1) (mkG os None)). split; [eapply wx_step; [exact Ew|econstructor; eauto]|].
      split; [cbn; now rewrite G|]. apply KEEP. exact L.
    + exists (set_view w t (sh c1) (mkG os None)). split; [eapply wx_step; [exact Ew|econstructor; eauto]|].
      split; [cbn; now rewrite G|]. apply KEEP. exact L.
Qed.
Lemma exec_empty h c : programs = [] -> exec body (start s0 programs) h c -> sh c = s0.
Proof.
  intros N E. assert (X : sh c = s0 /\ gs c = []); [|apply X]. induction E as [|h c1 t h' c2 E [I1 I2] St].
  - cbn. rewrite N. auto.
  - exfalso. destruct St as [o os Eg|o os p p' s' Eg St|o os v Eg|o os er Eg]; rewrite I2 in Eg; destruct t; discriminate.
Qed.

(** *** There always is such a memory *)

Lemma step_shape {A} (p : prog A) S p' S' : match p with Alloc _ _ => False | _ => True end -> step1 p S = Some (p', S') -> same_shape S S'.
Proof.
  intros AL St. assert (WR : forall b i d h, heap_write (heap S) b i d = Some h -> same_shape S (set_heap S h)).
  { intros b i d h E. apply written in E as (E1 & E2 & _). split; [cbn [heap set_heap]; auto|]. intro b'. specialize (E2 b'). unfold zlen, block in E2. lia. }
  destruct p; cbn [step1] in St; try discriminate; try contradiction; try (injection St as <- <-; split; reflexivity).
  - destruct (heap_read _ _ _ _) as [[|v [|]]|]; try discriminate. injection St as <- <-. split; reflexivity.
  - destruct (heap_write _ _ _ _) eqn:E; try discriminate. injection St as <- <-. eauto.
  - destruct (heap_read _ _ _ _); try discriminate. destruct (heap_write _ _ _ _) eqn:E; try discriminate. injection St as <- <-. eauto.
  - destruct (mu S); try discriminate. injection St as <- <-. split; reflexivity.
  - destruct (mu S); try discriminate. injection St as <- <-. split; reflexivity.
Qed.
Lemma shape_sym S S' : same_shape S S' -> same_shape S' S.
Proof. intros [A B]. split; auto. Qed.
Lemma shape_trans S S' S'' : same_shape S S' -> same_shape S' S'' -> same_shape S S''.
Proof. intros [A B] [A' B']. split; [congruence|]. intro b. now rewrite B. Qed.
Lemma shape_grows S S' l : same_shape S S' -> same_shape (set_heap S (heap S ++ [l])) (set_heap S' (heap S' ++ [l])).
Proof.
  intros [A B]. split; cbn [heap set_heap]; [rewrite !app_length; congruence|]. intro b.
  destruct (Nat.lt_ge_cases b (length (heap S))) as [L|L].
  - rewrite !app_nth1 by lia. apply B.
  - rewrite !app_nth2 by lia. now rewrite A.
Qed.
Definition alike (w : wconfig C) : Prop := forall t u V V', nth_error (views w) t = Some V -> nth_error (views w) u = Some V' -> same_shape V V'.
Lemma alike_set w t V V' g : alike w -> nth_error (views w) t = Some V -> same_shape V V' -> alike (set_view w t V' g).
Proof.
  intros A E S x y X Y Ex Ey. assert (L : (t < length (views w))%nat) by (apply nth_error_Some; congruence).
  cbn [views set_view] in Ex, Ey. rewrite nth_error_set_nth in Ex by auto. rewrite nth_error_set_nth in Ey by auto.
  destruct (x =? t)%nat, (y =? t)%nat; try injection Ex as <-; try injection Ey as <-.
  - apply shape_refl.
  - eapply shape_trans; [apply shape_sym; exact S|eauto].
  - eapply shape_trans; [|exact S]. eauto.
  - eauto.
Qed.
Lemma all_alike h w : wexec body wr s0 programs (wstart s0 programs) h w -> alike w.
Proof.
  induction 1 as [|h w1 t e w2 E IH St|h w1 t w2 E IH N].
  - intros t u V V' Et Eu. cbn [views wstart] in *. rewrite nth_error_map in Et. rewrite nth_error_map in Eu.
    destruct (nth_error programs t); [|discriminate]. destruct (nth_error programs u); [|discriminate]. injection Et as <-. injection Eu as <-. apply shape_refl.
  - destruct St as [o os S Eg Ev|o os p p' S S' Eg Ev AL St|o os l k S Eg Ev|o os v S Eg Ev|o os er S Eg Ev]; try (eapply alike_set; eauto using shape_refl).
    + eapply step_shape; eauto.
    + intros x y X Y Ex Ey. cbn [views] in *. rewrite nth_error_map in Ex. rewrite nth_error_map in Ey.
      destruct (nth_error (views w1) x) eqn:Ex'; [|discriminate]. destruct (nth_error (views w1) y) eqn:Ey'; [|discriminate].
      injection Ex as <-. injection Ey as <-. apply shape_grows. eauto.
  - destruct N as [V V' g Ev Eg SS H]. eapply alike_set; eauto.
Qed.

Definition view_of (w : wconfig C) (o : option nat) : St := match o with Some u => nth u (views w) s0 | None => s0 end.
Definition byte_writer (w : wconfig C) (b i : nat) : option nat :=
  if (b <? h0)%nat then (if (b =? s_blk hd0)%nat then gowner (Byte (Z.of_nat i - s_off hd0)) else None) else nth_error (owners w) (b - h0).
Definition join_block (w : wconfig C) (b : nat) : list Z :=
  map (fun i => nth i (nth b (heap (view_of w (byte_writer w b i))) []) 0) (seq 0 (length (nth b (heap (view_of w (byte_writer w b 0))) []))).
Definition join_fld (w : wconfig C) (f : fld) : Z := get_fld (bb (view_of w (gowner (Fields f)))) f.
Definition join (w : wconfig C) : St :=
  mkSt (map (join_block w) (seq 0 (h0 + length (owners w)))) (mkBuf hd0 (join_fld w FOff) (join_fld w FCap) (join_fld w FBoff) (join_fld w FBcap)) (mu s0) (outs s0).

Lemma nth_map_seq {A} (f : nat -> A) n i d : (i < n)%nat -> nth i (map f (seq 0 n)) d = f i.
Proof.
  intro L. rewrite (nth_indep _ d (f 0%nat)) by (now rewrite map_length, seq_length). rewrite map_nth, seq_nth by auto. reflexivity.
Qed.
Lemma gowner_known x u : gowner x = Some u -> (u < length programs)%nat.
Proof. intro H. apply gowner_some in H as (cs & c & E & _). apply nth_error_Some. congruence. Qed.
Lemma gowner_of t cs c x : nth_error programs t = Some cs -> In c cs -> wr c x = true -> gowner x = Some t.
Proof.
  intros E I X. pose proof (gowner_writes x t cs c E I X) as R. unfold gowner_mode in R. destruct (gowner x) as [u|]; [|contradiction]. cbn in R. now subst.
Qed.

Theorem w_join h w : wexec body wr s0 programs (wstart s0 programs) h w -> joined wr s0 programs w (join w).
Proof.
  intro E. pose proof (winv_exec h w E) as I. pose proof (all_alike h w E) as AL.
  assert (VW : forall u V, nth_error (views w) u = Some V -> view_of w (Some u) = V).
  { intros u V Eu. cbn [view_of]. now apply nth_error_nth. }
  assert (KN : forall u, (u < length programs)%nat -> exists V, nth_error (views w) u = Some V).
  { intros u L. destruct (nth_error (views w) u) eqn:X; eauto. apply nth_error_None in X. rewrite (wi_views _ _ I) in X. lia. }
  assert (OLD : forall u V b, nth_error (views w) u = Some V -> (b < h0)%nat -> length (nth b (heap V) []) = length (nth b (heap s0) [])).
  { intros u V b Eu B. pose proof (ag_size _ _ _ _ _ _ _ (wi_frozen _ _ I u V Eu) b (or_intror B)) as Z. unfold zlen, block in Z. lia. }
  assert (BL : forall b, (b < h0 + length (owners w))%nat -> nth b (heap (join w)) [] = join_block w b).
  { intros b B. unfold join. cbn [heap]. now rewrite nth_map_seq. }
  assert (LB0 : forall b, (b < h0)%nat -> length (join_block w b) = length (nth b (heap s0) [])).
  { intros b B. unfold join_block. rewrite map_length, seq_length. unfold byte_writer. rewrite (proj2 (Nat.ltb_lt b h0) B).
    destruct (b =? s_blk hd0)%nat; [|reflexivity]. destruct (gowner _) as [u|] eqn:G; [|reflexivity].
    destruct (KN u (gowner_known _ _ G)) as [V Ev]. rewrite (VW u V Ev). eauto. }
  assert (LB : forall u V b, nth_error (views w) u = Some V -> (b < h0 + length (owners w))%nat -> length (join_block w b) = length (nth b (heap V) [])).
  { intros u V b Eu B. destruct (Nat.lt_ge_cases b h0) as [L|L]; [rewrite LB0 by auto; symmetry; eauto|].
    unfold join_block. rewrite map_length, seq_length. unfold byte_writer. rewrite (proj2 (Nat.ltb_ge b h0) L).
    assert (X : (b - h0 < length (owners w))%nat) by lia. apply nth_error_Some in X. destruct (nth_error (owners w) (b - h0)) as [o|] eqn:Eo; [|congruence].
    pose proof (wi_owners _ _ I) as FO. rewrite Forall_forall in FO. destruct (KN o (FO o (nth_error_In _ _ Eo))) as [V' Ev].
    rewrite (VW o V' Ev). apply (AL o u V' V Ev Eu). }
  assert (BY : forall b i, (b < h0 + length (owners w))%nat -> (i < length (join_block w b))%nat ->
    nth i (join_block w b) 0 = nth i (nth b (heap (view_of w (byte_writer w b i))) []) 0).
  { intros b i B L. unfold join_block in *. rewrite map_length, seq_length in L. now rewrite nth_map_seq. }
  assert (LEN : length (heap (join w)) = (h0 + length (owners w))%nat) by (unfold join; cbn [heap]; now rewrite map_length, seq_length).
  assert (FL : forall f, get_fld (bb (join w)) f = get_fld (bb (view_of w (gowner (Fields f)))) f) by (intros []; reflexivity).
  split; [exact LEN|]. split; [|split; [|split]].
  - intros b B. rewrite BL by (unfold h0; lia). apply LB0. exact B.
  - intros V In. apply In_nth_error in In as [u Eu]. pose proof (wi_heap _ _ I u V Eu) as LV. split; [congruence|]. intro b.
    destruct (Nat.lt_ge_cases b (h0 + length (owners w))) as [B|B]; [rewrite BL by auto; eauto|]. rewrite !(nth_overflow _ []) by lia. reflexivity.
  - intros u V l Eu L.
    assert (ONE : forall b i, (b < h0 + length (owners w))%nat -> 0 <= i -> byte_writer w b (Z.to_nat i) = Some u ->
      nth (Z.to_nat i) (nth b (heap (join w)) []) 0 = nth (Z.to_nat i) (nth b (heap V) []) 0).
    { intros b i B Hi W. rewrite BL by auto. destruct (Nat.lt_ge_cases (Z.to_nat i) (length (join_block w b))) as [X|X].
      - rewrite BY by auto. now rewrite W, (VW u V Eu).
      - rewrite !nth_overflow; auto. rewrite <- (LB u V b Eu B). exact X. }
    destruct L as [(cs & d & x & Ec & Id & Wx & ->)|(k & i & Ek & ->)].
    + pose proof (gowner_of u cs d x Ec Id Wx) as G. destruct x as [|f|i]; cbn [place same_at].
      * rewrite (ag_hdS _ _ _ _ _ _ _ (wi_frozen _ _ I u V Eu)). reflexivity.
      * now rewrite FL, G, (VW u V Eu).
      * intro Hi. pose proof g_hd_in. apply ONE; [fold hd0; lia|exact Hi|]. unfold byte_writer. fold hd0. rewrite (proj2 (Nat.ltb_lt _ _) g_hd_in), Nat.eqb_refl.
        rewrite Z2Nat.id by exact Hi. replace (s_off hd0 + i - s_off hd0) with i by lia. exact G.
    + cbn [same_at]. intro Hi. assert (k < length (owners w))%nat by (apply nth_error_Some; congruence).
      apply ONE; [fold h0; lia|exact Hi|]. unfold byte_writer. fold h0. rewrite (proj2 (Nat.ltb_ge _ _)) by lia. replace (h0 + k - h0)%nat with k by lia. exact Ek.
  - intros l N. assert (GN : forall x, l = place s0 x -> gowner x = None).
    { intros x ->. destruct (gowner x) as [u|] eqn:G; auto. exfalso. apply gowner_some in G as (cs & c & A1 & A2 & A3). apply (N u). left. exists cs, c, x. auto. }
    destruct l as [|f|b i|]; cbn [same_at]; auto.
    + now rewrite FL, (GN (Fields f) eq_refl).
    + intro Hi. destruct (Nat.lt_ge_cases b (h0 + length (owners w))) as [B|B].
      2: { rewrite !(nth_overflow _ []); auto; [fold h0|]; lia. }
      destruct (Nat.lt_ge_cases b h0) as [L|L].
      * rewrite BL by auto. destruct (Nat.lt_ge_cases (Z.to_nat i) (length (join_block w b))) as [X|X].
        -- rewrite BY by auto. unfold byte_writer. rewrite (proj2 (Nat.ltb_lt _ _) L). destruct (Nat.eqb_spec b (s_blk hd0)) as [->|]; [|reflexivity].
           rewrite Z2Nat.id by exact Hi. rewrite (GN (Byte (i - s_off hd0))); [reflexivity|]. cbn [place]. fold hd0. f_equal. lia.
        -- rewrite !nth_overflow; auto. rewrite <- LB0; auto.
      * exfalso. assert (X : (b - h0 < length (owners w))%nat) by lia. apply nth_error_Some in X. destruct (nth_error (owners w) (b - h0)) as [u|] eqn:Eo; [|congruence].
        apply (N u). right. exists (b - h0)%nat, i. split; auto. f_equal. fold h0. lia.
Qed.

(** **** Summary *)

Notation weakly h w := (wexec body wr s0 programs (wstart s0 programs) h w).
Theorem w_as_alone h w t cs : weakly h w -> nth_error programs t = Some cs ->
  prefix (map fst (returns_of t h)) cs /\ map snd (returns_of t h) = fst (galone (map fst (returns_of t h))).
Proof. intros E. exact (wi_as_alone h w t cs (winv_exec h w E)). Qed.
Theorem w_all_returned h w t cs : weakly h w -> wfinished w -> nth_error programs t = Some cs -> map fst (returns_of t h) = cs.
Proof. intros E. exact (wi_all_returned h w t cs (winv_exec h w E)). Qed.
Theorem w_never_stuck h w t g : weakly h w -> nth_error (wgs w) t = Some g -> g <> mkG [] None -> exists e w', own_wstep body t w e w'.
Proof. intros E. exact (wi_never_stuck h w t g (winv_exec h w E)). Qed.
Theorem w_stays_inside h w t e w' V V' : weakly h w -> own_wstep body t w e w' -> nth_error (views w) t = Some V -> nth_error (views w') t = Some V' ->
  forall l, same_at l V V' \/ at_liberty w' t l.
Proof. intros E. exact (wi_own_writes h w t e w' V V' (winv_exec h w E)). Qed.
Theorem w_liberty_apart h w t u l : weakly h w -> at_liberty w t l -> at_liberty w u l -> t = u.
Proof.
  intros E A B. destruct (Nat.eq_dec t u) as [|N]; auto. exfalso. pose proof (winv_exec h w E) as I.
  destruct A as [(cs & c & x & A1 & A2 & A3 & ->)|(k & i & A1 & ->)], B as [(ds & d & y & B1 & B2 & B3 & B4)|(k' & i' & B1 & B4)].
  - assert (x = y). { destruct x, y; cbn [place] in B4; try discriminate B4; auto; [now injection B4 as ->|]. injection B4 as B4. f_equal. lia. }
    subst y. destruct (indep t u cs ds c d x) as [_ X]; auto. congruence.
  - destruct x; cbn [place] in B4; try discriminate B4. injection B4 as B4 _. pose proof g_hd_in as X. unfold hd0, h0 in X. lia.
  - destruct y; cbn [place] in B4; try discriminate B4. injection B4 as B4 _. pose proof g_hd_in as X. unfold hd0, h0 in X. lia.
  - injection B4 as B4 _. assert (k' = k) by lia. subst k'. congruence.
Qed.
Theorem w_rest_WF h w m : weakly h w -> wresting w -> joined wr s0 programs w m -> WF m /\ b_buf (bb m) = b_buf (bb s0).
Proof.
  intros E R J. pose proof (joined_ginv h w m (winv_exec h w E) J) as I. split.
  - exact (gi_rest_WF h _ _ I (w_rest w m R)).
  - apply (ag_hdS _ _ _ _ _ _ _ (gi_frozen _ _ _ I)).
Qed.
Theorem w_rest_own h w m t cs d x : weakly h w -> wresting w -> joined wr s0 programs w m -> nth_error programs t = Some cs -> In d cs ->
  wr d x = true -> part x (abs m) = part x (snd (galone (map fst (returns_of t h)))).
Proof. intros E R J. exact (gi_rest_own h _ _ t cs d x (joined_ginv h w m (winv_exec h w E) J) (w_rest w m R)). Qed.
Theorem w_rest_frozen h w m x : weakly h w -> wresting w -> joined wr s0 programs w m ->
  (forall cs d, In cs programs -> In d cs -> wr d x = false) -> part x (abs m) = part x (abs s0).
Proof. intros E R J. exact (gi_rest_frozen h _ _ x (joined_ginv h w m (winv_exec h w E) J) (w_rest w m R)). Qed.
Theorem w_interleavings h c : exec body (start s0 programs) h c -> exists w, weakly h w /\ wgs w = gs c /\ joined wr s0 programs w (sh c).
Proof.
  intro E. destruct (interleaving_is_weak h c E) as (w & X1 & X2 & X3). exists w. split; auto. split; auto.
  apply (all_view_joined h); auto using winv_exec. intro N. eapply exec_empty; eauto.
Qed.
(** No goroutine ever sees another slice. *)
Theorem w_header h w V : weakly h w -> In V (views w) -> b_buf (bb V) = b_buf (bb s0).
Proof.
  intros E J. apply In_nth_error in J as [t J]. apply (ag_hdS _ _ _ _ _ _ _ (wi_frozen _ _ (winv_exec h w E) t V J)).
Qed.
Theorem w_joins h w : weakly h w -> exists m, joined wr s0 programs w m.
Proof. intro E. exists (join w). eapply w_join; eauto. Qed.
(** What the next access of a goroutine may read and write. *)
Lemma liberty_read w t u (P K : nat -> Prop) b i : u <> t -> (forall b, P b -> owned w t b) -> (forall b, K b -> (b < h0)%nat) ->
  can_read M t P K false b i -> ~ at_liberty w u (LByte b i).
Proof.
  intros N HP HK D L. apply liberty_mode in L as [(b' & i' & E & O)|L].
  - injection E as <- <-. destruct D as [D|[D _]]; [eapply owned_apart; eauto|]. apply HK in D. apply owned_new in O. lia.
  - destruct D as [D|[_ D]]; [|eapply (others_differ t u); eauto]. apply HP, owned_new in D. pose proof g_hd_in. unfold M, modes3, outside in L. rewrite g_slice_frozen in L.
    destruct (Nat.eqb_spec b (s_blk hd0)) as [->|]; [lia|]. destruct (_ && _); exact L.
Qed.
Lemma liberty_write w t (P K : nat -> Prop) b i : (forall b, P b -> owned w t b) ->
  can_write M t P K false b i -> at_liberty w t (LByte b i).
Proof.
  intros HP [D|[_ D]]; [|now apply mode_liberty]. apply HP in D as (k & D & ->). right. exists k, i. auto.
Qed.
Theorem w_reads_apart h w t o os p V a l u : weakly h w -> nth_error (wgs w) t = Some (mkG os (Some (o, p))) -> nth_error (views w) t = Some V ->
  access_of p V = Some a -> reads a l -> u <> t -> ~ at_liberty w u l.
Proof.
  intros E Eg Ev Ea R N. destruct (wi_track _ _ (winv_exec h w E) t _ V Eg Ev) as (cs & _ & T). cbn [cur todo] in T.
  destruct T as (_ & X & U & K & _ & _ & A3 & A4 & _ & _).
  assert (KI : forall b, K b -> (b < h0)%nat) by (intros b B; apply A3 in B; exact B).
  assert (MR : forall l, (forall b i, l <> LByte b i) -> may_read (M l) t false -> ~ at_liberty w u l).
  { intros l0 NB MR L. apply liberty_mode in L as [(b & i & -> & _)|L]; [eapply NB; reflexivity|]. eapply (others_differ t u); eauto. }
  destruct p; cbn [access_of] in Ea; try discriminate; injection Ea as <-; cbn [reads] in R; try contradiction; cbn [RaceLemmas.disc] in A4; try contradiction.
  - subst l. apply MR; [discriminate|apply A4].
  - subst l. apply MR; [discriminate|apply A4].
  - subst l. destruct A4 as [A4 _]. eapply liberty_read; eauto.
  - destruct R as (i & Hi & ->). destruct A4 as (_ & _ & _ & A4 & _). eapply liberty_read; eauto.
Qed.
Theorem w_writes_inside h w t o os p V a l : weakly h w -> nth_error (wgs w) t = Some (mkG os (Some (o, p))) -> nth_error (views w) t = Some V ->
  access_of p V = Some a -> writes a l -> at_liberty w t l \/ (exists d k, p = Alloc d k).
Proof.
  intros E Eg Ev Ea R. destruct (wi_track _ _ (winv_exec h w E) t _ V Eg Ev) as (cs & _ & T). cbn [cur todo] in T.
  destruct T as (_ & X & U & K & _ & _ & A3 & A4 & _ & _).
  destruct p; cbn [access_of] in Ea; try discriminate; injection Ea as <-; cbn [writes] in R; try contradiction; cbn [RaceLemmas.disc] in A4; try contradiction; eauto.
  - exfalso. rewrite g_M_header in A4. destruct A4 as [[] _].
  - left. subst l. apply mode_liberty. apply A4.
  - left. subst l. destruct A4 as [A4 _]. eapply liberty_write; eauto.
  - left. destruct R as (i & Hi & ->). destruct A4 as (_ & _ & A4 & _). eapply liberty_write; eauto.
Qed.
End Gen.
