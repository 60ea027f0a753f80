(** * ConcLemmas: calls made of one locked section are linearizable. *)
From Coq Require Import ZArith List Bool Lia Arith.
From Verif Require Import GoSem Errors Spec GoLemmas Calls Abs Frame Sim History LockLemmas Conc.
Import ListNotations.
Open Scope Z_scope.

Lemma nth_error_set_nth {A} (l : list A) t x u : (t < length l)%nat ->
  nth_error (set_nth l t x) u = if Nat.eqb u t then Some x else nth_error l u.
Proof.
  intro H. unfold set_nth. destruct (Nat.eqb_spec u t) as [->|N].
  - rewrite nth_error_app2 by (rewrite firstn_length; lia). rewrite firstn_length, Nat.min_l by lia.
    now rewrite Nat.sub_diag.
  - destruct (Nat.lt_ge_cases u t).
    + rewrite nth_error_app1 by (rewrite firstn_length; lia). rewrite nth_error_firstn_if.
      destruct (Nat.ltb_spec u t); [reflexivity|lia].
    + rewrite nth_error_app2 by (rewrite firstn_length; lia). rewrite firstn_length, Nat.min_l by lia.
      replace (u - t)%nat with (S (u - t - 1)) by lia. cbn [nth_error].
      rewrite nth_error_skipn_add. f_equal. lia.
Qed.
Lemma length_set_nth {A} (l : list A) t x : (t < length l)%nat -> length (set_nth l t x) = length l.
Proof.
  intro H. unfold set_nth. rewrite app_length, firstn_length. cbn [length]. rewrite skipn_length. lia.
Qed.

Lemma nth_error_same {A} (l m : list A) : (forall i, nth_error l i = nth_error m i) -> l = m.
Proof.
  revert m. induction l as [|x l IH]; intros [|y m] H; auto; try (specialize (H 0%nat); discriminate).
  f_equal. specialize (H 0%nat). cbn in H. congruence. apply IH. intro i. apply (H (S i)).
Qed.

(** ** The shape of a method *)

Section Shapes.

(** The buffer's slice, which no call of the class changes. *)
Variable hdr : slice.
(** In single-store mode a locked section writes at most one byte or field, and
    unlocked reads of bytes are allowed. *)
Variable single : bool.
(** The blocks a locked section may read. *)
Variable rd : nat -> Prop.

Definition ended {A} (p : prog A) : Prop :=
  match p with Ret _ | Panic _ => True | _ => False end.

(** Inside the locked section; [w]: something has been written; [u]: the section
    may release the mutex; [E] holds where an inner program returns. *)
Fixpoint sec {A} (u w : bool) (E : bool -> A -> Prop) (p : prog A) : Prop :=
  match p with
  | Ret a => E w a
  | Panic _ | OutOfFuel => True
  | GetBuf k => sec u w E (k hdr)
  | GetF FCap k => sec u w E (k (s_len hdr))
  | GetF _ k => forall v, sec u w E (k v)
  | Load b _ k => rd b /\ forall v, sec u w E (k v)
  | SetF (FOff | FBoff) _ k => w = false /\ sec u true E k
  | SetF FCap v k => w = false /\ v = s_len hdr /\ sec u w E k
  | SetF FBcap v k => w = false /\ v = 8 * s_len hdr /\ sec u w E k
  | Store b i _ k =>
      (single = true -> w = false) /\ b = s_blk hdr /\ s_off hdr <= i < s_off hdr + s_len hdr /\ sec u true E k
  | Unlock k => u = true /\ ended k
  | _ => False
  end.

(** Outside it; [ro]: inside a locked section that only reads the slice header. *)
Fixpoint shape {A} (ro : bool) (p : prog A) : Prop :=
  match p with
  | Ret _ | Panic _ => ro = false
  | GetBuf k => shape ro (k hdr)
  | GetF FCap k => shape ro (k (s_len hdr))
  | GetF FBcap k => shape ro (k (8 * s_len hdr))
  | GetF (FOff | FBoff) k => ro = false /\ forall v, ended (k v)
  | Load _ _ k => ro = false /\ single = true /\ forall v, ended (k v)
  | Lock k => ro = false /\ (sec true false (fun _ _ => False) k \/ shape true k)
  | Unlock k => ro = true /\ shape false k
  | _ => False
  end.

(** *** Building sections *)

Lemma sec_mono {A} u (E E' : bool -> A -> Prop) p : (forall w a, E w a -> E' w a) -> forall w, sec u w E p -> sec u w E' p.
Proof.
  intros H. induction p; intros w; cbn [sec]; auto; try (intros; eauto; fail).
  - destruct f; eauto.
  - destruct f; intuition.
  - intuition.
  - intuition.
Qed.

Lemma sec_bind {A B} (E : bool -> A -> Prop) (E' : bool -> B -> Prop) u (p : prog A) (f : A -> prog B) :
  (forall w a, E w a -> sec u w E' (f a)) -> forall w, sec false w E p -> sec u w E' (bind p f).
Proof.
  intros H. induction p; intros w; cbn [sec bind]; auto; try (intros; eauto; fail).
  - destruct f0; eauto.
  - destruct f0; intuition.
  - intuition.
  - intuition.
  - intros [X _]; discriminate.
Qed.

Lemma ended_bind {A B} (p : prog A) (f : A -> prog B) : ended p -> (forall a, ended (f a)) -> ended (bind p f).
Proof. destruct p; cbn; intuition. Qed.

(** [defer b.Unlock()] and a wrapper that only packs the result. *)
Lemma sec_finally {A} (E : bool -> A -> Prop) (E' : bool -> A -> Prop) (p : prog A) :
  forall w, sec false w E p -> sec true w E' (finally p unlock).
Proof.
  induction p; intros w; cbn [sec finally]; auto; try (intros; eauto; fail).
  - intros _. cbn. auto.
  - intros _. cbn. auto.
  - destruct f; eauto.
  - destruct f; intuition eauto.
  - intuition eauto.
  - intuition eauto.
  - intros [X _]; discriminate.
Qed.

Lemma sec_wrap {A B} (E : bool -> A -> Prop) (E' : bool -> B -> Prop) (p : prog A) (f : A -> prog B) :
  (forall a, ended (f a)) -> (forall w a, ~ E w a) ->
  forall w, sec true w E p -> sec true w E' (bind p f).
Proof.
  intros H N. induction p; intros w; cbn [sec bind]; auto; try (intros; eauto; fail).
  - intro X. destruct (N _ _ X).
  - destruct f0; eauto.
  - destruct f0; intuition.
  - intuition.
  - intuition.
  - intros [_ X]. split; auto. now apply ended_bind.
Qed.

Lemma shape_wrap {A B} (p : prog A) (f : A -> prog B) :
  (forall a, ended (f a)) -> forall ro, shape ro p -> shape ro (bind p f).
Proof.
  intros H. induction p; intros ro; cbn [shape bind]; auto; try (intros; eauto; fail).
  - intros ->. specialize (H a). destruct (f a); cbn in *; tauto.
  - destruct f0; eauto; intros [? ?]; split; auto; intro; apply ended_bind; auto.
  - intros (? & ? & ?). repeat split; auto. intro; apply ended_bind; auto.
  - intros [? [X|X]]; split; auto. left. eapply sec_wrap; eauto. intros w a [].
  - intros [? ?]; split; auto.
Qed.

Lemma sec_dw {S} n (b : Z -> S -> prog S) u (E : bool -> S -> Prop) :
  (forall w i a, sec false w (fun _ _ => True) (b i a)) -> (forall w a, E w a) ->
  forall fuel w i a, sec u w E (dw fuel n b i a).
Proof.
  intros H HE. induction fuel as [|f IH]; intros w i a; cbn [dw]; [exact I|].
  eapply sec_bind; [|apply H]. intros w' a' _. cbv zeta. destruct (_ <? _); [apply IH|cbn; auto].
Qed.
Lemma sec_goto {S} n (b : Z -> S -> prog S) u (E : bool -> S -> Prop) w a :
  (forall w i a, sec false w (fun _ _ => True) (b i a)) -> (forall w a, E w a) ->
  sec u w E (goto_loop n b a).
Proof. intros. now apply sec_dw. Qed.

(** *** What a section does to the state *)

Definition hok (s : St) : Prop := b_buf (bb s) = hdr /\ b_cap (bb s) = s_len hdr.

(** The two memories differ in the buffer's block only. *)
Definition same_else (h h' : heap_t) : Prop :=
  length h = length h' /\ forall b, b <> s_blk hdr -> nth_error h b = nth_error h' b.

Lemma same_else_refl h : same_else h h.
Proof. split; auto. Qed.
Lemma same_else_trans h1 h2 h3 : same_else h1 h2 -> same_else h2 h3 -> same_else h1 h3.
Proof. intros [L1 N1] [L2 N2]. split; [congruence|]. intros b Hb. rewrite N1, N2; auto. Qed.

Lemma heap_write_else h b i d h' : heap_write h b i d = Some h' -> b = s_blk hdr -> same_else h h'.
Proof.
  clear rd.
  unfold heap_write. destruct (nth_error h b) as [a|] eqn:E; [|discriminate].
  destruct (_ && _); [|discriminate]. intros X Hb. injection X as <-. subst b.
  assert (L : (s_blk hdr < length h)%nat) by (apply nth_error_Some; congruence).
  unfold splice. split.
  - rewrite !app_length, firstn_length, skipn_length. cbn. lia.
  - intros b Hb. destruct (Nat.lt_ge_cases b (s_blk hdr)).
    + rewrite nth_error_app1 by (rewrite firstn_length; lia). rewrite nth_error_firstn_if.
      destruct (Nat.ltb_spec b (s_blk hdr)); [reflexivity|lia].
    + rewrite nth_error_app2 by (rewrite firstn_length; lia). rewrite firstn_length, Nat.min_l by lia.
      replace (b - s_blk hdr)%nat with (S (b - s_blk hdr - 1)) by lia.
      cbn [nth_error app length]. rewrite nth_error_skipn_add. f_equal. lia.
Qed.

Definition after_state {A} (r : res A) (P : St -> Prop) : Prop :=
  match r with Done _ s | Panicked _ s => P s | _ => True end.

Definition settled (s s' : St) : Prop :=
  bb s' = bb s /\ same_else (heap s) (heap s') /\ (single = true -> heap s' = heap s).

Lemma sec_settled {A} u (E : bool -> A -> Prop) p : forall st, hok st ->
  sec u true E p -> after_state (run p st) (settled st).
Proof.
  assert (R : forall st m, settled st (set_mu st m)).
  { intros. split; [|split]; try reflexivity. apply same_else_refl. }
  assert (R0 : forall st, settled st st).
  { intros. split; [|split]; try reflexivity. apply same_else_refl. }
  induction p; intros st Hb; cbn [sec run]; try (intros []; fail); auto.
  - intros _. apply R0.
  - intros _. apply R0.
  - intros X. rewrite (proj1 Hb). auto.
  - destruct f; cbn [get_fld]; auto. rewrite (proj2 Hb). auto.
  - destruct f; intros [X _]; discriminate.
  - intros [_ X]. destruct (heap_read _ _ _ _) as [[|v [|]]|]; cbn; auto.
  - intros (H1 & H2 & H3 & H4). destruct (heap_write _ _ _ _) as [h|] eqn:EW; cbn; auto.
    pose proof (IHp (set_heap st h) Hb H4) as K.
    destruct (run p (set_heap st h)); cbn [after_state] in *; auto.
    + destruct K as (K1 & K2 & K3). split; [exact K1|]. split.
      * eapply same_else_trans; [|exact K2]. eapply heap_write_else; eauto.
      * intro S. specialize (H1 S). discriminate.
    + destruct K as (K1 & K2 & K3). split; [exact K1|]. split.
      * eapply same_else_trans; [|exact K2]. eapply heap_write_else; eauto.
      * intro S. specialize (H1 S). discriminate.
  - intros [_ X]. destruct (mu st); cbn; auto. destruct p; cbn in *; try tauto; apply R.
Qed.

(** A new block elsewhere does not matter to a section. *)
Definition res_alloc {A} (l : list Z) (r : res A) : res A :=
  match r with
  | Done v s => Done v (alloc s l)
  | Panicked e s => Panicked e (alloc s l)
  | Deadlock s => Deadlock (alloc s l)
  | Stuck => Stuck
  end.

Lemma heap_read_app h l b i n d : heap_read h b i n = Some d -> heap_read (h ++ [l]) b i n = Some d.
Proof.
  clear rd single hdr.
  unfold heap_read. destruct (nth_error h b) eqn:E; [|discriminate].
  rewrite nth_error_app1 by (apply nth_error_Some; congruence). now rewrite E.
Qed.
Lemma heap_write_app h l b i d h' : heap_write h b i d = Some h' -> heap_write (h ++ [l]) b i d = Some (h' ++ [l]).
Proof.
  clear rd single hdr.
  unfold heap_write. destruct (nth_error h b) as [a|] eqn:E; [|discriminate].
  assert (L : (b < length h)%nat) by (apply nth_error_Some; congruence).
  rewrite nth_error_app1 by exact L. rewrite E.
  destruct (_ && _); [|discriminate]. intro X. injection X as <-. f_equal.
  unfold splice. rewrite firstn_app, skipn_app. cbn [length].
  replace (b - length h)%nat with 0%nat by lia. replace (b + 1 - length h)%nat with 0%nat by lia.
  cbn. rewrite app_nil_r, <- app_assoc. reflexivity.
Qed.

Lemma sec_alloc {A} u (E : bool -> A -> Prop) p l : forall w st,
  hok st -> sec u w E p -> run p st <> Stuck -> run p (alloc st l) = res_alloc l (run p st).
Proof.
  induction p; intros w st Hb; cbn [sec run]; try (intros []; fail); auto;
    change (bb (alloc st l)) with (bb st); change (heap (alloc st l)) with (heap st ++ [l]);
    change (mu (alloc st l)) with (mu st).
  - rewrite (proj1 Hb). intros S N. eapply H; eauto.
  - intros S N. destruct f; cbn [get_fld] in *; try (eapply H; eauto; fail).
    rewrite (proj2 Hb) in *. eapply H; eauto.
  - intros S N.
    assert (S' : exists w', sec u w' E p). { destruct f; intuition eauto. }
    destruct S' as [w' S'].
    assert (Hb' : hok (set_bb st (upd_fld (bb st) f v))).
    { destruct Hb as [Hb Hc], f; split; cbn; try assumption. apply S. }
    exact (IHp w' (set_bb st (upd_fld (bb st) f v)) Hb' S' N).
  - intros [_ S] N. destruct (heap_read (heap st) blk i 1) as [d|] eqn:ER; [|congruence].
    rewrite (heap_read_app _ l _ _ _ _ ER). destruct d as [|v [|]]; try congruence. eapply H; eauto.
  - intros (S1 & S2 & S3 & S4) N. destruct (heap_write (heap st) blk i [v]) as [h|] eqn:EW; [|congruence].
    rewrite (heap_write_app _ l _ _ _ _ EW). exact (IHp true (set_heap st h) Hb S4 N).
  - intros [_ X] N. destruct (mu st); [|congruence]. destruct p; cbn in *; try tauto; reflexivity.
Qed.

(** *** A change of another block does not matter to a section *)

Definition rewrite_block (s : St) (n : nat) (l : list Z) : St := set_heap s (set_nth (heap s) n l).
Definition res_rewrite {A} (n : nat) (l : list Z) (r : res A) : res A :=
  match r with
  | Done v s => Done v (rewrite_block s n l)
  | Panicked e s => Panicked e (rewrite_block s n l)
  | Deadlock s => Deadlock (rewrite_block s n l)
  | Stuck => Stuck
  end.

Lemma heap_read_other h n l b i k : (n < length h)%nat -> b <> n -> heap_read (set_nth h n l) b i k = heap_read h b i k.
Proof.
  clear rd single hdr.
  intros L N. unfold heap_read. rewrite nth_error_set_nth by exact L.
  replace (Nat.eqb b n) with false by (symmetry; now apply Nat.eqb_neq). reflexivity.
Qed.
Lemma heap_write_set h b i d a : nth_error h b = Some a -> 0 <= i -> i + zlen d <= zlen a ->
  heap_write h b i d = Some (set_nth h b (splice a (Z.to_nat i) d)).
Proof.
  clear rd single hdr.
  intros E H1 H2. unfold heap_write. rewrite E. replace (_ && _) with true by lia. f_equal.
  unfold splice at 1, set_nth. cbn [length app]. now replace (b + 1)%nat with (S b) by lia.
Qed.
Lemma set_nth_comm {A} (h : list A) n l b x : (n < length h)%nat -> (b < length h)%nat -> b <> n ->
  set_nth (set_nth h n l) b x = set_nth (set_nth h b x) n l.
Proof.
  clear rd single hdr.
  intros L1 L2 N. apply nth_error_same. intro i.
  rewrite !nth_error_set_nth by (rewrite ?length_set_nth; auto).
  destruct (Nat.eqb_spec i b), (Nat.eqb_spec i n); congruence.
Qed.
Lemma heap_write_other h n l b i d : (n < length h)%nat -> b <> n ->
  heap_write (set_nth h n l) b i d = option_map (fun h' => set_nth h' n l) (heap_write h b i d).
Proof.
  clear rd single hdr.
  intros L N. destruct (nth_error h b) as [a|] eqn:E.
  - assert (L' : (b < length h)%nat) by (apply nth_error_Some; congruence).
    assert (E' : nth_error (set_nth h n l) b = Some a).
    { rewrite nth_error_set_nth by exact L. destruct (Nat.eqb_spec b n); congruence. }
    destruct ((0 <=? i) && (i + zlen d <=? zlen a)) eqn:C.
    + rewrite (heap_write_set _ _ _ _ a E), (heap_write_set _ _ _ _ a E') by lia. cbn. f_equal. now apply set_nth_comm.
    + unfold heap_write. now rewrite E, E', C.
  - unfold heap_write. rewrite nth_error_set_nth by exact L.
    replace (Nat.eqb b n) with false by (symmetry; now apply Nat.eqb_neq). now rewrite E.
Qed.

Lemma sec_rewrite {A} u (E : bool -> A -> Prop) p n l : n <> s_blk hdr -> ~ rd n -> forall w st,
  hok st -> (n < length (heap st))%nat -> sec u w E p -> run p (rewrite_block st n l) = res_rewrite n l (run p st).
Proof.
  intros N1 N2. induction p; intros w st Hb L; cbn [sec run]; try (intros []; fail); auto;
    change (bb (rewrite_block st n l)) with (bb st); change (heap (rewrite_block st n l)) with (set_nth (heap st) n l);
    change (mu (rewrite_block st n l)) with (mu st).
  - rewrite (proj1 Hb). intros S. eapply H; eauto.
  - intros S. destruct f; cbn [get_fld] in *; try (eapply H; eauto; fail).
    rewrite (proj2 Hb) in *. eapply H; eauto.
  - intros S.
    assert (S' : exists w', sec u w' E p). { destruct f; intuition eauto. }
    destruct S' as [w' S'].
    assert (Hb' : hok (set_bb st (upd_fld (bb st) f v))).
    { destruct Hb as [Hb Hc], f; split; cbn; try assumption. apply S. }
    exact (IHp w' (set_bb st (upd_fld (bb st) f v)) Hb' L S').
  - intros [R S]. rewrite heap_read_other by congruence.
    destruct (heap_read (heap st) blk i 1) as [[|v [|]]|]; auto. eapply H; eauto.
  - intros (S1 & S2 & S3 & S4). rewrite heap_write_other by congruence.
    destruct (heap_write (heap st) blk i [v]) as [h|] eqn:EW; cbn [option_map]; auto.
    assert (L' : (n < length (heap (set_heap st h)))%nat).
    { destruct (heap_write_else _ _ _ _ _ EW S2) as [X _]. cbn [heap set_heap]. congruence. }
    exact (IHp true (set_heap st h) Hb L' S4).
  - intros [_ X]. destruct (mu st); cbn [res_rewrite]; auto. destruct p; cbn in *; try tauto; reflexivity.
Qed.

End Shapes.
