(** * GoLemmas: lists, integers and the evaluation of [prog]. *)
From Coq Require Import ZArith List Bool Lia ZifyBool.
From Verif Require Import GoSem Spec.
Import ListNotations.
Open Scope Z_scope.

Global Arguments Z.add : simpl never.
Global Arguments Z.sub : simpl never.
Global Arguments Z.mul : simpl never.
Global Arguments Z.opp : simpl never.
Global Arguments Z.div : simpl never.
Global Arguments Z.modulo : simpl never.
Global Arguments Z.pow : simpl never.
Global Arguments Z.of_nat : simpl never.
Global Arguments Z.to_nat : simpl never.
Global Arguments Z.max : simpl never.
Global Arguments Z.min : simpl never.

(** ** Lists *)

Lemma nth_error_ext {A} (l1 l2 : list A) :
  (forall j, nth_error l1 j = nth_error l2 j) -> l1 = l2.
Proof.
  revert l2; induction l1 as [|x l1 IH]; intros l2 H.
  - destruct l2; auto. specialize (H O); discriminate.
  - destruct l2 as [|y l2]. specialize (H O); discriminate.
    f_equal. specialize (H O); simpl in H; congruence.
    apply IH. intro j. exact (H (S j)).
Qed.

Lemma nth_error_firstn_if {A} (l : list A) n j :
  nth_error (firstn n l) j = if (j <? n)%nat then nth_error l j else None.
Proof.
  revert n j; induction l as [|x l IH]; intros n j.
  - rewrite firstn_nil. destruct j; simpl; destruct (_ <? _)%nat; auto.
  - destruct n; simpl.
    + destruct j; reflexivity.
    + destruct j; simpl; auto. rewrite IH. reflexivity.
Qed.

Lemma nth_error_skipn_add {A} (l : list A) n j :
  nth_error (skipn n l) j = nth_error l (n + j)%nat.
Proof.
  revert l; induction n; intro l; simpl; auto.
  destruct l; simpl; auto. destruct j; auto.
Qed.

Lemma nth_error_app_if {A} (l1 l2 : list A) j :
  nth_error (l1 ++ l2) j =
  if (j <? length l1)%nat then nth_error l1 j else nth_error l2 (j - length l1)%nat.
Proof.
  destruct (Nat.ltb_spec j (length l1)).
  - apply nth_error_app1; auto.
  - apply nth_error_app2; auto.
Qed.

Lemma nth_error_oob {A} (l : list A) j : (length l <= j)%nat -> nth_error l j = None.
Proof. apply nth_error_None. Qed.

Ltac nat_cases :=
  repeat match goal with
  | |- context [(?a <? ?b)%nat] => destruct (Nat.ltb_spec a b)
  | H : context [(?a <? ?b)%nat] |- _ => destruct (Nat.ltb_spec a b)
  end.

Lemma nth_error_splice {A} (l : list A) i d j :
  (i <= length l)%nat ->
  nth_error (splice l i d) j =
  if (j <? i)%nat then nth_error l j
  else if (j <? i + length d)%nat then nth_error d (j - i) else nth_error l j.
Proof.
  intro Hi. unfold splice.
  rewrite !nth_error_app_if, !nth_error_firstn_if, nth_error_skipn_add, firstn_length.
  replace (Init.Nat.min i (length l)) with i by lia.
  nat_cases; try lia; auto. f_equal. lia.
Qed.

Lemma splice_length {A} (l : list A) i d :
  (i + length d <= length l)%nat -> length (splice l i d) = length l.
Proof.
  intro H. unfold splice. rewrite !app_length, firstn_length, skipn_length. lia.
Qed.

Lemma zlen_nonneg {A} (l : list A) : 0 <= zlen l.
Proof. unfold zlen; lia. Qed.
Lemma zlen_app {A} (l1 l2 : list A) : zlen (l1 ++ l2) = zlen l1 + zlen l2.
Proof. unfold zlen. rewrite app_length. lia. Qed.
Lemma zlen_cons {A} (x : A) l : zlen (x :: l) = 1 + zlen l.
Proof. unfold zlen. simpl length. lia. Qed.
Lemma zlen_nil {A} : zlen (@nil A) = 0.
Proof. reflexivity. Qed.
Lemma zlen_map {A B} (f : A -> B) l : zlen (map f l) = zlen l.
Proof. unfold zlen. rewrite map_length. auto. Qed.
Lemma zlen_rev {A} (l : list A) : zlen (rev l) = zlen l.
Proof. unfold zlen. rewrite rev_length. auto. Qed.

Lemma zlen_zeros n : 0 <= n -> zlen (zeros n) = n.
Proof. intro H. unfold zeros, zlen. rewrite repeat_length. lia. Qed.

Lemma sub_length {A} (l : list A) i n :
  0 <= i -> 0 <= n -> i + n <= zlen l -> zlen (sub l i n) = n.
Proof. intros. unfold sub, zlen in *. rewrite firstn_length, skipn_length. lia. Qed.

Lemma put_length {A} (l : list A) i d :
  0 <= i -> i + zlen d <= zlen l -> zlen (put l i d) = zlen l.
Proof.
  intros. unfold zlen in *. change (put l i d) with (splice l (Z.to_nat i) d).
  rewrite splice_length; lia.
Qed.

Lemma nth_error_sub {A} (l : list A) i n j :
  nth_error (sub l i n) j =
  if (j <? Z.to_nat n)%nat then nth_error l (Z.to_nat i + j) else None.
Proof. unfold sub. rewrite nth_error_firstn_if, nth_error_skipn_add. reflexivity. Qed.

Lemma nth_error_put {A} (l : list A) i d j :
  i <= zlen l ->
  nth_error (put l i d) j =
  if (j <? Z.to_nat i)%nat then nth_error l j
  else if (j <? Z.to_nat i + length d)%nat then nth_error d (j - Z.to_nat i) else nth_error l j.
Proof.
  intro H. change (put l i d) with (splice l (Z.to_nat i) d).
  apply nth_error_splice. unfold zlen in H; lia.
Qed.

Ltac list_ext_with tac :=
  apply nth_error_ext; intro j;
  repeat first
    [ rewrite nth_error_sub
    | rewrite nth_error_put by tac
    | rewrite nth_error_app_if
    | rewrite nth_error_skipn_add
    | rewrite nth_error_firstn_if ];
  nat_cases; try lia; auto;
  repeat match goal with
  | |- nth_error ?l _ = nth_error ?l _ => f_equal; lia
  | |- None = nth_error _ _ => symmetry; apply nth_error_oob; lia
  | |- nth_error _ _ = None => apply nth_error_oob; lia
  end.

Lemma sub_put_same {A} (l : list A) i d n :
  0 <= i -> i + zlen d <= zlen l -> n = zlen d -> sub (put l i d) i n = d.
Proof.
  intros H0 H ->. pose proof (zlen_nonneg d). unfold zlen in *.
  list_ext_with ltac:(unfold zlen; lia).
Qed.

Lemma put_put_same {A} (l : list A) i d d' :
  0 <= i -> i + zlen d <= zlen l -> zlen d = zlen d' ->
  put (put l i d) i d' = put l i d'.
Proof.
  intros H0 H E. pose proof (zlen_nonneg d). pose proof (put_length l i d H0 H) as PL.
  unfold zlen in *.
  list_ext_with ltac:(unfold zlen in *; lia).
Qed.

Lemma put_sub_same {A} (l : list A) i n :
  0 <= i -> 0 <= n -> i + n <= zlen l -> put l i (sub l i n) = l.
Proof.
  intros H0 H1 H2. pose proof (sub_length l i n H0 H1 H2). unfold zlen in *.
  list_ext_with ltac:(unfold zlen in *; lia).
Qed.

(** Writing inside a window of [l] is writing in [l]. *)
Lemma put_window {A} (l : list A) o n i d :
  0 <= o -> 0 <= n -> o + n <= zlen l -> 0 <= i -> i + zlen d <= n ->
  put l o (put (sub l o n) i d) = put l (o + i) d.
Proof.
  intros Ho Hn Hl Hi Hd.
  pose proof (sub_length l o n Ho Hn Hl) as SL.
  assert (Hp : i + zlen d <= zlen (sub l o n)) by lia.
  pose proof (put_length (sub l o n) i d Hi Hp) as PL.
  pose proof (zlen_nonneg d).
  unfold zlen in *.
  list_ext_with ltac:(unfold zlen in *; lia).
Qed.

Lemma sub_put_window {A} (l : list A) o n i d :
  0 <= o -> 0 <= n -> o + n <= zlen l -> 0 <= i -> i + zlen d <= n ->
  sub (put l (o + i) d) o n = put (sub l o n) i d.
Proof.
  intros Ho Hn Hl Hi Hd.
  pose proof (sub_length l o n Ho Hn Hl) as SL.
  pose proof (zlen_nonneg d).
  unfold zlen in *.
  list_ext_with ltac:(unfold zlen in *; lia).
Qed.

Lemma sub_put_disjoint {A} (l : list A) i d o n :
  0 <= i -> 0 <= o -> 0 <= n -> i + zlen d <= zlen l -> (o + n <= i \/ i + zlen d <= o) ->
  sub (put l i d) o n = sub l o n.
Proof.
  intros Hi Ho Hn Hd Hdis. pose proof (zlen_nonneg d). unfold zlen in *.
  list_ext_with ltac:(unfold zlen in *; lia).
Qed.

Lemma put_put_disjoint {A} (l : list A) i d o e :
  0 <= i -> 0 <= o -> i + zlen d <= zlen l -> o + zlen e <= zlen l ->
  (o + zlen e <= i \/ i + zlen d <= o) ->
  put (put l i d) o e = put (put l o e) i d.
Proof.
  intros Hi Ho Hd He Hdis. pose proof (zlen_nonneg d). pose proof (zlen_nonneg e).
  pose proof (put_length l i d Hi Hd). pose proof (put_length l o e Ho He).
  unfold zlen in *.
  list_ext_with ltac:(unfold zlen in *; lia).
Qed.

Lemma put_put_adj {A} (l : list A) i d1 d2 :
  0 <= i -> i + zlen d1 + zlen d2 <= zlen l ->
  put (put l i d1) (i + zlen d1) d2 = put l i (d1 ++ d2).
Proof.
  intros Hi H. pose proof (zlen_nonneg d1). pose proof (zlen_nonneg d2).
  assert (Hp : i + zlen d1 <= zlen l) by lia.
  pose proof (put_length l i d1 Hi Hp).
  unfold zlen in *. 
  apply nth_error_ext; intro j.
  rewrite !nth_error_put by (unfold zlen in *; lia).
  rewrite nth_error_app_if, app_length.
  nat_cases; try lia; auto; f_equal; lia.
Qed.

Lemma sub_sub {A} (l : list A) o n i m :
  0 <= o -> 0 <= i -> 0 <= m -> i + m <= n -> sub (sub l o n) i m = sub l (o + i) m.
Proof.
  intros. list_ext_with ltac:(unfold zlen in *; lia).
Qed.

Lemma sub_all {A} (l : list A) n : zlen l <= n -> sub l 0 n = l.
Proof.
  intro H. unfold sub, zlen in *. simpl. apply firstn_all2. lia.
Qed.

Lemma put_nil {A} (l : list A) i : put l i [] = l.
Proof.
  unfold put. simpl. rewrite Nat.add_0_r. apply firstn_skipn.
Qed.

Lemma sub_app_split {A} (l : list A) i n m :
  0 <= i -> 0 <= n -> 0 <= m -> sub l i (n + m) = sub l i n ++ sub l (i + n) m.
Proof.
  intros. assert (L : length (sub l i n) = Nat.min (Z.to_nat n) (length l - Z.to_nat i)).
  { unfold sub. rewrite firstn_length, skipn_length. reflexivity. }
  apply nth_error_ext; intro j. rewrite nth_error_app_if, L, !nth_error_sub.
  nat_cases; try lia; auto;
    (destruct (Nat.le_gt_cases (length l) (Z.to_nat i + j));
     [rewrite ?nth_error_oob by lia; reflexivity | try (f_equal; lia); try lia]).
Qed.

Lemma byte_at_nth_error l i d : 0 <= i -> nth_error l (Z.to_nat i) = Some d -> byte_at l i = d.
Proof. intros. unfold byte_at. apply nth_error_nth. auto. Qed.

Lemma byte_at_sub l o n i :
  0 <= o -> 0 <= i < n -> byte_at (sub l o n) i = byte_at l (o + i).
Proof.
  intros Ho Hi. unfold byte_at.
  rewrite <- !(nth_default_eq). unfold nth_default. rewrite nth_error_sub.
  replace (Z.to_nat (o + i)) with (Z.to_nat o + Z.to_nat i)%nat by lia.
  nat_cases; try lia; auto.
Qed.

Lemma byte_at_put l i d j :
  0 <= i -> 0 <= j -> i + zlen d <= zlen l ->
  byte_at (put l i d) j =
  if (i <=? j) && (j <? i + zlen d) then byte_at d (j - i) else byte_at l j.
Proof.
  intros Hi Hj Hd. pose proof (zlen_nonneg d). unfold byte_at, zlen in *.
  rewrite <- !(nth_default_eq). unfold nth_default.
  rewrite nth_error_put by (unfold zlen in *; lia).
  destruct (Z.leb_spec i j), (Z.ltb_spec j (i + Z.of_nat (length d))); simpl;
    nat_cases; try lia; auto.
  replace (Z.to_nat (j - i)) with (Z.to_nat j - Z.to_nat i)%nat by lia. auto.
Qed.

Lemma sub_one l i : 0 <= i < zlen l -> sub l i 1 = [byte_at l i].
Proof.
  intros H. unfold sub, byte_at, zlen in *. simpl.
  assert (Hn : (Z.to_nat i < length l)%nat) by lia.
  destruct (skipn (Z.to_nat i) l) eqn:E.
  - assert (length (skipn (Z.to_nat i) l) = 0%nat) by (rewrite E; auto).
    rewrite skipn_length in H0; lia.
  - f_equal. rewrite <- (firstn_skipn (Z.to_nat i) l) at 1. rewrite app_nth2; rewrite firstn_length; [|lia].
    rewrite E. replace (Z.to_nat i - _)%nat with O by lia. reflexivity.
Qed.

Lemma byte_at_ext (l1 l2 : list Z) :
  zlen l1 = zlen l2 -> (forall j, 0 <= j < zlen l1 -> byte_at l1 j = byte_at l2 j) -> l1 = l2.
Proof.
  intros HL H. apply (nth_ext _ _ 0 0). unfold zlen in HL; lia.
  intros n Hn. specialize (H (Z.of_nat n)). unfold byte_at, zlen in H.
  rewrite Nat2Z.id in H. apply H. lia.
Qed.

Lemma Forall_sub {A} (P : A -> Prop) l i n : Forall P l -> Forall P (sub l i n).
Proof.
  rewrite !Forall_forall. intros H x Hx. apply H.
  unfold sub in Hx. apply In_nth_error in Hx. destruct Hx as [j Hj].
  rewrite nth_error_firstn_if, nth_error_skipn_add in Hj. destruct (_ <? _)%nat; [|discriminate].
  eapply nth_error_In; eauto.
Qed.

Lemma Forall_put {A} (P : A -> Prop) l i d : Forall P l -> Forall P d -> Forall P (put l i d).
Proof.
  intros Hl Hd. unfold put. rewrite !Forall_app. repeat split; auto.
  - apply (Forall_sub P l 0 (Z.of_nat (Z.to_nat i))) in Hl. unfold sub in Hl. simpl in Hl. rewrite Nat2Z.id in Hl. auto.
  - rewrite Forall_forall in *. intros x Hx. apply Hl.
    apply In_nth_error in Hx. destruct Hx as [j Hj]. rewrite nth_error_skipn_add in Hj.
    eapply nth_error_In; eauto.
Qed.

Lemma Forall_zeros n : Forall is_byte (zeros n).
Proof.
  unfold zeros. apply Forall_forall. intros x Hx. apply repeat_spec in Hx. subst. unfold is_byte; lia.
Qed.

Lemma byte_at_is_byte l i : Forall is_byte l -> is_byte (byte_at l i).
Proof.
  intro H. unfold byte_at. destruct (nth_in_or_default (Z.to_nat i) l 0) as [Hin| ->].
  - rewrite Forall_forall in H. auto.
  - unfold is_byte; lia.
Qed.

(** ** Integers *)

Ltac Zify.zify_post_hook ::= Z.div_mod_to_equations.

Lemma wrap64_id x : is_i64 x -> wrap64 x = x.
Proof.
  unfold wrap64, is_i64. intro H. rewrite Z.mod_small; lia.
Qed.

Lemma wrap64_range x : is_i64 (wrap64 x).
Proof.
  unfold wrap64, is_i64. pose proof (Z.mod_pos_bound (x + 2 ^ 63) (2 ^ 64)). lia.
Qed.

Lemma add64_id x y : is_i64 (x + y) -> x +! y = x + y.
Proof. apply wrap64_id. Qed.
Lemma sub64_id x y : is_i64 (x - y) -> x -! y = x - y.
Proof. apply wrap64_id. Qed.
Lemma mul64_id x y : is_i64 (x * y) -> x *! y = x * y.
Proof. apply wrap64_id. Qed.
Lemma add64_range x y : is_i64 (x +! y).
Proof. apply wrap64_range. Qed.
Lemma sub64_range x y : is_i64 (x -! y).
Proof. apply wrap64_range. Qed.
Lemma mul64_range x y : is_i64 (x *! y).
Proof. apply wrap64_range. Qed.

(** A wrapped value differs from the exact one by a multiple of 2^64. *)
Lemma wrap64_cases x : exists k, wrap64 x = x + k * 2 ^ 64.
Proof.
  exists (- ((x + 2 ^ 63) / 2 ^ 64)). unfold wrap64.
  pose proof (Z.div_mod (x + 2 ^ 63) (2 ^ 64)). lia.
Qed.

Lemma uconv_id w x : 0 <= x < 2 ^ w -> uconv w x = x.
Proof. intro. unfold uconv. apply Z.mod_small; auto. Qed.

Lemma quo_nonneg x : 0 <= x -> quo x 8 = x / 8.
Proof. intro. unfold quo. apply Z.quot_div_nonneg; lia. Qed.
Lemma rem_nonneg x : 0 <= x -> rem x 8 = x mod 8.
Proof. intro. unfold rem. apply Z.rem_mod_nonneg; lia. Qed.

(** ** Running programs *)

Lemma run_bind {A B} (p : prog A) (f : A -> prog B) s :
  run (bind p f) s =
  match run p s with
  | Done a s' => run (f a) s'
  | Panicked e s' => Panicked e s'
  | Deadlock s' => Deadlock s'
  | Stuck => Stuck
  end.
Proof.
  revert s; induction p; intro s0; simpl; auto.
  - destruct (heap_read _ _ _ _) as [[|v [|? ?]]|]; auto.
  - destruct (heap_write _ _ _ _); auto.
  - destruct (heap_read _ _ _ _); auto. destruct (heap_write _ _ _ _); auto.
  - destruct (mu s0); auto.
  - destruct (mu s0); auto.
Qed.

Lemma run_ret_bind {A B} (p : prog A) (f : A -> prog B) s a s' :
  run p s = Done a s' -> run (bind p f) s = run (f a) s'.
Proof. intro H. rewrite run_bind, H. reflexivity. Qed.

Lemma run_panic_bind {A B} (p : prog A) (f : A -> prog B) s e s' :
  run p s = Panicked e s' -> run (bind p f) s = Panicked e s'.
Proof. intro H. rewrite run_bind, H. reflexivity. Qed.

Lemma run_panic_if c e s :
  run (panic_if c e) s = if c then Panicked e s else Done tt s.
Proof. destruct c; reflexivity. Qed.

Lemma run_panic_if_bind {A} c e (f : unit -> prog A) s :
  run (bind (panic_if c e) f) s = if c then Panicked e s else run (f tt) s.
Proof. destruct c; reflexivity. Qed.

Lemma bind_assoc_run {A B C} (p : prog A) (f : A -> prog B) (g : B -> prog C) s :
  run (bind (bind p f) g) s = run (bind p (fun a => bind (f a) g)) s.
Proof. rewrite !run_bind. destruct (run p s); auto. rewrite run_bind. auto. Qed.

(** ** States *)

Lemma heap_nth (h : heap_t) b : (b < length h)%nat -> nth_error h b = Some (nth b h []).
Proof. intro H. apply nth_error_nth'. auto. Qed.

Lemma heap_read_ok h b i n :
  (b < length h)%nat -> 0 <= i -> 0 <= n -> i + n <= zlen (nth b h []) ->
  heap_read h b i n = Some (sub (nth b h []) i n).
Proof.
  intros. unfold heap_read. rewrite heap_nth by auto.
  replace (0 <=? i) with true by lia. replace (0 <=? n) with true by lia.
  replace (i + n <=? zlen (nth b h [])) with true by lia. reflexivity.
Qed.

Lemma heap_write_ok h b i d :
  (b < length h)%nat -> 0 <= i -> i + zlen d <= zlen (nth b h []) ->
  heap_write h b i d = Some (put h (Z.of_nat b) [put (nth b h []) i d]).
Proof.
  intros. unfold heap_write. rewrite heap_nth by auto.
  replace (0 <=? i) with true by lia.
  replace (i + zlen d <=? zlen (nth b h [])) with true by lia. simpl.
  unfold put at 1. rewrite Nat2Z.id. reflexivity.
Qed.

Lemma nth_put_heap (h : heap_t) b a b' :
  (b < length h)%nat ->
  nth b' (put h (Z.of_nat b) [a]) [] = if (b' =? b)%nat then a else nth b' h [].
Proof.
  intro Hb. rewrite <- !nth_default_eq. unfold nth_default.
  rewrite nth_error_put by (unfold zlen; lia). rewrite Nat2Z.id. simpl length.
  destruct (Nat.eqb_spec b' b).
  - subst. nat_cases; try lia. rewrite Nat.sub_diag. reflexivity.
  - nat_cases; try lia; auto.
Qed.

Lemma length_put_heap (h : heap_t) b a :
  (b < length h)%nat -> length (put h (Z.of_nat b) [a]) = length h.
Proof.
  intro. pose proof (put_length h (Z.of_nat b) [a]). unfold zlen in *. simpl in *. lia.
Qed.

Lemma St_eta s : s = mkSt (heap s) (bb s) (mu s) (outs s).
Proof. destruct s; auto. Qed.
Lemma set_heap_id s : set_heap s (heap s) = s.
Proof. destruct s; auto. Qed.
Lemma set_bb_id s : set_bb s (bb s) = s.
Proof. destruct s; auto. Qed.

Section with_wf.
Variable s : St.
Hypothesis W : WF s.

Let b := b_buf (bb s).

Lemma wf_blk : (s_blk b < length (heap s))%nat.
Proof. destruct W as [_ [H _] _ _ _ _]; auto. Qed.
Lemma wf_off0 : 0 <= s_off b.
Proof. destruct W as [_ (_ & H & _) _ _ _ _]; auto. Qed.
Lemma wf_len0 : 0 <= s_len b.
Proof. destruct W as [_ (_ & _ & H & _) _ _ _ _]; fold b in H; lia. Qed.
Lemma wf_lencap : s_len b <= s_cap b.
Proof. destruct W as [_ (_ & _ & H & _) _ _ _ _]; fold b in H; lia. Qed.
Lemma wf_in : s_off b + s_cap b <= zlen (nth (s_blk b) (heap s) []).
Proof. destruct W as [_ (_ & _ & _ & H) _ _ _ _]; auto. Qed.
Lemma wf_arr : zlen (nth (s_blk b) (heap s) []) <= maxAlloc.
Proof.
  destruct W as [H _ _ _ _ _]. unfold wf_heap in H. rewrite Forall_forall in H.
  apply H. apply nth_In. apply wf_blk.
Qed.
Lemma wf_arr_bytes : Forall is_byte (nth (s_blk b) (heap s) []).
Proof.
  destruct W as [H _ _ _ _ _]. unfold wf_heap in H. rewrite Forall_forall in H.
  apply H. apply nth_In. apply wf_blk.
Qed.
Lemma wf_cap_max : s_cap b <= maxAlloc.
Proof. pose proof wf_in. pose proof wf_arr. pose proof wf_off0. lia. Qed.

Lemma content_zlen : zlen (content s) = s_len b.
Proof.
  unfold content, slice_bytes. fold b. apply sub_length.
  apply wf_off0. apply wf_len0. pose proof wf_in. pose proof wf_lencap. lia.
Qed.

Lemma content_bytes : Forall is_byte (content s).
Proof. unfold content, slice_bytes. apply Forall_sub. apply wf_arr_bytes. Qed.

Lemma content_max : zlen (content s) <= maxAlloc.
Proof. rewrite content_zlen. pose proof wf_cap_max. pose proof wf_lencap. lia. Qed.

Lemma cap_is : b_cap (bb s) = zlen (content s).
Proof. rewrite content_zlen. destruct W; auto. Qed.
Lemma bcap_is : b_bcap (bb s) = 8 * zlen (content s).
Proof. rewrite content_zlen. destruct W; auto. Qed.

Lemma with_content_fields l :
  bb (with_content s l) = bb s /\ mu (with_content s l) = mu s /\ outs (with_content s l) = outs s.
Proof. repeat split. Qed.

Lemma with_content_WF l :
  zlen l = zlen (content s) -> Forall is_byte l -> WF (with_content s l).
Proof.
  intros HL HB. rewrite content_zlen in HL.
  pose proof wf_blk as Hb. pose proof wf_off0 as Ho. pose proof wf_in as Hi. pose proof wf_lencap as Hc.
  pose proof wf_len0 as H0.
  assert (PL : zlen (put (nth (s_blk b) (heap s) []) (s_off b) l) = zlen (nth (s_blk b) (heap s) [])).
  { apply put_length; lia. }
  destruct W as [Wh Ws W1 W2 W3 W4].
  constructor; auto.
  - unfold with_content; simpl. fold b. unfold wf_heap in *. apply Forall_put; auto.
    constructor; auto. split.
    + apply Forall_put; auto. apply wf_arr_bytes.
    + rewrite PL. apply wf_arr.
  - unfold with_content; simpl. fold b. unfold wf_slice in *. fold b in Ws.
    rewrite length_put_heap by auto. rewrite nth_put_heap by auto.
    rewrite Nat.eqb_refl, PL. auto.
Qed.

Lemma content_with_content l :
  zlen l = zlen (content s) -> content (with_content s l) = l.
Proof.
  intro HL. rewrite content_zlen in HL.
  pose proof wf_blk. pose proof wf_off0. pose proof wf_in. pose proof wf_lencap.
  unfold content at 1, slice_bytes, with_content; simpl. fold b.
  rewrite nth_put_heap by auto. rewrite Nat.eqb_refl. apply sub_put_same; lia.
Qed.

Lemma with_content_twice l l' :
  zlen l = zlen (content s) -> zlen l' = zlen (content s) ->
  with_content (with_content s l) l' = with_content s l'.
Proof.
  intros HL HL'. rewrite content_zlen in HL, HL'.
  pose proof wf_blk. pose proof wf_off0. pose proof wf_in. pose proof wf_lencap.
  unfold with_content; simpl. fold b. unfold set_heap; simpl. f_equal.
  rewrite nth_put_heap by auto. rewrite Nat.eqb_refl.
  rewrite (put_put_same (nth (s_blk b) (heap s) [])) by lia.
  apply put_put_same; unfold zlen; simpl; lia.
Qed.

Lemma with_content_same : with_content s (content s) = s.
Proof.
  pose proof wf_blk as Hb. pose proof wf_off0. pose proof wf_in. pose proof wf_lencap. pose proof wf_len0.
  unfold with_content, content, slice_bytes. fold b.
  rewrite put_sub_same by lia.
  replace (put (heap s) (Z.of_nat (s_blk b)) [nth (s_blk b) (heap s) []]) with (heap s).
  apply set_heap_id.
  apply nth_error_ext; intro j. rewrite nth_error_put by (unfold zlen; lia). rewrite Nat2Z.id. simpl length.
  nat_cases; auto. replace j with (s_blk b) by lia. rewrite Nat.sub_diag. simpl. apply heap_nth. auto.
Qed.

(** ** Reading and writing the buffer *)

Lemma run_buf_get i :
  0 <= i < zlen (content s) -> run (buf_get i) s = Done (byte_at (content s) i) s.
Proof.
  intro Hi. pose proof content_zlen as CL. pose proof wf_blk. pose proof wf_off0. pose proof wf_in. pose proof wf_lencap.
  unfold buf_get, get_buf, slice_get. simpl. fold b.
  replace ((0 <=? i) && (i <? s_len b)) with true by lia. simpl.
  rewrite heap_read_ok by (auto; lia). rewrite sub_one by lia.
  f_equal. unfold content, slice_bytes. fold b. rewrite byte_at_sub by lia. reflexivity.
Qed.

Lemma run_buf_get_oob i :
  ~ (0 <= i < zlen (content s)) ->
  run (buf_get i) s = Panicked (RuntimeError IndexOutOfRange) s.
Proof.
  intro Hi. rewrite content_zlen in Hi.
  unfold buf_get, get_buf, slice_get. simpl. fold b.
  replace ((0 <=? i) && (i <? s_len b)) with false by lia. reflexivity.
Qed.

Lemma run_buf_set i v :
  0 <= i < zlen (content s) ->
  run (buf_set i v) s = Done tt (with_content s (put (content s) i [v])).
Proof.
  intro Hi. pose proof content_zlen as CL. pose proof wf_blk. pose proof wf_off0. pose proof wf_in.
  pose proof wf_lencap. pose proof wf_len0.
  unfold buf_set, get_buf, slice_set. simpl. fold b.
  replace ((0 <=? i) && (i <? s_len b)) with true by lia. simpl.
  assert (E1 : zlen [v] = 1) by reflexivity.
  rewrite heap_write_ok by (auto; lia).
  f_equal. unfold with_content. fold b. f_equal. f_equal. f_equal.
  unfold content, slice_bytes. fold b. rewrite put_window by lia. reflexivity.
Qed.

Lemma run_buf_set_oob i v :
  ~ (0 <= i < zlen (content s)) ->
  run (buf_set i v) s = Panicked (RuntimeError IndexOutOfRange) s.
Proof.
  intro Hi. rewrite content_zlen in Hi.
  unfold buf_set, get_buf, slice_set. simpl. fold b.
  replace ((0 <=? i) && (i <? s_len b)) with false by lia. reflexivity.
Qed.

End with_wf.

(** ** Loops *)

(** Loop invariant rule for the goto loop: [inv i acc s] holds before iteration
    [i]; the loop runs [max 1 n] times. *)
Lemma dw_inv {S} (inv : Z -> S -> St -> Prop) (body : Z -> S -> prog S) n :
  n < 2 ^ 63 ->
  (forall i acc s, 0 <= i < Z.max 1 n -> inv i acc s ->
     exists acc' s', run (body i acc) s = Done acc' s' /\ inv (i + 1) acc' s') ->
  forall fuel i acc s,
    0 <= i < Z.max 1 n -> Z.max 1 n - i <= Z.of_nat fuel -> inv i acc s ->
    exists acc' s', run (dw fuel n body i acc) s = Done acc' s' /\ inv (Z.max 1 n) acc' s'.
Proof.
  intros Hn Hb. induction fuel as [|f IH]; intros i acc s Hi Hf Hinv.
  - lia.
  - simpl. destruct (Hb i acc s Hi Hinv) as (acc' & s' & Hr & Hinv').
    rewrite run_bind, Hr.
    assert (E : i +! 1 = i + 1) by (apply add64_id; unfold is_i64; lia).
    rewrite E. destruct (Z.ltb_spec (i + 1) n).
    + apply IH; auto; lia.
    + exists acc', s'. split; auto. replace (Z.max 1 n) with (i + 1) by lia. auto.
Qed.

Lemma goto_loop_inv {S} (inv : Z -> S -> St -> Prop) (body : Z -> S -> prog S) n acc s :
  n < 2 ^ 63 ->
  (forall i acc s, 0 <= i < Z.max 1 n -> inv i acc s ->
     exists acc' s', run (body i acc) s = Done acc' s' /\ inv (i + 1) acc' s') ->
  inv 0 acc s ->
  exists acc' s', run (goto_loop n body acc) s = Done acc' s' /\ inv (Z.max 1 n) acc' s'.
Proof.
  intros Hn Hb H0. unfold goto_loop. eapply dw_inv; eauto; lia.
Qed.

(** The same when some iteration [m] panics. *)
Lemma dw_panic {S} (inv : Z -> S -> St -> Prop) (body : Z -> S -> prog S) n m e (Q : St -> Prop) :
  n < 2 ^ 63 -> 0 <= m < Z.max 1 n ->
  (forall i acc s, 0 <= i < m -> inv i acc s ->
     exists acc' s', run (body i acc) s = Done acc' s' /\ inv (i + 1) acc' s') ->
  (forall acc s, inv m acc s -> exists s', run (body m acc) s = Panicked e s' /\ Q s') ->
  forall fuel i acc s,
    0 <= i <= m -> Z.max 1 n - i <= Z.of_nat fuel -> inv i acc s ->
    exists s', run (dw fuel n body i acc) s = Panicked e s' /\ Q s'.
Proof.
  intros Hn Hm Hb Hp. induction fuel as [|f IH]; intros i acc s Hi Hf Hinv.
  - lia.
  - simpl. destruct (Z.eq_dec i m) as [->|Hne].
    + destruct (Hp acc s Hinv) as (s' & Hr & HQ). exists s'. rewrite run_bind, Hr. auto.
    + destruct (Hb i acc s ltac:(lia) Hinv) as (acc' & s' & Hr & Hinv').
      rewrite run_bind, Hr.
      assert (E : i +! 1 = i + 1) by (apply add64_id; unfold is_i64; lia).
      rewrite E. replace (i + 1 <? n) with true by lia.
      apply IH; auto; lia.
Qed.

Lemma goto_loop_panic {S} (inv : Z -> S -> St -> Prop) (body : Z -> S -> prog S) n m e (Q : St -> Prop) acc s :
  n < 2 ^ 63 -> 0 <= m < Z.max 1 n ->
  (forall i acc s, 0 <= i < m -> inv i acc s ->
     exists acc' s', run (body i acc) s = Done acc' s' /\ inv (i + 1) acc' s') ->
  (forall acc s, inv m acc s -> exists s', run (body m acc) s = Panicked e s' /\ Q s') ->
  inv 0 acc s ->
  exists s', run (goto_loop n body acc) s = Panicked e s' /\ Q s'.
Proof.
  intros. unfold goto_loop. eapply dw_panic; eauto; lia.
Qed.

(** Functional forms: when iteration [i] maps the pair to [f i acc s]. *)
Lemma fl_inv {S} (inv : Z -> S -> St -> Prop) (body : Z -> S -> prog S) n :
  n < 2 ^ 63 ->
  (forall i acc s, 0 <= i < n -> inv i acc s ->
     exists acc' s', run (body i acc) s = Done acc' s' /\ inv (i + 1) acc' s') ->
  forall fuel i acc s,
    0 <= i <= Z.max 0 n -> n - i <= Z.of_nat fuel -> inv i acc s ->
    exists acc' s', run (fl fuel n body i acc) s = Done acc' s' /\ inv (Z.max 0 n) acc' s'.
Proof.
  intros Hn Hb. induction fuel as [|f IH]; intros i acc s Hi Hf Hinv.
  - simpl. replace (i <? n) with false by lia. exists acc, s. split; auto.
    replace (Z.max 0 n) with i by lia. auto.
  - simpl. destruct (Z.ltb_spec i n).
    + destruct (Hb i acc s ltac:(lia) Hinv) as (acc' & s' & Hr & Hinv').
      rewrite run_bind, Hr.
      assert (E : i +! 1 = i + 1) by (apply add64_id; unfold is_i64; lia).
      rewrite E. apply IH; auto; lia.
    + exists acc, s. split; auto. replace (Z.max 0 n) with i by lia. auto.
Qed.

Lemma for_loop_inv {S} (inv : Z -> S -> St -> Prop) (body : Z -> S -> prog S) n acc s :
  n < 2 ^ 63 ->
  (forall i acc s, 0 <= i < n -> inv i acc s ->
     exists acc' s', run (body i acc) s = Done acc' s' /\ inv (i + 1) acc' s') ->
  inv 0 acc s ->
  exists acc' s', run (for_loop n body acc) s = Done acc' s' /\ inv (Z.max 0 n) acc' s'.
Proof.
  intros Hn Hb H0. unfold for_loop. eapply fl_inv; eauto; lia.
Qed.

(** A loop whose body may also fail. *)
Lemma dw_any {S} (inv : Z -> S -> St -> Prop) (Q : err -> St -> Prop) (body : Z -> S -> prog S) n :
  n < 2 ^ 63 ->
  (forall i acc s, 0 <= i < Z.max 1 n -> inv i acc s ->
     (exists acc' s', run (body i acc) s = Done acc' s' /\ inv (i + 1) acc' s') \/
     (exists e s', run (body i acc) s = Panicked e s' /\ Q e s')) ->
  forall fuel i acc s,
    0 <= i < Z.max 1 n -> Z.max 1 n - i <= Z.of_nat fuel -> inv i acc s ->
    (exists acc' s', run (dw fuel n body i acc) s = Done acc' s' /\ inv (Z.max 1 n) acc' s') \/
    (exists e s', run (dw fuel n body i acc) s = Panicked e s' /\ Q e s').
Proof.
  intros Hn Hb. induction fuel as [|f IH]; intros i acc s Hi Hf Hinv.
  - lia.
  - simpl. destruct (Hb i acc s Hi Hinv) as [(acc' & s' & Hr & Hinv')|(e & s' & Hr & HQ)].
    + rewrite run_bind, Hr.
      assert (E : i +! 1 = i + 1) by (apply add64_id; unfold is_i64; lia).
      rewrite E. destruct (Z.ltb_spec (i + 1) n).
      * apply IH; auto; lia.
      * left. exists acc', s'. split; auto. replace (Z.max 1 n) with (i + 1) by lia. auto.
    + right. exists e, s'. rewrite run_bind, Hr. auto.
Qed.

Lemma goto_loop_any {S} (inv : Z -> S -> St -> Prop) (Q : err -> St -> Prop) (body : Z -> S -> prog S) n acc s :
  n < 2 ^ 63 ->
  (forall i acc s, 0 <= i < Z.max 1 n -> inv i acc s ->
     (exists acc' s', run (body i acc) s = Done acc' s' /\ inv (i + 1) acc' s') \/
     (exists e s', run (body i acc) s = Panicked e s' /\ Q e s')) ->
  inv 0 acc s ->
  (exists acc' s', run (goto_loop n body acc) s = Done acc' s' /\ inv (Z.max 1 n) acc' s') \/
  (exists e s', run (goto_loop n body acc) s = Panicked e s' /\ Q e s').
Proof. intros Hn Hb H0. apply (dw_any inv Q body n Hn Hb); auto; lia. Qed.
