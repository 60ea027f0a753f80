(** * NewWork: the accesses of the constructors. *)
From Coq Require Import ZArith List Bool Lia ZifyBool.
From Verif Require Import GoSem Errors Spec GoLemmas Conv IsolateSpec WorkSpec Work Bound.
From Verif Require V1Buffer V2Buffer V3Buffer V1Mini V2Mini V3Mini Props_Work.
Import ListNotations.
Open Scope Z_scope.
Open Scope list_scope.

(** The bytes of all slices. *)
Fixpoint lengths (l : list slice) : Z := match l with [] => 0 | d :: r => s_len d + lengths r end.
Lemma lengths_nonneg l : Forall (fun d => 0 <= s_len d) l -> 0 <= lengths l.
Proof. induction 1; cbn [lengths]; lia. Qed.

(** What a reallocation adds to the work that later appends have to pay for. *)
Definition debt (d : slice) : Z := 4 * Z.max 0 (5 * s_len d - 4 * s_cap d).

Section Append.
Variables (pol : Z -> Z -> Z) (c : Z).
Hypothesis pol_sensible : sensible c pol.
Hypothesis c_nonneg : 0 <= c.

(** One append, with what follows. *)
Lemma append_work (x : slice) (rest : unit -> prog unit) (K : Z) s :
  let d := b_buf (bb s) in
  0 <= s_len d <= s_cap d -> 0 <= s_len x -> 3 * (s_len d + s_len x) + c <= maxAlloc -> 0 <= K ->
  (forall s', let d' := b_buf (bb s') in 0 <= s_len d' <= s_cap d' -> s_len d' = s_len d + s_len x -> accesses (rest tt) s' <= K + debt d') ->
  accesses (bind (bind get_buf (fun b => bind (append pol b x) (fun y => set_buf y))) rest) s <= 6 + c + 24 * s_len x + K + debt d.
Proof.
  intros d D X M K0 R. cbn [bind get_buf accesses]. fold d. unfold append.
  assert (N0 : 0 <= debt d) by (unfold debt; lia).
  destruct (Z.leb_spec (s_len d + s_len x) (s_cap d)) as [F|F].
  - cbn [bind set_buf accesses]. destruct (heap_read _ _ _ _); [|lia]. destruct (heap_write _ _ _ _) as [h|]; [|lia].
    match goal with |- context [accesses (rest tt) ?s'] => specialize (R s'); set (A := accesses (rest tt) s') in * end. cbn in R. specialize (R ltac:(lia) eq_refl).
    unfold debt in *. cbn [s_len s_cap] in *. lia.
  - replace (s_len d + s_len x <=? maxAlloc) with true by lia.
    destruct (pol_sensible (s_cap d) (s_len d + s_len x)) as [P1 P2]; [lia|lia|].
    assert (NC : new_cap pol (s_cap d) (s_len d + s_len x) = Z.max (s_len d + s_len x) (pol (s_cap d) (s_len d + s_len x))) by (unfold new_cap; lia).
    rewrite NC in *. set (q := Z.max _ _) in *.
    assert (Q1 : s_len d + s_len x <= q) by lia. assert (Q2 : 5 * s_cap d <= 4 * q) by lia. assert (Q3 : q <= 3 * (s_len d + s_len x) + c) by lia. clearbody q.
    cbn [bind set_buf accesses].
    assert (Q : zlen (zeros q) = q) by (unfold zlen, zeros; rewrite repeat_length; lia). rewrite Q.
    destruct (heap_read _ _ _ _) as [l1|]; [|unfold debt in *; lia]. destruct (heap_write _ _ _ _) as [h1|]; [|unfold debt in *; lia].
    destruct (heap_read _ _ _ _) as [l2|]; [|unfold debt in *; lia]. destruct (heap_write _ _ _ _) as [h2|]; [|unfold debt in *; lia].
    match goal with |- context [accesses (rest tt) ?s'] => specialize (R s'); set (A := accesses (rest tt) s') in * end. cbn in R. specialize (R ltac:(lia) eq_refl).
    unfold debt in *. cbn [s_len s_cap] in *. lia.
Qed.

Variable slices : list slice.
Hypothesis few : zlen slices < 2 ^ 63.
Hypothesis sizes : Forall (fun d => 0 <= s_len d) slices.
Definition step_of : Z -> unit -> prog unit :=
  fun i _ => bind get_buf (fun b => bind (append pol b (nth (Z.to_nat i) slices b)) (fun y => set_buf y)).

Lemma accesses_assoc {A B C} (p : prog A) (f : A -> prog B) (g : B -> prog C) : forall s,
  accesses (bind (bind p f) g) s = accesses (bind p (fun x => bind (f x) g)) s.
Proof.
  conv_cases p IH; intros s; cbn [bind accesses]; auto; try (now rewrite IH);
    repeat match goal with |- context [match ?x with _ => _ end] => destruct x end; try reflexivity; now rewrite IH.
Qed.

Variables (fin : unit -> prog unit) (k : Z).
Hypothesis fin_cost : forall s, accesses (fin tt) s <= k.
Hypothesis k_nonneg : 0 <= k.
Hypothesis room_for_all : 3 * lengths slices + c <= maxAlloc.

Lemma lengths_split i : (i < length slices)%nat -> forall d,
  lengths (skipn i slices) = s_len (nth i slices d) + lengths (skipn (S i) slices).
Proof.
  clear. revert i. induction slices as [|y r IH]; intros [|i] L d; cbn [length] in L; try lia; [reflexivity|].
  cbn [skipn nth]. apply IH. lia.
Qed.
Lemma lengths_later i : 0 <= lengths (skipn i slices).
Proof. apply lengths_nonneg, Forall_forall. intros d I. rewrite Forall_forall in sizes. apply sizes. rewrite <- (firstn_skipn i). apply in_or_app. now right. Qed.

Definition all_work (m : nat) : Z := k + (6 + c) * Z.of_nat (length slices - m) + 24 * lengths (skipn m slices).
Lemma all_work_step m d : (m < length slices)%nat ->
  6 + c + 24 * s_len (nth m slices d) + all_work (S m) = all_work m.
Proof.
  intro L. unfold all_work. rewrite (lengths_split m L d).
  replace (Z.of_nat (length slices - m)) with (1 + Z.of_nat (length slices - S m)) by lia. lia.
Qed.
Lemma all_work_nonneg m : 0 <= all_work m.
Proof. unfold all_work. pose proof (lengths_later m). nia. Qed.
Lemma size_at m d : (m < length slices)%nat -> 0 <= s_len (nth m slices d).
Proof. intro L. rewrite Forall_forall in sizes. apply sizes, nth_In, L. Qed.

Lemma goto_work f : forall m s, let d := b_buf (bb s) in
  (m < length slices)%nat -> 0 <= s_len d <= s_cap d -> s_len d + lengths (skipn m slices) = lengths slices ->
  accesses (bind (dw f (zlen slices) step_of (Z.of_nat m) tt) fin) s <= all_work m + debt d.
Proof.
  induction f as [|f IH]; intros m s d L D T; [cbn [dw bind accesses]; pose proof (all_work_nonneg m); unfold debt; lia|].
  cbn [dw]. rewrite accesses_assoc. unfold step_of at 1. rewrite Nat2Z.id.
  rewrite <- (all_work_step m (b_buf (bb s)) L). pose proof (lengths_later (S m)). pose proof (lengths_split m L (b_buf (bb s))) as SP.
  match goal with |- accesses (bind _ ?r) s <= _ => set (rest := r) end.
  enough (E : accesses (bind (bind get_buf (fun b => bind (append pol b (nth m slices (b_buf (bb s)))) (fun y => set_buf y))) rest) s
    <= 6 + c + 24 * s_len (nth m slices (b_buf (bb s))) + all_work (S m) + debt d) by exact E.
  apply append_work; auto using all_work_nonneg, size_at.
  - unfold d in *. lia.
  - intros s' d' D' E'. unfold rest. cbv zeta.
    assert (W : Z.of_nat m +! 1 = Z.of_nat (S m)). { unfold add64. rewrite wrap64_id; [lia|]. unfold is_i64, zlen in *. lia. }
    rewrite W. destruct (Z.ltb_spec (Z.of_nat (S m)) (zlen slices)) as [Q|Q].
    + apply IH; auto; [unfold zlen in Q; lia|]. fold d'. unfold d in *. lia.
    + cbn [bind]. pose proof (fin_cost s'). unfold all_work, debt. pose proof (lengths_later (S m)). nia.
Qed.
Lemma for_work f : forall m s, let d := b_buf (bb s) in
  (m <= length slices)%nat -> 0 <= s_len d <= s_cap d -> s_len d + lengths (skipn m slices) = lengths slices ->
  accesses (bind (fl f (zlen slices) step_of (Z.of_nat m) tt) fin) s <= all_work m + debt d.
Proof.
  induction f as [|f IH]; intros m s d L D T; cbn [fl]; destruct (Z.ltb_spec (Z.of_nat m) (zlen slices)) as [Q|Q]; cbn [bind].
  1: cbn [accesses]; pose proof (all_work_nonneg m); unfold debt; lia.
  1, 3: pose proof (fin_cost s); unfold all_work, debt; pose proof (lengths_later m); nia.
  assert (L' : (m < length slices)%nat) by (unfold zlen in Q; lia).
  rewrite accesses_assoc. unfold step_of at 1. rewrite Nat2Z.id.
  rewrite <- (all_work_step m (b_buf (bb s)) L'). pose proof (lengths_later (S m)). pose proof (lengths_split m L' (b_buf (bb s))) as SP.
  match goal with |- accesses (bind _ ?r) s <= _ => set (rest := r) end.
  enough (E : accesses (bind (bind get_buf (fun b => bind (append pol b (nth m slices (b_buf (bb s)))) (fun y => set_buf y))) rest) s
    <= 6 + c + 24 * s_len (nth m slices (b_buf (bb s))) + all_work (S m) + debt d) by exact E.
  apply append_work; auto using all_work_nonneg, size_at.
  - unfold d in *. lia.
  - intros s' d' D' E'. unfold rest. cbv zeta.
    assert (W : Z.of_nat m +! 1 = Z.of_nat (S m)). { unfold add64. rewrite wrap64_id; [lia|]. unfold is_i64, zlen in *. lia. }
    rewrite W. apply IH; auto. fold d'. unfold d in *. lia.
Qed.
End Append.
