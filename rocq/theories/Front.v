(** * Front: how to show that a hand-written model is what the text means.

    [norm] computes the interpreter of GoEval.v on the text of a method; what is
    left is a tree of the same accesses as in the model; [go] walks both. *)
From Coq Require Import ZArith List Bool String Lia.
From Verif Require Import GoSem GoLex GoParse AstV3 AstV2 AstV1 GoEval Conv.
From Verif Require GoBinary V1Buffer.
Import ListNotations.
Open Scope Z_scope.
Open Scope go_scope.

(** The six types: [Buffer] and [MiniBuffer] of v1, v2 and v3. *)
Inductive part : Set := B1 | M1 | B2 | M2 | B3 | M3.
(** The files with the methods of the type and what they use. *)
Definition sources (p : part) : list gdecl :=
  match p with
  | B1 => v1_buffer_ast ++ v1_errors_ast ++ v1_utils_ast ++ v1_crunch_ast
  | M1 => v1_minibuf_ast ++ v1_errors_ast ++ v1_utils_ast ++ v1_crunch_ast
  | B2 => v2_buffer_ast ++ v2_errors_ast ++ v2_utils_ast
  | M2 => v2_minibuf_ast ++ v2_errors_ast ++ v2_utils_ast
  | B3 => buffer_ast ++ errors_ast
  | M3 => minibuf_ast ++ errors_ast
  end%list.
(** What the text of [p] makes of [q]. *)
Definition D (p : part) (pol : Z -> Z -> Z) (n : nat) (q : query) : prog (env * signal) := den (sources p) pol n q.
Lemma D_S p pol m q : D p pol (S m) q = step (sources p) pol (D p pol m) q.
Proof. reflexivity. Qed.
Global Opaque D.

(** A call returns the value [f a]. *)
Definition returns {A} (f : A -> val) (a : A) (r : env * signal) : Prop := r = ([], Return (f a)).
Definition unit_ (_ : unit) : val := VUnit.
Definition self_ (_ : unit) : val := VSelf.

(** The model [T] is what the text of [p] makes of the call [f(args)]. *)
Definition text_of (p : part) (pol : Z -> Z -> Z) {A} (f : string) (args : list val) (res : A -> val) (T : prog A) : Prop :=
  conv (returns res) T (fun n => D p pol n (QCall f args)).

Lemma conv_enter {A} (R : A -> env * signal -> Prop) T p pol q :
  conv R T (fun m => step (sources p) pol (D p pol m) q) -> conv R T (fun m => D p pol m q).
Proof.
  intros H. apply conv_S. apply (conv_ext _ _ (fun m => step (sources p) pol (D p pol m) q) _ 0); [|exact H].
  intros. symmetry. apply D_S.
Qed.

(** [goto] loops.  The variables in round [i] are [inv i x acc], where [acc] is
    the accumulator of the model and [x] what the model does not keep. *)
Definition ends {S X} (fin : Z -> X -> S -> env * signal) (acc : S) (r : env * signal) : Prop := exists i x, r = fin i x acc.
(** The index has not overflowed. *)
Definition in_range (n i : Z) : Prop := n < 2 ^ 63 -> 0 <= i /\ (i = 0 \/ i < n).
Lemma in_range_next n i : in_range n i -> i +! 1 <? n = true -> in_range n (i +! 1).
Proof.
  intros H Hlt Hn. destruct (H Hn) as [H0 H1]. apply Z.ltb_lt in Hlt.
  change (2 ^ 63) with 9223372036854775808 in Hn.
  assert (E : i +! 1 = i + 1).
  { unfold add64, wrap64. change (2 ^ 63) with 9223372036854775808. change (2 ^ 64) with 18446744073709551616.
    rewrite Z.mod_small; lia. }
  rewrite E in *. lia.
Qed.
Lemma conv_goto {S X} p pol (fin : Z -> X -> S -> env * signal) (inv : Z -> X -> S -> env) (x : X) f l d rest n
    (body : Z -> S -> prog S) :
  (forall i x acc (rec : S -> prog S), in_range n i ->
     (forall x' acc', conv (ends fin) (rec acc') (fun m => D p pol m (QLabel f l d rest (inv (i +! 1) x' acc')))) ->
     conv (ends fin) (bind (body i acc) (fun acc' => if i +! 1 <? n then rec acc' else Ret acc'))
       (fun m => step (sources p) pol (D p pol m) (QLabel f l d rest (inv i x acc)))) ->
  forall acc, conv (ends fin) (goto_loop n body acc) (fun m => D p pol m (QLabel f l d rest (inv 0 x acc))).
Proof.
  intros H acc. unfold goto_loop. generalize (Datatypes.S (Z.to_nat n)) as fuel. intros fuel.
  revert x acc. assert (in_range n 0) as HR by (intros _; lia). revert HR. generalize 0 as i.
  induction fuel as [|fuel IH]; intros i HR x acc; [exact I|].
  cbn [dw]. apply conv_enter.
  assert (E : forall acc', (if i +! 1 <? n then dw fuel n body (i +! 1) acc' else Ret acc')
                         = if i +! 1 <? n then (if i +! 1 <? n then dw fuel n body (i +! 1) acc' else OutOfFuel) else Ret acc')
    by (intros; destruct (i +! 1 <? n); reflexivity).
  pose proof (H i x acc (fun acc' => if i +! 1 <? n then dw fuel n body (i +! 1) acc' else OutOfFuel) HR) as H1.
  cbv zeta in *. revert H1. destruct (i +! 1 <? n) eqn:Hlt; intros H1; apply H1; intros; [|exact I].
  apply IH. exact (in_range_next _ _ HR Hlt).
Qed.
Definition for_range (n i : Z) : Prop := n < 2 ^ 63 -> 0 <= i.
(** [for] loops: [fl] with the condition, the body and [i++] of the text. *)
Lemma conv_for {S X} p pol (fin : Z -> X -> S -> env * signal) (q : Z -> X -> S -> query) (x : X) n (body : Z -> S -> prog S) :
  (forall i x acc (rec : S -> prog S), for_range n i ->
     (forall x' acc', conv (ends fin) (rec acc') (fun m => D p pol m (q (i +! 1) x' acc'))) ->
     conv (ends fin) (if i <? n then bind (body i acc) rec else Ret acc)
       (fun m => step (sources p) pol (D p pol m) (q i x acc))) ->
  forall acc, conv (ends fin) (for_loop n body acc) (fun m => D p pol m (q 0 x acc)).
Proof.
  intros H acc. unfold for_loop. generalize (Z.to_nat n) as fuel. intros fuel.
  revert x acc. assert (for_range n 0) as HR by (intros ?; lia). revert HR. generalize 0 as i.
  induction fuel as [|fuel IH]; intros i HR x acc; cbn [fl]; apply conv_enter.
  - pose proof (H i x acc (fun _ => OutOfFuel) HR) as H1.
    destruct (i <? n); [exact I|]. apply H1. intros; exact I.
  - destruct (i <? n) eqn:E.
    + pose proof (H i x acc (fun acc' => fl fuel n body (i +! 1) acc') HR) as H1. rewrite E in H1. apply H1.
      intros x' acc'. apply IH. intros Hn. specialize (HR Hn). apply Z.ltb_lt in E.
      change (2 ^ 63) with 9223372036854775808 in Hn.
      unfold add64, wrap64. change (2 ^ 63) with 9223372036854775808. change (2 ^ 64) with 18446744073709551616.
      rewrite Z.mod_small; lia.
    + pose proof (H i x acc (fun acc' => OutOfFuel) HR) as H1. rewrite E in H1. apply H1. intros; exact I.
Qed.

(** Calls. *)
Lemma conv_int p pol f args t T :
  text_of p pol f args (VInt t) T -> conv eq T (fun n => bind (D p pol n (QCall f args)) (int_result t)).
Proof.
  intros H. apply conv_ret_r. apply (conv_bind _ _ _ _ _ (fun _ => int_result t) H). intros a b ->.
  apply conv_ext with (P := fun _ => Ret a) (N := 0%nat); [|apply conv_ret; reflexivity].
  intros. destruct t; reflexivity.
Qed.
Lemma conv_ints p pol f args t T :
  text_of p pol f args (VInts t) T -> conv eq T (fun n => bind (D p pol n (QCall f args)) (ints_result t)).
Proof.
  intros H. apply conv_ret_r. apply (conv_bind _ _ _ _ _ (fun _ => ints_result t) H). intros a b ->.
  apply conv_ext with (P := fun _ => Ret a) (N := 0%nat); [|apply conv_ret; reflexivity].
  intros. destruct t; reflexivity.
Qed.
Lemma conv_bytes p pol f args T :
  text_of p pol f args VBytes T -> conv eq T (fun n => bind (D p pol n (QCall f args)) bytes_result).
Proof.
  intros H. apply conv_ret_r. apply (conv_bind _ _ _ _ _ (fun _ => bytes_result) H). intros a b ->.
  apply conv_ret; reflexivity.
Qed.
Lemma conv_unit p pol f args T :
  text_of p pol f args unit_ T -> conv eq T (fun n => bind (D p pol n (QCall f args)) unit_result).
Proof.
  intros H. apply conv_ret_r. apply (conv_bind _ _ _ _ _ (fun _ => unit_result) H). intros [] b ->.
  apply conv_ret; reflexivity.
Qed.
Lemma conv_self p pol f args T :
  text_of p pol f args self_ T -> conv eq T (fun n => bind (D p pol n (QCall f args)) self_result).
Proof.
  intros H. apply conv_ret_r. apply (conv_bind _ _ _ _ _ (fun _ => self_result) H). intros [] b ->.
  apply conv_ret; reflexivity.
Qed.
(** The result is an interface{} that holds [g a]. *)
Lemma conv_any {A C D} (R : C -> D -> Prop) p pol f args res (g : A -> val) T F G :
  text_of p pol f args res T -> (forall a, res a = VAny (g a)) -> (forall a, conv R (F a) (fun n => G n (g a))) ->
  conv R (bind T F) (fun n => bind (bind (Front.D p pol n (QCall f args)) any_result) (G n)).
Proof.
  intros H Hr HF.
  assert (C1 : conv (fun a b => b = g a) T (fun n => bind (Front.D p pol n (QCall f args)) any_result)).
  { apply conv_ret_r. apply (conv_bind _ _ _ _ _ (fun _ => any_result) H).
    intros a b ->. rewrite Hr. apply conv_ret. reflexivity. }
  apply (conv_bind _ R F T _ G C1). intros a b ->. apply HF.
Qed.
Lemma conv_any_last {A D} (R : A -> D -> Prop) p pol f args res (g : A -> val) T G :
  text_of p pol f args res T -> (forall a, res a = VAny (g a)) -> (forall a, conv R (Ret a) (fun n => G n (g a))) ->
  conv R T (fun n => bind (bind (Front.D p pol n (QCall f args)) any_result) (G n)).
Proof. intros H Hr HF. apply conv_ret_r. apply (conv_any R p pol f args res g T); assumption. Qed.
(** v1's interface{} values. *)
Definition dyn (x : V1Buffer.idata) : val :=
  match x with
  | V1Buffer.IBytes s => VBytes s
  | V1Buffer.IU16 l => VInts U16 l | V1Buffer.IU32 l => VInts U32 l | V1Buffer.IU64 l => VInts U64 l
  | V1Buffer.IOther => VUnit
  end.
Definition any_ (x : V1Buffer.idata) : val := VAny (dyn x).
Lemma conv_then {A C D} (R : C -> D -> Prop) (T : prog A) P f g :
  conv eq T P -> (forall a, conv R (f a) (fun n => g n a)) ->
  conv R (bind T f) (fun n => bind (P n) (g n)).
Proof. intros H1 H2. apply (conv_bind eq R f T P g H1). intros a b ->. apply H2. Qed.
Lemma conv_then_leaves {A C D} (R : C -> D -> Prop) (Q : A -> Prop) (T : prog A) P f g :
  leaves Q T -> conv eq T P -> (forall a, Q a -> conv R (f a) (fun n => g n a)) ->
  conv R (bind T f) (fun n => bind (P n) (g n)).
Proof.
  intros HQ H1 H2. apply (conv_bind _ R f T P g (conv_leaves _ Q _ _ HQ H1)). intros a b [-> Ha]. apply H2. exact Ha.
Qed.
(** The last call of the model. *)
Lemma conv_last {A D} (R : A -> D -> Prop) (T : prog A) P g :
  conv eq T P -> (forall a, conv R (Ret a) (fun n => g n a)) -> conv R T (fun n => bind (P n) (g n)).
Proof. intros H1 H2. apply conv_ret_r. apply conv_then; assumption. Qed.
(** The same for loops. *)
Lemma conv_loop {S X C D} (R : C -> D -> Prop) (fin : Z -> X -> S -> env * signal) (T : prog S) P f g :
  conv (ends fin) T P -> (forall i x a, conv R (f a) (fun n => g n (fin i x a))) ->
  conv R (bind T f) (fun n => bind (P n) (g n)).
Proof. intros H1 H2. apply (conv_bind _ R f T P g H1). intros a b (i & x & ->). apply H2. Qed.
Lemma conv_loop_last {S X D} (R : S -> D -> Prop) (fin : Z -> X -> S -> env * signal) (T : prog S) P g :
  conv (ends fin) T P -> (forall i x a, conv R (Ret a) (fun n => g n (fin i x a))) -> conv R T (fun n => bind (P n) (g n)).
Proof. intros H1 H2. apply conv_ret_r. apply (conv_loop R fin); assumption. Qed.
Lemma conv_again {S D} (R : S -> D -> Prop) (T : prog S) P :
  conv R T P -> conv R T (fun n => bind (P n) (fun x => Ret x)).
Proof. intros H. apply conv_ret_r. apply (conv_bind R R _ _ _ (fun _ x => Ret x) H). intros. apply conv_ret. assumption. Qed.

Lemma uconv_bit x : uconv 64 (Z.land x 1) = Z.land x 1.
Proof.
  unfold uconv. apply Z.mod_small. change 1 with (Z.ones 1). rewrite Z.land_ones by lia.
  pose proof (Z.mod_pos_bound x (2 ^ 1) ltac:(lia)) as H. change (2 ^ 1) with 2 in *. change (2 ^ 64) with 18446744073709551616. lia.
Qed.

Lemma conv_getouts {A C} (R : A -> C -> Prop) f g :
  (forall o, conv R (f o) (fun n => g n o)) -> conv R (GetOuts f) (fun n => GetOuts (g n)).
Proof. exact (conv_same R (GetOuts (fun o => Ret o)) f g). Qed.
Lemma conv_setouts {A C} (R : A -> C -> Prop) o f g :
  conv R f (fun n => g n) -> conv R (SetOuts o f) (fun n => SetOuts o (g n)).
Proof. intros H. apply (conv_same R (SetOuts o (Ret tt)) (fun _ => f) (fun n _ => g n)). intros _. exact H. Qed.

Lemma conv_lock {A C} (R : A -> C -> Prop) f g :
  conv R f (fun n => g n) -> conv R (Lock f) (fun n => Lock (g n)).
Proof. intros H. apply (conv_same R (Lock (Ret tt)) (fun _ => f) (fun n _ => g n)). intros _. exact H. Qed.
Lemma conv_unlock {A C} (R : A -> C -> Prop) f g :
  conv R f (fun n => g n) -> conv R (Unlock f) (fun n => Unlock (g n)).
Proof. intros H. apply (conv_same R (Unlock (Ret tt)) (fun _ => f) (fun n _ => g n)). intros _. exact H. Qed.
(** [defer]: what follows the end of the body is [g]. *)
Definition after {A B C} (R : A -> C -> Prop) (g : nat -> B -> prog C) (a : A) (b : B) : Prop :=
  conv R (Ret a) (fun n => g n b).
Lemma conv_defer {A B C} (R : A -> C -> Prop) (c : prog unit) T (P : nat -> prog B) g :
  conv (after R g) T P -> conv R (finally T c) (fun n => bind (finally (P n) c) (g n)).
Proof.
  intros H. apply conv_ret_r. apply (conv_bind (after R g) R (fun x => Ret x) _ _ g (conv_finally _ _ _ _ H)).
  intros a b Hab. exact Hab.
Qed.

(** Variadic arguments. *)
Lemma zlen_cons_0 {A} (a : A) l : (zlen (a :: l) =? 0) = false.
Proof. unfold zlen. cbn [List.length]. apply Z.eqb_neq. lia. Qed.
Lemma zlen_cons2_1 {A} (a b : A) l : (zlen (a :: b :: l) =? 1) = false.
Proof. unfold zlen. cbn [List.length]. apply Z.eqb_neq. lia. Qed.
Lemma elem_0 a l : elem (a :: l) 0 = Ret a.
Proof.
  unfold elem. replace (0 <? zlen (a :: l)) with true; [reflexivity|].
  symmetry. apply Z.ltb_lt. unfold zlen. cbn [List.length]. lia.
Qed.

Lemma in_range_ok n i : 0 < n -> is_i64 n -> in_range n i -> (0 <=? i) && (i <? n) = true.
Proof.
  intros H0 [_ Hn] HR. destruct (HR Hn) as [H1 H2]. apply andb_true_intro. split; [apply Z.leb_le | apply Z.ltb_lt]; lia.
Qed.
Lemma nth_in_range {A} (l : list A) i d d' :
  0 < zlen l -> is_i64 (zlen l) -> in_range (zlen l) i -> nth (Z.to_nat i) l d = nth (Z.to_nat i) l d'.
Proof.
  intros H0 Hn HR. apply nth_indep. pose proof (in_range_ok _ _ H0 Hn HR) as H.
  apply andb_prop in H as [H1 H2]. apply Z.leb_le in H1. apply Z.ltb_lt in H2. unfold zlen in H2. lia.
Qed.
Lemma nth_for_range {A} (l : list A) i d d' :
  is_i64 (zlen l) -> for_range (zlen l) i -> i <? zlen l = true -> nth (Z.to_nat i) l d = nth (Z.to_nat i) l d'.
Proof.
  intros [_ Hn] HR Hlt. apply nth_indep. specialize (HR Hn). apply Z.ltb_lt in Hlt. unfold zlen in *. lia.
Qed.
Lemma zlen_pos {A} (a : A) l : 0 < zlen (a :: l).
Proof. unfold zlen. cbn [List.length]. lia. Qed.

Lemma size_nat_spec p n : (Pos.size_nat p <= n)%nat <-> Z.pos p < 2 ^ Z.of_nat n.
Proof.
  revert n. induction p as [p IH|p IH|]; intros n; cbn [Pos.size_nat].
  - destruct n as [|n]. { change (2 ^ Z.of_nat 0) with 1. lia. }
    rewrite Nat2Z.inj_succ, Z.pow_succ_r by lia. specialize (IH n). rewrite Pos2Z.inj_xI. lia.
  - destruct n as [|n]. { change (2 ^ Z.of_nat 0) with 1. lia. }
    rewrite Nat2Z.inj_succ, Z.pow_succ_r by lia. specialize (IH n). rewrite Pos2Z.inj_xO. lia.
  - destruct n as [|n]. { change (2 ^ Z.of_nat 0) with 1. lia. }
    rewrite Nat2Z.inj_succ, Z.pow_succ_r by lia. pose proof (Z.pow_pos_nonneg 2 (Z.of_nat n)). lia.
Qed.
(** [fits] is the range of the integer type. *)
Lemma fits_spec t z : fits t z = true <->
  match signed t with
  | None => False
  | Some true => - 2 ^ (width t - 1) <= z < 2 ^ (width t - 1)
  | Some false => 0 <= z < 2 ^ width t
  end.
Proof.
  unfold fits. destruct (signed t) as [[]|] eqn:S; [| |split; [discriminate|tauto]].
  - assert (E : Z.of_nat (pred (bits_of t)) = width t - 1) by (destruct t; reflexivity || discriminate S).
    assert (1 < width t) by (destruct t; cbn; lia || discriminate S).
    assert (1 < 2 ^ (width t - 1)) by (apply Z.pow_gt_1; lia).
    destruct z as [|p|p]; [lia| |]; rewrite Nat.leb_le, size_nat_spec, E; [lia|].
    destruct (Pos.eq_dec p 1) as [->|]; [cbn; lia|]. rewrite Pos2Z.inj_pred by assumption. lia.
  - assert (E : Z.of_nat (bits_of t) = width t) by (destruct t; reflexivity || discriminate S).
    assert (1 < width t) by (destruct t; cbn; lia || discriminate S).
    assert (1 < 2 ^ width t) by (apply Z.pow_gt_1; lia).
    destruct z as [|p|p]; [lia| |]. rewrite Nat.leb_le, size_nat_spec, E; lia. split; [discriminate|lia].
Qed.

(** ** Tactics *)

Create HintDb text discriminated.
Global Hint Constants Opaque : text.
Create HintDb leaf discriminated.
Global Hint Constants Opaque : leaf.

(** Compute the right-hand side. *)
Ltac norm :=
  lazymatch goal with
  | |- conv ?R ?T ?P =>
      let P' := eval lazy -[D env bind finally get set get_buf set_buf slice_get slice_set reslice copy append
         make_bytes make_elems elem set_elem lit_bytes
         int_result ints_result bytes_result unit_result self_result any_result
         GoBinary.PutUint16 GoBinary.PutUint32 GoBinary.PutUint64 GoBinary.uint16 GoBinary.uint32 GoBinary.uint64
         add64 sub64 mul64 quo rem uconv sconv shr ushl sshl not8 zlen s_len s_cap s_off s_blk dyn
         Z.add Z.sub Z.mul Z.ltb Z.leb Z.gtb Z.geb Z.eqb Z.land Z.lor Z.lxor Z.to_nat andb orb negb nth hd] in P in
      change (conv R T P'); cbn [bind]
  end.
(** Unfold what the model is written with. *)
Ltac open_model :=
  unfold panic_if, buf_get, buf_set, byte, locked, lock, unlock; change empty_slice with (lit_bytes []); cbn [bind].
Ltac call_rule := first [apply conv_int | apply conv_unit | apply conv_bytes | apply conv_ints | apply conv_self].
Ltac go1 :=
  lazymatch goal with
  | |- conv (after _ _) (Ret _) (fun _ => Ret _) => apply conv_ret; unfold after; norm
  | |- conv _ (Ret _) (fun _ => Ret _) => apply conv_ret; first [reflexivity | exists 0, tt; reflexivity | do 2 eexists; reflexivity]
  | |- conv _ (Panic _) (fun _ => Panic _) => apply conv_panic
  | |- conv _ (bind (bind _ _) _) _ => apply conv_assoc
  | |- conv _ (bind (if ?c then _ else _) _) _ => destruct c eqn:?; cbn [bind]
  | |- conv _ (if ?c then _ else _) _ => destruct c eqn:?; cbn [bind]
  | |- conv _ (bind _ _) (fun n => bind (bind (D _ _ n (QCall _ _)) any_result) _) =>
      apply (conv_any _ _ _ _ _ any_ dyn); [solve [eauto with text nocore] | reflexivity | intros; norm]
  | |- conv _ _ (fun n => bind (bind (D _ _ n (QCall _ _)) any_result) _) =>
      apply (conv_any_last _ _ _ _ _ any_ dyn); [solve [eauto with text nocore] | reflexivity | intros; norm]
  | |- conv _ (bind _ _) (fun n => bind (bind (D _ _ n (QCall _ _)) _) _) =>
      first [apply (conv_then_leaves _ (fun v => uconv 64 v = v));
             [solve [eauto with leaf nocore] | solve [call_rule; eauto with text nocore]
             | let H := fresh in intros ? H; norm; rewrite ?H; clear H]
            | apply conv_then; [solve [call_rule; eauto with text nocore] | intros; norm]]
  | |- conv _ _ (fun n => bind (bind (D _ _ n (QCall _ _)) _) _) =>
      apply conv_last; [solve [call_rule; eauto with text nocore] | intros; norm]
  | |- conv _ (Lock _) (fun _ => Lock _) => apply conv_lock
  | |- conv _ (Unlock _) (fun _ => Unlock _) => apply conv_unlock
  | |- conv _ (finally _ _) (fun _ => bind (finally _ _) _) => apply conv_defer
  | |- conv _ (GetOuts _) (fun _ => GetOuts _) => apply conv_getouts; intros
  | |- conv _ (SetOuts _ _) (fun _ => SetOuts _ _) => apply conv_setouts
  | |- conv _ _ (fun n => bind (D _ _ n _) (fun x => Ret x)) => apply conv_again
  | H : forall _ _, conv _ (?rec _) (fun m => D _ _ m _) |- conv _ (?rec _) (fun m => D _ _ m _) => first [exact (H tt _) | eapply H]
  | |- conv _ (bind ?p _) (fun n => bind ?q _) => apply (conv_same _ p); intros; norm
  | |- conv _ ?p (fun n => bind ?q _) => apply (conv_same_r _ p); intros; norm
  end.
Ltac go := repeat go1.
Ltac enter M := unfold text_of, M; open_model; apply conv_enter; norm.
Ltac text M := enter M; go.

(** The loop in front, with the variables [inv i x acc] in round [i]; [x0] in the first. *)
Ltac loop_with inv x0 tac :=
  lazymatch goal with
  | |- conv _ (bind _ _) _ => apply (conv_loop _ (fun i x acc => (inv i x acc, Next)))
  | |- conv _ _ _ => apply (conv_loop_last _ (fun i x acc => (inv i x acc, Next)))
  end; [apply (conv_goto _ _ _ inv x0); intros; open_model; norm; tac; go | intros; norm; go].
Ltac loop inv := loop_with inv tt ltac:(idtac).
(** [i] is the only variable that changes. *)
Ltac loop_i_with tac :=
  lazymatch goal with
  | |- conv _ _ (fun n => bind (D _ _ n (QLabel _ _ _ _ ?e)) _) =>
      lazymatch e with
      | context [("i"%string, VInt ?u 0)] =>
          let g := eval pattern ("i"%string, VInt u 0) in e in
          lazymatch g with
          | ?h _ =>
              let inv := constr:(fun (i : Z) (_ _ : unit) => ltac:(let r := eval cbv beta in (h ("i"%string, VInt u i)) in exact r)) in
              loop_with inv tt tac
          end
      end
  end.
Ltac loop_i := loop_i_with ltac:(idtac).
(** [i] and the result [out] change. *)
Ltac loop_out :=
  lazymatch goal with
  | |- conv _ _ (fun n => bind (D _ _ n (QLabel _ _ _ _ ?e)) _) =>
      lazymatch e with
      | context [("i"%string, VInt ?u 0)] =>
          lazymatch e with
          | context [("out"%string, VInt ?t ?a)] =>
              let g := eval pattern ("i"%string, VInt u 0), ("out"%string, VInt t a) in e in
              lazymatch g with
              | ?h _ _ =>
                  let inv := constr:(fun (i : Z) (_ : unit) (acc : Z) => ltac:(let r := eval cbv beta in (h ("i"%string, VInt u i) ("out"%string, VInt t acc)) in exact r)) in
                  loop inv
              end
          | context [("out"%string, VInts ?t ?a)] =>
              let g := eval pattern ("i"%string, VInt u 0), ("out"%string, VInts t a) in e in
              lazymatch g with
              | ?h _ _ =>
                  let inv := constr:(fun (i : Z) (_ : unit) (acc : list Z) => ltac:(let r := eval cbv beta in (h ("i"%string, VInt u i) ("out"%string, VInts t acc)) in exact r)) in
                  loop inv
              end
          end
      end
  end.
(** [i], the result [out] and the local variable [u] change. *)
Ltac loop_out_u :=
  lazymatch goal with
  | |- conv _ _ (fun n => bind (D _ _ n (QLabel _ _ _ _ ?e)) _) =>
      lazymatch e with
      | context [("i"%string, VInt ?u 0)] =>
          lazymatch e with
          | context [("u"%string, VInt ?ut ?u0)] =>
              lazymatch e with
              | context [("out"%string, VInts ?t ?a)] =>
                  let g := eval pattern ("i"%string, VInt u 0), ("u"%string, VInt ut u0), ("out"%string, VInts t a) in e in
                  lazymatch g with
                  | ?h _ _ _ =>
                      let inv := constr:(fun (i : Z) (x : Z) (acc : list Z) => ltac:(let r := eval cbv beta in (h ("i"%string, VInt u i) ("u"%string, VInt ut x) ("out"%string, VInts t acc)) in exact r)) in
                      loop_with inv u0 ltac:(idtac)
                  end
              end
          end
      end
  end.
(** [i] and the local variable [u] change. *)
Ltac loop_u :=
  lazymatch goal with
  | |- conv _ _ (fun n => bind (D _ _ n (QLabel _ _ _ _ ?e)) _) =>
      lazymatch e with
      | context [("i"%string, VInt ?u 0)] =>
          lazymatch e with
          | context [("u"%string, VInt ?ut ?u0)] =>
              let g := eval pattern ("i"%string, VInt u 0), ("u"%string, VInt ut u0) in e in
              lazymatch g with
              | ?h _ _ =>
                  let inv := constr:(fun (i : Z) (x : Z) (_ : unit) => ltac:(let r := eval cbv beta in (h ("i"%string, VInt u i) ("u"%string, VInt ut x)) in exact r)) in
                  loop_with inv u0 ltac:(idtac)
              end
          end
      end
  end.
(** [for _, s := range slices]: no variable changes. *)
Ltac loop_range tac :=
  lazymatch goal with
  | |- conv _ _ (fun n => bind (D _ _ n (QRange ?f ?k ?v ?x 0 ?body ?e)) _) =>
      lazymatch goal with
      | |- conv _ (bind _ _) _ => apply (conv_loop _ (fun (_ : Z) (_ _ : unit) => (e, Next)))
      | |- conv _ _ _ => apply (conv_loop_last _ (fun (_ : Z) (_ _ : unit) => (e, Next)))
      end;
      [apply (conv_for _ _ _ (fun i (_ _ : unit) => QRange f k v x i body e) tt); intros; open_model; norm; tac; go
      | intros; norm; go]
  end.
(** [i] and the local variable [bout] change. *)
Ltac loop_bout :=
  lazymatch goal with
  | |- conv _ _ (fun n => bind (D _ _ n (QLabel _ _ _ _ ?e)) _) =>
      let g := eval pattern ("i"%string, VInt I64 0), ("bout"%string, VInt U8 0) in e in
      lazymatch g with
      | ?h _ _ =>
          let inv := constr:(fun (i : Z) (x : Z) (_ : unit) => ltac:(let r := eval cbv beta in (h ("i"%string, VInt I64 i) ("bout"%string, VInt U8 x)) in exact r)) in
          loop_with inv 0 ltac:(idtac)
      end
  end.
(** [for i := ...; i < n; i++] and [for i := range x], where nothing but [i] changes. *)
Ltac loop_for_with inv x0 tac :=
  lazymatch goal with
  | |- conv _ _ (fun n => bind (D _ _ n (QFor ?f ?c ?post ?body _)) _) =>
      lazymatch goal with
      | |- conv _ (bind _ _) _ => apply (conv_loop _ (fun i x acc => (inv i x acc, Next)))
      | |- conv _ _ _ => apply (conv_loop_last _ (fun i x acc => (inv i x acc, Next)))
      end;
      [apply (conv_for _ _ _ (fun i x acc => QFor f c post body (inv i x acc)) x0); intros; open_model; norm; tac; go
      | intros; norm; go]
  end.
Ltac loop_for_i :=
  lazymatch goal with
  | |- conv _ _ (fun n => bind (D _ _ n (QFor _ _ _ _ ?e)) _) =>
      lazymatch e with
      | context [("i"%string, VInt ?u 0)] =>
          let g := eval pattern ("i"%string, VInt u 0) in e in
          lazymatch g with
          | ?h _ =>
              let inv := constr:(fun (i : Z) (_ _ : unit) => ltac:(let r := eval cbv beta in (h ("i"%string, VInt u i)) in exact r)) in
              loop_for_with inv tt ltac:(idtac)
          end
      end
  end.
(** [i] and the integer [x] change. *)
Ltac loop_for_int x :=
  lazymatch goal with
  | |- conv _ _ (fun n => bind (D _ _ n (QFor _ _ _ _ ?e)) _) =>
      lazymatch e with
      | context [("i"%string, VInt ?u 0)] =>
          lazymatch e with
          | context [(x, VInt ?t ?a)] =>
              let g := eval pattern ("i"%string, VInt u 0), (x, VInt t a) in e in
              lazymatch g with
              | ?h _ _ =>
                  let inv := constr:(fun (i : Z) (_ : unit) (acc : Z) => ltac:(let r := eval cbv beta in (h ("i"%string, VInt u i) (x, VInt t acc)) in exact r)) in
                  loop_for_with inv tt ltac:(idtac)
              end
          end
      end
  end.
(** [i] and the local integer [x] change. *)
Ltac loop_for_local x :=
  lazymatch goal with
  | |- conv _ _ (fun n => bind (D _ _ n (QFor _ _ _ _ ?e)) _) =>
      lazymatch e with
      | context [("i"%string, VInt ?u 0)] =>
          lazymatch e with
          | context [(x, VInt ?t ?a)] =>
              let g := eval pattern ("i"%string, VInt u 0), (x, VInt t a) in e in
              lazymatch g with
              | ?h _ _ =>
                  let inv := constr:(fun (i y : Z) (_ : unit) => ltac:(let r := eval cbv beta in (h ("i"%string, VInt u i) (x, VInt t y)) in exact r)) in
                  loop_for_with inv a ltac:(idtac)
              end
          end
      end
  end.
(** [i] and the local slice [x] change. *)
Ltac loop_for_slice x tac :=
  lazymatch goal with
  | |- conv _ _ (fun n => bind (D _ _ n (QFor _ _ _ _ ?e)) _) =>
      lazymatch e with
      | context [("i"%string, VInt ?u 0)] =>
          lazymatch e with
          | context [(x, VBytes ?a)] =>
              let g := eval pattern ("i"%string, VInt u 0), (x, VBytes a) in e in
              lazymatch g with
              | ?h _ _ =>
                  let inv := constr:(fun (i : Z) (y : slice) (_ : unit) => ltac:(let r := eval cbv beta in (h ("i"%string, VInt u i) (x, VBytes y)) in exact r)) in
                  loop_for_with inv a tac
              end
          end
      end
  end.
(** [i] and the slice of integers [x] change. *)
Ltac loop_for_ints x :=
  lazymatch goal with
  | |- conv _ _ (fun n => bind (D _ _ n (QFor _ _ _ _ ?e)) _) =>
      lazymatch e with
      | context [("i"%string, VInt ?u 0)] =>
          lazymatch e with
          | context [(x, VAny (VInts ?t ?a))] =>
              let g := eval pattern ("i"%string, VInt u 0), (x, VAny (VInts t a)) in e in
              lazymatch g with
              | ?h _ _ =>
                  let inv := constr:(fun (i : Z) (_ : unit) (acc : list Z) => ltac:(let r := eval cbv beta in (h ("i"%string, VInt u i) (x, VAny (VInts t acc))) in exact r)) in
                  loop_for_with inv tt ltac:(idtac)
              end
          | context [(x, VInts ?t ?a)] =>
              let g := eval pattern ("i"%string, VInt u 0), (x, VInts t a) in e in
              lazymatch g with
              | ?h _ _ =>
                  let inv := constr:(fun (i : Z) (_ : unit) (acc : list Z) => ltac:(let r := eval cbv beta in (h ("i"%string, VInt u i) (x, VInts t acc)) in exact r)) in
                  loop_for_with inv tt ltac:(idtac)
              end
          end
      end
  end.
