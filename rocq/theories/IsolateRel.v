(** * IsolateRel: the methods do not depend on where their memory lies.

    A program in company and the same program alone do the same accesses, up to the
    numbers of the arrays allocated meanwhile, and only to bytes they may touch. *)
From Coq Require Import ZArith List Bool Lia Arith ZifyBool.
From Verif Require Import ConcLemmas GoSem Errors Spec GoLemmas GoBinary Typed V3ByteLemmas TypedCanon Calls Abs MiniAbs OldCalls V1Calls V1Lemmas Abs2 MiniAbs2 IsolateSpec.
From Verif Require V3Buffer V3Mini V2Buffer V2BufferTyped V2Mini V1Buffer V1Mini.
Import ListNotations.
Open Scope Z_scope.
Open Scope list_scope.

Section Rel.
(** The arrays that exist at the start, the bytes that may be written and read. *)
Variables (n0 : nat) (own look : nat -> Z -> Prop).
Hypothesis own_look : forall b i, own b i -> look b i.

(** New arrays: the number alone and the number in company. *)
Definition pairs : Type := list (nat * nat).
Definition known (r : pairs) (b b' : nat) : Prop := (b = b' /\ (b < n0)%nat) \/ In (b, b') r.
Definition rd (r : pairs) (b b' : nat) (i : Z) : Prop := (b = b' /\ (b < n0)%nat /\ look b i) \/ In (b, b') r.
Definition wr (r : pairs) (b b' : nat) (i : Z) : Prop := (b = b' /\ (b < n0)%nat /\ own b i) \/ In (b, b') r.

(** The same slice; with memory that may be written, and with memory that may be read. *)
Definition same (s s' : slice) : Prop := s' = mkSlice (s_blk s') (s_off s) (s_len s) (s_cap s).
Definition srel (r : pairs) (s s' : slice) : Prop :=
  same s s' /\ known r (s_blk s) (s_blk s') /\ 0 <= s_off s /\ 0 <= s_len s <= s_cap s /\
  forall i, s_off s <= i < s_off s + s_cap s -> wr r (s_blk s) (s_blk s') i.
Definition arel (r : pairs) (s s' : slice) : Prop :=
  same s s' /\ known r (s_blk s) (s_blk s') /\ 0 <= s_off s /\ 0 <= s_len s /\
  forall i, s_off s <= i < s_off s + s_len s -> rd r (s_blk s) (s_blk s') i.
Definition eqr {A} (r : pairs) (a a' : A) : Prop := a = a'.

Inductive rel {A} (R : pairs -> A -> A -> Prop) : pairs -> prog A -> prog A -> Prop :=
| r_ret r a a' : R r a a' -> rel R r (Ret a) (Ret a')
| r_panic r e : rel R r (Panic e) (Panic e)
| r_fuel r : rel R r OutOfFuel OutOfFuel
| r_getbuf r k k' : (forall s s', srel r s s' -> rel R r (k s) (k' s')) -> rel R r (GetBuf k) (GetBuf k')
| r_setbuf r s s' k k' : srel r s s' -> rel R r k k' -> rel R r (SetBuf s k) (SetBuf s' k')
| r_getf r f k k' : (forall v, rel R r (k v) (k' v)) -> rel R r (GetF f k) (GetF f k')
| r_setf r f v k k' : rel R r k k' -> rel R r (SetF f v k) (SetF f v k')
| r_load r b b' i k k' : rd r b b' i -> (forall v, rel R r (k v) (k' v)) -> rel R r (Load b i k) (Load b' i k')
| r_store r b b' i v k k' : wr r b b' i -> rel R r k k' -> rel R r (Store b i v k) (Store b' i v k')
| r_move r db db' di sb sb' si n k k' : known r db db' -> known r sb sb' ->
    (forall i, di <= i < di + n -> wr r db db' i) -> (forall i, si <= i < si + n -> rd r sb sb' i) ->
    rel R r k k' -> rel R r (Move db di sb si n k) (Move db' di sb' si n k')
| r_alloc r l k k' : (forall b b', rel R ((b, b') :: r) (k b) (k' b')) -> rel R r (Alloc l k) (Alloc l k')
| r_getouts r k k' : (forall v, rel R r (k v) (k' v)) -> rel R r (GetOuts k) (GetOuts k')
| r_setouts r l k k' : rel R r k k' -> rel R r (SetOuts l k) (SetOuts l k')
| r_lock r k k' : rel R r k k' -> rel R r (Lock k) (Lock k')
| r_unlock r k k' : rel R r k k' -> rel R r (Unlock k) (Unlock k').

(** ** Composition *)

Lemma known_mono r r' b b' : incl r r' -> known r b b' -> known r' b b'.
Proof. intros H [K|K]; [left|right]; auto. Qed.
Lemma rd_mono r r' b b' i : incl r r' -> rd r b b' i -> rd r' b b' i.
Proof. intros H [K|K]; [left|right]; auto. Qed.
Lemma wr_mono r r' b b' i : incl r r' -> wr r b b' i -> wr r' b b' i.
Proof. intros H [K|K]; [left|right]; auto. Qed.
Lemma srel_mono r r' s s' : incl r r' -> srel r s s' -> srel r' s s'.
Proof. intros H (A & B & O & C & D). split; auto. split; [eapply known_mono; eauto|split; auto]. split; auto. intros i I. eapply wr_mono; eauto. Qed.
Lemma arel_mono r r' s s' : incl r r' -> arel r s s' -> arel r' s s'.
Proof. intros H (A & B & O & C & D). split; auto. split; [eapply known_mono; eauto|split; auto]. split; auto. intros i I. eapply rd_mono; eauto. Qed.
Lemma wr_rd r b b' i : wr r b b' i -> rd r b b' i.
Proof. intros [(A & B & C)|K]; [left|right]; auto. Qed.
Lemma srel_arel r s s' : srel r s s' -> arel r s s'.
Proof. intros (A & B & O & C & D). split; auto. split; auto. split; auto. split; [lia|]. intros i I. apply wr_rd, D. lia. Qed.

Lemma rel_bind {A B} (Q : pairs -> A -> A -> Prop) (R : pairs -> B -> B -> Prop) r p p' (f f' : A -> prog B) :
  rel Q r p p' -> (forall r' a a', incl r r' -> Q r' a a' -> rel R r' (f a) (f' a')) -> rel R r (bind p f) (bind p' f').
Proof.
  intro H. induction H; intro F; cbn [bind]; try (constructor; auto; fail).
  - apply F; auto. apply incl_refl.
  - constructor. intros b b'. apply H0. intros r' a a' I. apply F. eapply incl_tran; [|exact I]. apply incl_tl, incl_refl.
Qed.
Lemma rel_finally {A} (R : pairs -> A -> A -> Prop) r p p' : rel R r p p' -> rel R r (finally p unlock) (finally p' unlock).
Proof. intro H. induction H; cbn [finally unlock bind]; try (constructor; auto; fail); constructor; constructor; auto. Qed.
Lemma rel_locked {A} (R : pairs -> A -> A -> Prop) r p p' : rel R r p p' -> rel R r (locked p) (locked p').
Proof. intro H. unfold locked, lock. cbn [bind]. constructor. now apply rel_finally. Qed.
Lemma rel_dw {S} (b b' : Z -> S -> prog S) n r0 f : forall r i a, incl r0 r ->
  (forall r i a, incl r0 r -> rel eqr r (b i a) (b' i a)) -> rel eqr r (dw f n b i a) (dw f n b' i a).
Proof.
  induction f as [|f IH]; intros r i a I H; cbn [dw]; [constructor|].
  apply (rel_bind eqr); auto. intros r' x x' I' E. unfold eqr in E. subst x'. destruct (_ <? _); [|constructor; reflexivity].
  apply IH; auto. eapply incl_tran; eauto.
Qed.
Lemma rel_goto {S} (b b' : Z -> S -> prog S) n r a : (forall r' i a, incl r r' -> rel eqr r' (b i a) (b' i a)) ->
  rel eqr r (goto_loop n b a) (goto_loop n b' a).
Proof. intro H. unfold goto_loop. apply (rel_dw b b' n r); auto. apply incl_refl. Qed.
Lemma rel_fl {S} (b b' : Z -> S -> prog S) n r0 f : forall r i a, incl r0 r ->
  (forall r i a, incl r0 r -> rel eqr r (b i a) (b' i a)) -> rel eqr r (fl f n b i a) (fl f n b' i a).
Proof.
  induction f as [|f IH]; intros r i a I H; cbn [fl]; (destruct (i <? n); [|constructor; reflexivity]); [constructor|].
  apply (rel_bind eqr); auto. intros r' x x' I' E. unfold eqr in E. subst x'. apply IH; auto. eapply incl_tran; eauto.
Qed.
Lemma rel_for {S} (b b' : Z -> S -> prog S) n r a : (forall r' i a, incl r r' -> rel eqr r' (b i a) (b' i a)) ->
  rel eqr r (for_loop n b a) (for_loop n b' a).
Proof. intro H. unfold for_loop. apply (rel_fl b b' n r); auto. apply incl_refl. Qed.

(** ** The expressions and statements *)

Lemma same_eq s s' : same s s' -> s_off s' = s_off s /\ s_len s' = s_len s /\ s_cap s' = s_cap s.
Proof. intros ->. cbn. auto. Qed.
Lemma rel_slice_get r s s' i : arel r s s' -> rel eqr r (slice_get s i) (slice_get s' i).
Proof.
  intros (A & B & O & C & D). apply same_eq in A as (A1 & A2 & A3). unfold slice_get. rewrite A1, A2.
  destruct (_ && _) eqn:E; [|constructor]. constructor; [apply D; lia|]. intro v. constructor. reflexivity.
Qed.
Lemma rel_slice_set r s s' i v : srel r s s' -> rel eqr r (slice_set s i v) (slice_set s' i v).
Proof.
  intros (A & B & O & C & D). apply same_eq in A as (A1 & A2 & A3). unfold slice_set. rewrite A1, A2.
  destruct (_ && _) eqn:E; [|constructor]. constructor; [apply D; lia|]. constructor. reflexivity.
Qed.
Lemma rel_buf_get r i : rel eqr r (buf_get i) (buf_get i).
Proof. unfold buf_get, get_buf. cbn [bind]. constructor. intros s s' H. apply rel_slice_get. now apply srel_arel. Qed.
Lemma rel_buf_set r i v : rel eqr r (buf_set i v) (buf_set i v).
Proof. unfold buf_set, get_buf. cbn [bind]. constructor. intros s s' H. now apply rel_slice_set. Qed.
Lemma rel_get_buf r : rel srel r get_buf get_buf.
Proof. constructor. intros s s' H. now constructor. Qed.
Lemma rel_set_buf r s s' : srel r s s' -> rel eqr r (set_buf s) (set_buf s').
Proof. intro H. constructor; auto. constructor. reflexivity. Qed.
Lemma rel_get r f : rel eqr r (get f) (get f).
Proof. constructor. intro v. constructor. reflexivity. Qed.
Lemma rel_set r f v : rel eqr r (set f v) (set f v).
Proof. constructor. constructor. reflexivity. Qed.
Lemma rel_panic_if r c e : rel eqr r (panic_if c e) (panic_if c e).
Proof. unfold panic_if. destruct c; constructor. reflexivity. Qed.
Lemma rel_reslice r s s' lo hi : srel r s s' -> rel srel r (reslice s lo hi) (reslice s' lo hi).
Proof.
  intros (A & B & O & C & D). apply same_eq in A as (A1 & A2 & A3). unfold reslice. rewrite A1, A3.
  destruct (_ && _) eqn:E; [|constructor]. constructor. split; [reflexivity|]. split; auto. cbn [s_len s_cap s_off s_blk].
  split; [lia|]. split; [lia|]. intros i I. apply D. lia.
Qed.
Lemma rel_copy r d d' s s' : srel r d d' -> arel r s s' -> rel eqr r (copy d s) (copy d' s').
Proof.
  intros (A & B & O & C & D) (A' & B' & O' & C' & D'). apply same_eq in A as (A1 & A2 & A3), A' as (A1' & A2' & A3').
  unfold copy. rewrite A1, A2, A1', A2'. constructor; auto; [| |constructor; reflexivity]; intros i I; [apply D|apply D']; lia.
Qed.
Lemma new_known r b b' : known ((b, b') :: r) b b'.
Proof. right. now left. Qed.
Lemma new_wr r b b' i : wr ((b, b') :: r) b b' i.
Proof. right. now left. Qed.
Lemma new_srel r b b' o n c : 0 <= o -> 0 <= n <= c -> srel ((b, b') :: r) (mkSlice b o n c) (mkSlice b' o n c).
Proof. intros O H. split; [reflexivity|]. split; [apply new_known|]. split; auto. split; auto. intros. apply new_wr. Qed.
Lemma rel_make_bytes r n c : rel srel r (make_bytes n c) (make_bytes n c).
Proof. unfold make_bytes. destruct (_ && _) eqn:E; constructor. intros b b'. constructor. apply new_srel; lia. Qed.
Lemma rel_make_elems r w n : rel eqr r (make_elems w n) (make_elems w n).
Proof. unfold make_elems. destruct (_ && _); constructor. reflexivity. Qed.
Lemma rel_lit_bytes r l : rel srel r (lit_bytes l) (lit_bytes l).
Proof. unfold lit_bytes. constructor. intros b b'. constructor. pose proof (zlen_nonneg l). apply new_srel; lia. Qed.
Lemma rel_empty_slice r : rel srel r empty_slice empty_slice.
Proof. unfold empty_slice. constructor. intros b b'. constructor. apply new_srel; lia. Qed.
Lemma rel_elem r l i : rel eqr r (elem l i) (elem l i).
Proof. unfold elem. destruct (_ && _); constructor. reflexivity. Qed.
Lemma rel_set_elem r l i v : rel eqr r (set_elem l i v) (set_elem l i v).
Proof. unfold set_elem. destruct (_ && _); constructor. reflexivity. Qed.
Lemma rel_append r pol s s' d d' : srel r s s' -> arel r d d' -> rel srel r (append pol s d) (append pol s' d').
Proof.
  intros H H'. pose proof H as (A & B & O & C & D). pose proof H' as (A' & B' & O' & C' & D').
  apply same_eq in A as (A1 & A2 & A3), A' as (A1' & A2' & A3'). unfold append. rewrite A1, A2, A3, A1', A2'.
  destruct (Z.leb_spec (s_len s + s_len d) (s_cap s)).
  - constructor; auto; [intros i I; apply D; lia|]. constructor. split; [reflexivity|]. split; auto. cbn. split; [lia|]. split; [lia|auto].
  - destruct (Z.leb_spec (s_len s + s_len d) maxAlloc); [|constructor]. constructor. intros b b'.
    assert (I : incl r ((b, b') :: r)) by apply incl_tl, incl_refl.
    constructor; [apply new_known|eapply known_mono; eauto|intros; apply new_wr|intros i J; eapply rd_mono; [exact I|]; apply wr_rd, D; lia|].
    constructor; [apply new_known|eapply known_mono; eauto|intros; apply new_wr|intros i J; eapply rd_mono; [exact I|]; apply D'; lia|].
    constructor. apply new_srel; unfold new_cap; lia.
Qed.
Lemma rel_store_all r s s' : srel r s s' -> forall l k, rel eqr r (store_all s k l) (store_all s' k l).
Proof.
  intros H l. revert r H. induction l as [|x l IH]; intros r H k; cbn [store_all]; [constructor; reflexivity|].
  apply (rel_bind eqr); [now apply rel_slice_set|]. intros r' a a' I _. apply IH. eapply srel_mono; eauto.
Qed.
Lemma rel_copy_digits r d d' s s' w i : srel r d d' -> srel r s s' -> forall ks, rel eqr r (V1Buffer.copy_digits d s w i ks) (V1Buffer.copy_digits d' s' w i ks).
Proof.
  intros H H' ks. revert r H H'. induction ks as [|k ks IH]; intros r H H'; cbn [V1Buffer.copy_digits]; [constructor; reflexivity|].
  apply (rel_bind eqr); [apply rel_slice_get; now apply srel_arel|]. intros r' x x' I E. unfold eqr in E. subst x'.
  apply (rel_bind eqr); [apply rel_slice_set; eapply srel_mono; eauto|]. intros r2 y y' I2 _.
  assert (J : incl r r2) by (eapply incl_tran; eauto). apply IH; eapply srel_mono; eauto.
Qed.
Lemma rel_stores bits w off i data l r : rel eqr r (stores bits w off i data l) (stores bits w off i data l).
Proof.
  revert r. induction l as [|[k sh] l IH]; intro r; cbn [stores]; [constructor; reflexivity|].
  destruct l; apply (rel_bind eqr); try apply rel_elem; intros r' x x' I E; unfold eqr in E; subst x'; [apply rel_buf_set|].
  apply (rel_bind eqr); [apply rel_buf_set|]. intros. apply IH.
Qed.
Lemma rel_loads {A} w off i ks (k : list Z -> prog A) (R : pairs -> A -> A -> Prop) : (forall r l, rel R r (k l) (k l)) ->
  forall acc r, rel R r (loads w off i ks acc k) (loads w off i ks acc k).
Proof.
  intro H. induction ks as [|x ks IH]; intros acc r; cbn [loads]; auto.
  apply (rel_bind eqr); [apply rel_buf_get|]. intros r' v v' I E. unfold eqr in E. subst v'. apply IH.
Qed.

(** ** The methods *)

(** Results: a returned slice can be read. *)
Definition rvrel (r : pairs) (v v' : rv slice) : Prop :=
  match v, v' with
  | RBytes s, RBytes s' => arel r s s'
  | RBytes _, _ | _, RBytes _ => False
  | _, _ => v = v'
  end.

Ltac lift I :=
  repeat match goal with
  | H : srel ?r ?s ?s' |- _ => lazymatch type of I with incl r _ => apply (srel_mono r _ s s' I) in H end
  | H : arel ?r ?s ?s' |- _ => lazymatch type of I with incl r _ => apply (arel_mono r _ s s' I) in H end
  end.
Ltac same_slice H :=
  lazymatch type of H with
  | srel _ _ ?s' => let A := fresh in let b := fresh "b" in pose proof (proj1 H) as A; destruct s' as [b ? ? ?]; cbn [s_blk same] in A;
      unfold same in A; cbn [s_blk] in A; injection A as -> -> ->; cbn [s_off s_len s_cap s_blk]
  end.
Ltac next :=
  let r := fresh "r" in let I := fresh "I" in let a := fresh "a" in let b := fresh "b" in let E := fresh "E" in
  intros r a b I E; lift I; clear I; first [unfold eqr in E; subst b | same_slice E].
Ltac head_of t := lazymatch t with ?f _ => head_of f | _ => t end.
Ltac rel1 :=
  lazymatch goal with
  | |- rel ?R ?r ?p ?p' =>
      lazymatch p with
      | Ret _ => constructor; cbn [rvrel]; first [reflexivity|assumption|apply srel_arel; assumption]
      | Panic _ => constructor
      | OutOfFuel => constructor
      | @bind slice _ _ _ => apply (rel_bind srel); [|next]
      | @bind _ _ _ _ => apply (rel_bind eqr); [|next]
      | locked _ => apply rel_locked
      | lock => constructor; constructor; reflexivity
      | unlock => constructor; constructor; reflexivity
      | buf_get _ => apply rel_buf_get
      | buf_set _ _ => apply rel_buf_set
      | get_buf => apply rel_get_buf
      | set_buf _ => apply rel_set_buf; assumption
      | get _ => apply rel_get
      | set _ _ => apply rel_set
      | panic_if _ _ => apply rel_panic_if
      | slice_get _ _ => apply rel_slice_get; first [assumption|apply srel_arel; assumption]
      | slice_set _ _ _ => apply rel_slice_set; assumption
      | reslice _ _ _ => apply rel_reslice; assumption
      | copy _ _ => apply rel_copy; [assumption|first [assumption|apply srel_arel; assumption]]
      | append _ _ _ => apply rel_append; [assumption|first [assumption|apply srel_arel; assumption]]
      | make_bytes _ _ => apply rel_make_bytes
      | make_elems _ _ => apply rel_make_elems
      | lit_bytes _ => apply rel_lit_bytes
      | empty_slice => apply rel_empty_slice
      | elem _ _ => apply rel_elem
      | set_elem _ _ _ => apply rel_set_elem
      | store_all _ _ _ => apply rel_store_all; assumption
      | V1Buffer.copy_digits _ _ _ _ _ => apply rel_copy_digits; assumption
      | stores _ _ _ _ _ _ => apply rel_stores
      | loads _ _ _ _ _ _ => apply rel_loads; intros
      | goto_loop _ _ _ => apply rel_goto; let r := fresh "r" in let I := fresh "I" in intros r ? ? I; lift I; clear I
      | for_loop _ _ _ => apply rel_for; let r := fresh "r" in let I := fresh "I" in intros r ? ? I; lift I; clear I
      | GetOuts _ => constructor; intro
      | SetOuts _ _ => constructor
      | WriteT _ _ _ => rewrite WriteT_canon, MiniWriteT_canon
      | ReadT _ _ _ => rewrite ReadT_canon
      | MiniWriteT _ _ _ => rewrite MiniWriteT_canon
      | MiniReadT _ _ _ => rewrite MiniReadT_canon
      | (if ?b then _ else _) => first [change b with true; cbv iota | change b with false; cbv iota | destruct b]
      | (match ?x with _ => _ end) => first [progress cbv beta iota | destruct x]
      | _ => first [progress cbv beta zeta | let h := head_of p in unfold h]
      end
  end.
Ltac rel_tac := repeat rel1.

Definition arg_ok (r : pairs) (o : option slice) : Prop := match o with Some d => arel r d d | None => True end.

Lemma rel_call3 r c out : arg_ok r (job_arg (J3 c out)) -> rel rvrel r (do_call c) (do_call c).
Proof.
  intro D. destruct c as [off o|o| | | |off q|off q|off|off| | |n|n|n| | | | | | |].
  1, 2: destruct o; cbn [job_arg arg_ok] in D; cbn [do_call do_at do_next].
  all: rewrite ?WriteTNext_canon, ?ReadTNext_canon.
  all: rel_tac.
Qed.
Lemma rel_mini r c out : arg_ok r (job_arg (J3 c out)) -> rel rvrel r (mini_call c) (mini_call c).
Proof.
  intro D. destruct c as [off o|o| | | |off q|off q|off|off| | |n|n|n| | | | | | |].
  1, 2: destruct o; cbn [job_arg arg_ok] in D; cbn [mini_call mini_at mini_next].
  all: rewrite ?MiniWriteTNext_canon, ?MiniReadTNext_canon.
  all: rel_tac.
Qed.
Lemma rel_call2 r pol c out : arg_ok r (job_arg (J2 c out)) -> rel rvrel r (do2_call pol c) (do2_call pol c).
Proof.
  intro D. destruct c as [off o|o| | | |off q|off q|off|off| | |n| | | | | | |].
  1, 2: destruct o as [ | n | data | data n | | d | v | n | | ty d | ty n]; try (destruct ty); cbn [job_arg arg_ok] in D; cbn [do2_call do2_at do2_next].
  all: unfold WriteU, ReadU, WriteUNext, ReadUNext; rel_tac.
Qed.
Lemma rel_call1 r pol c out p : arg_ok r (job_arg (J2 c out)) -> do1_call pol c = Some p -> rel rvrel r p p.
Proof.
  intros D X. destruct c as [off o|o| | | |off q|off q|off|off| | |n| | | | | | |]; cbn [do1_call] in X; try discriminate X; injection X as <-.
  1, 2: destruct o as [ | n | data | data n | | d | v | n | | ty d | ty n]; try (destruct ty); cbn [job_arg arg_ok] in D; cbn [do1_at do1_next idata_of fmt tsize order_of].
  all: rel_tac.
Qed.
Lemma rel_old_mini r v pol c out : arg_ok r (job_arg (J2 c out)) -> rel rvrel r (old_mini v pol c) (old_mini v pol c).
Proof.
  intro D. destruct v; destruct c as [off o|o| | | |off q|off q|off|off| | |n| | | | | | |]; cbn [old_mini mini1_call mini2_call].
  all: try (destruct o as [ | n | data | data n | | d | v | n | | ty d | ty n]; try (destruct ty); cbn [job_arg arg_ok] in D; cbn [mini1_at mini1_next mini2_at mini2_next idata_of fmt tsize order_of]).
  all: rel_tac.
Qed.
End Rel.
