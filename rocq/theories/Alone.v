(** * Alone: goroutines that keep to different parts of a v3 [Buffer] behave as if alone. *)
From Coq Require Import ZArith List Bool Lia Arith ZifyBool.
From Verif Require Import ConcLemmas GoSem Errors Spec GoLemmas Typed V3ByteLemmas TypedCanon Calls Abs Frame Sim History Conc ConcSched ConcInv Race RaceSpec3 RaceLemmas RaceOld Race3 AloneSpec.
From Verif Require V3Buffer.
Import ListNotations.
Open Scope Z_scope.
Open Scope list_scope.

(** ** Memory, byte by byte *)

Definition block (s : St) (b : nat) : list Z := nth b (heap s) [].
Definition byte_at (s : St) (b : nat) (i : Z) : Z := nth (Z.to_nat i) (block s b) 0.

Lemma heap_read_inv h b i n d : heap_read h b i n = Some d ->
  (b < length h)%nat /\ 0 <= i /\ 0 <= n /\ i + n <= zlen (nth b h []) /\ d = sub (nth b h []) i n.
Proof.
  unfold heap_read. intro H. destruct (nth_error h b) as [a|] eqn:E; [|discriminate].
  assert (L : (b < length h)%nat) by (apply nth_error_Some; congruence).
  rewrite (nth_error_nth _ _ [] E). destruct (_ && _) eqn:C; [|discriminate]. injection H as <-. repeat split; auto; lia.
Qed.
Lemma heap_write_inv h b i d h' : heap_write h b i d = Some h' ->
  (b < length h)%nat /\ 0 <= i /\ i + zlen d <= zlen (nth b h []) /\ h' = put h (Z.of_nat b) [put (nth b h []) i d].
Proof.
  intro H. assert (C : (b < length h)%nat /\ 0 <= i /\ i + zlen d <= zlen (nth b h [])).
  { unfold heap_write in H. destruct (nth_error h b) as [a|] eqn:E; [|discriminate].
    assert (L : (b < length h)%nat) by (apply nth_error_Some; congruence).
    rewrite (nth_error_nth _ _ [] E). destruct (_ && _) eqn:C; [|discriminate]. repeat split; auto; lia. }
  destruct C as (C1 & C2 & C3). rewrite heap_write_ok in H by auto. injection H as <-. auto.
Qed.
Lemma nth_nth_error {A} (l : list A) n d : nth n l d = match nth_error l n with Some x => x | None => d end.
Proof. revert n. induction l as [|x l IH]; intros [|n]; cbn; auto. Qed.
Lemma sub_same (l m : list Z) i n : zlen l = zlen m -> 0 <= i -> 0 <= n ->
  (forall j, i <= j < i + n -> nth (Z.to_nat j) l 0 = nth (Z.to_nat j) m 0) -> sub l i n = sub m i n.
Proof.
  intros L H1 H2 H. apply nth_error_ext. intro j. rewrite !nth_error_sub. destruct (Nat.ltb_spec j (Z.to_nat n)); auto.
  specialize (H (i + Z.of_nat j) ltac:(lia)). rewrite !nth_nth_error in H.
  replace (Z.to_nat (i + Z.of_nat j)) with (Z.to_nat i + j)%nat in H by lia.
  destruct (Nat.lt_ge_cases (Z.to_nat i + j) (length l)) as [C|C].
  - assert (C' : (Z.to_nat i + j < length m)%nat) by (unfold zlen in L; lia).
    apply nth_error_Some in C, C'. destruct (nth_error l _), (nth_error m _); congruence.
  - assert (C' : (length m <= Z.to_nat i + j)%nat) by (unfold zlen in L; lia).
    apply nth_error_None in C, C'. congruence.
Qed.
Lemma nth_put (l : list Z) i d j : 0 <= i -> i + zlen d <= zlen l -> 0 <= j ->
  nth (Z.to_nat j) (put l i d) 0 = if (i <=? j) && (j <? i + zlen d) then nth (Z.to_nat (j - i)) d 0 else nth (Z.to_nat j) l 0.
Proof.
  intros H1 H2 H3. pose proof (zlen_nonneg d). rewrite !nth_nth_error, nth_error_put by lia. unfold zlen in *.
  destruct (Z.leb_spec i j), (Z.ltb_spec j (i + Z.of_nat (length d))); cbn [andb]; nat_cases; try lia; auto.
  now replace (Z.to_nat j - Z.to_nat i)%nat with (Z.to_nat (j - i)) by lia.
Qed.

(** A write of [d] at byte [i] of array [b]. *)
Lemma written s b i d h : heap_write (heap s) b i d = Some h ->
  length h = length (heap s) /\
  (forall b', zlen (block (set_heap s h) b') = zlen (block s b')) /\
  (forall b' j, 0 <= j -> byte_at (set_heap s h) b' j =
     if (b' =? b)%nat && ((i <=? j) && (j <? i + zlen d)) then nth (Z.to_nat (j - i)) d 0 else byte_at s b' j).
Proof.
  intro H. apply heap_write_inv in H as (H1 & H2 & H3 & ->). unfold byte_at, block. cbn [heap set_heap]. split; [now apply length_put_heap|split].
  - intro b'. rewrite nth_put_heap by auto. destruct (Nat.eqb_spec b' b); subst; auto. now apply put_length.
  - intros b' j Hj. rewrite nth_put_heap by auto. destruct (Nat.eqb_spec b' b); subst; cbn [andb]; auto. now apply nth_put.
Qed.
Lemma block_alloc s l b : (b < length (heap s))%nat -> block (set_heap s (heap s ++ [l])) b = block s b.
Proof. intro H. unfold block. cbn. now rewrite app_nth1. Qed.
Lemma block_new s l : block (set_heap s (heap s ++ [l])) (length (heap s)) = l.
Proof. unfold block. cbn. rewrite app_nth2 by lia. now rewrite Nat.sub_diag. Qed.

Lemma get_upd b f v g : get_fld (upd_fld b f v) g = if fld_eqb g f then v else get_fld b g.
Proof. destruct b, f, g; reflexivity. Qed.
Lemma buf_upd b f v : b_buf (upd_fld b f v) = b_buf b.
Proof. destruct b, f; reflexivity. Qed.

(** ** Programs that allocate at most once *)

Fixpoint quiet {A} (p : prog A) : Prop :=
  match p with
  | Ret _ | Panic _ | OutOfFuel => True
  | GetBuf k => forall s, quiet (k s)
  | SetBuf _ k | SetF _ _ k | Store _ _ _ k | Move _ _ _ _ _ k => quiet k
  | GetF _ k | Load _ _ k => forall v, quiet (k v)
  | Alloc _ _ | GetOuts _ | SetOuts _ _ | Lock _ | Unlock _ => False
  end.
Fixpoint single {A} (p : prog A) : Prop :=
  match p with
  | Ret _ | Panic _ | OutOfFuel => True
  | GetBuf k => forall s, single (k s)
  | SetBuf _ k | SetF _ _ k | Store _ _ _ k | Move _ _ _ _ _ k => single k
  | GetF _ k | Load _ _ k => forall v, single (k v)
  | Alloc _ k => forall b, quiet (k b)
  | GetOuts _ | SetOuts _ _ | Lock _ | Unlock _ => False
  end.
Lemma quiet_single {A} (p : prog A) : quiet p -> single p.
Proof. induction p; cbn; auto; contradiction. Qed.
Lemma quiet_bind {A B} (p : prog A) (f : A -> prog B) : quiet p -> (forall a, quiet (f a)) -> quiet (bind p f).
Proof. intros H F. induction p; cbn in *; auto. Qed.
Lemma single_bind {A B} (p : prog A) (f : A -> prog B) : single p -> (forall a, quiet (f a)) -> single (bind p f).
Proof. intros H F. induction p; cbn in *; auto using quiet_single. intro b. apply quiet_bind; auto. Qed.
Lemma single_after {A B} (p : prog A) (f : A -> prog B) : quiet p -> (forall a, single (f a)) -> single (bind p f).
Proof. intros H F. induction p; cbn in *; auto; contradiction. Qed.
Lemma quiet_goto {S} n (b : Z -> S -> prog S) a : (forall i a, quiet (b i a)) -> quiet (goto_loop n b a).
Proof.
  intro H. unfold goto_loop. generalize (Datatypes.S (Z.to_nat n)), 0, a. intro f.
  induction f as [|f IH]; intros i x; cbn [dw]; [exact I|]. apply quiet_bind; auto. intro y. destruct (_ <? _); [apply IH|exact I].
Qed.

Ltac hush := repeat first
  [ match goal with
    | |- True => exact I
    | |- forall _, _ => intro
    | |- quiet (Ret _) => exact I
    | |- quiet (Panic _) => exact I
    | |- quiet (goto_loop _ _ _) => apply quiet_goto
    | |- quiet (bind _ _) => apply quiet_bind
    | |- context [if ?c then _ else _] => destruct c
    end
  | progress unfold panic_if, get, set, get_buf, set_buf | progress cbn [quiet bind] ].
Lemma quiet_buf_get i : quiet (buf_get i).
Proof. unfold buf_get, slice_get. hush. Qed.
Lemma quiet_buf_set i v : quiet (buf_set i v).
Proof. unfold buf_set, slice_set. hush. Qed.
Lemma quiet_ReadBit off : quiet (V3Buffer.ReadBit off).
Proof. unfold V3Buffer.ReadBit. hush; apply quiet_buf_get. Qed.
Lemma quiet_SetBit off : quiet (V3Buffer.SetBit off).
Proof. unfold V3Buffer.SetBit. hush; first [apply quiet_buf_get|apply quiet_buf_set]. Qed.
Lemma quiet_ClearBit off : quiet (V3Buffer.ClearBit off).
Proof. unfold V3Buffer.ClearBit. hush; first [apply quiet_buf_get|apply quiet_buf_set]. Qed.
Lemma quiet_FlipBit off : quiet (V3Buffer.FlipBit off).
Proof. unfold V3Buffer.FlipBit. hush; first [apply quiet_buf_get|apply quiet_buf_set]. Qed.
Lemma quiet_ReadBits off n : quiet (V3Buffer.ReadBits off n).
Proof. unfold V3Buffer.ReadBits. hush; apply quiet_ReadBit. Qed.
Lemma quiet_SetBits off d n : quiet (V3Buffer.SetBits off d n).
Proof. unfold V3Buffer.SetBits. hush; first [apply quiet_SetBit|apply quiet_ClearBit]. Qed.
Lemma quiet_reslice s lo hi : quiet (reslice s lo hi).
Proof. unfold reslice. hush. Qed.
Lemma quiet_WriteBytes off d : quiet (V3Buffer.WriteBytes off d).
Proof. unfold V3Buffer.WriteBytes, copy. hush; apply quiet_reslice. Qed.
Lemma quiet_ReadBytes off n : quiet (V3Buffer.ReadBytes off n).
Proof. unfold V3Buffer.ReadBytes. hush; apply quiet_reslice. Qed.
Lemma quiet_ReadByte off : quiet (V3Buffer.ReadByte off).
Proof. unfold V3Buffer.ReadByte, slice_get. hush; apply quiet_ReadBytes. Qed.
Lemma quiet_elem l i : quiet (elem l i).
Proof. unfold elem. hush. Qed.
Lemma quiet_stores bits w off i data l : quiet (stores bits w off i data l).
Proof.
  induction l as [|[k sh] l IH]; cbn [stores]; [exact I|]. destruct l; apply quiet_bind; auto using quiet_elem; intro;
    [apply quiet_buf_set|apply quiet_bind; auto using quiet_buf_set].
Qed.
Lemma quiet_WriteT ty off d : quiet (WriteT ty off d).
Proof. rewrite WriteT_canon, MiniWriteT_canon. hush. apply quiet_stores. Qed.
Lemma quiet_loads {A} w off i ks (k : list Z -> prog A) : (forall l, quiet (k l)) -> forall acc, quiet (loads w off i ks acc k).
Proof. intro H. induction ks as [|x ks IH]; intro acc; cbn [loads]; auto. apply quiet_bind; auto using quiet_buf_get. Qed.
Lemma quiet_ReadT ty off n : quiet (ReadT ty off n).
Proof. rewrite ReadT_canon. unfold make_elems. hush. unfold rbody. apply quiet_loads. intro. unfold set_elem. hush. Qed.
Lemma quiet_SeekByte n r : quiet (V3Buffer.SeekByte n r).
Proof. unfold V3Buffer.SeekByte. hush. Qed.
Lemma quiet_SeekBit n r : quiet (V3Buffer.SeekBit n r).
Proof. unfold V3Buffer.SeekBit. hush. Qed.
#[local] Hint Resolve quiet_buf_get quiet_buf_set quiet_ReadBit quiet_SetBit quiet_ClearBit quiet_FlipBit quiet_ReadBits quiet_SetBits
  quiet_reslice quiet_WriteBytes quiet_ReadBytes quiet_ReadByte quiet_WriteT quiet_ReadT quiet_SeekByte quiet_SeekBit : quiet.

Lemma single_call c : in_place c -> single (do_call c).
Proof.
  intro F. destruct c as [off o|o| | | |off r|off r|off|off| | |n|n|n| | | | | | |]; try contradiction F; cbn [do_call].
  - destruct o; cbn [do_at]; unfold ret_unit, ret_int, ret_bytes, ret_nums;
      try solve [apply quiet_single, quiet_bind; [auto with quiet|intro; exact I]].
    apply single_bind; [|intro; exact I]. unfold V3Buffer.WriteByte, lit_bytes. cbn [bind single]. intro b. auto with quiet.
  - destruct o; cbn [do_next]; unfold ret_unit, ret_int, ret_bytes, ret_nums; rewrite ?WriteTNext_canon, ?ReadTNext_canon;
      try unfold V3Buffer.ReadBitNext; try unfold V3Buffer.ReadBitsNext;
      try unfold V3Buffer.SetBitNext; try unfold V3Buffer.ClearBitNext; try unfold V3Buffer.FlipBitNext; try unfold V3Buffer.SetBitsNext;
      try unfold V3Buffer.WriteBytesNext; try unfold V3Buffer.ReadBytesNext; try unfold V3Buffer.ReadByteNext; try unfold slice_get;
      try solve [apply quiet_single; hush; auto with quiet].
    apply single_bind; [|intro; exact I]. unfold V3Buffer.WriteByteNext, lit_bytes. cbn [bind single get]. intros x b.
    hush; auto with quiet.
  - unfold ret_unit. apply quiet_single. apply quiet_bind; [|intro; exact I]. unfold V3Buffer.ClearAllBits. hush; auto with quiet.
  - unfold ret_unit. apply quiet_single. apply quiet_bind; [|intro; exact I]. unfold V3Buffer.SetAllBits. hush; auto with quiet.
  - unfold ret_unit. apply quiet_single. apply quiet_bind; [|intro; exact I]. unfold V3Buffer.FlipAllBits. hush; auto with quiet.
  - unfold ret_unit. apply quiet_single. hush; auto with quiet.
  - unfold ret_unit. apply quiet_single. hush; auto with quiet.
  - unfold ret_int. apply quiet_single. apply quiet_bind; [|intro; exact I]. unfold V3Buffer.AfterBit. destruct off; hush.
  - unfold ret_int. apply quiet_single. apply quiet_bind; [|intro; exact I]. unfold V3Buffer.AfterByte. destruct off; hush.
  - cbn. auto.
  - cbn. auto.
  - cbn. auto.
  - cbn. auto.
  - cbn. auto.
  - cbn. auto.
  - cbn. auto.
  - cbn. auto.
Qed.

(** ** One goroutine in company and alone *)

(** More arrays. *)
Definition pad (s : St) (k : nat) : St := set_heap s (heap s ++ repeat [] k).
Lemma block_pad s k b : block (pad s k) b = block s b.
Proof.
  unfold block, pad. cbn. destruct (Nat.lt_ge_cases b (length (heap s))); [now rewrite app_nth1|].
  rewrite app_nth2 by auto. rewrite (nth_overflow (heap s)) by auto. apply nth_repeat.
Qed.

Section Sim.
Variables (M : location -> mode) (Hd : slice -> Prop) (hd0 : slice) (h0 : nat).
Hypothesis Hd_only : forall s, Hd s <-> s = hd0.
Hypothesis hd0_in : (s_blk hd0 < h0)%nat.
Hypothesis hd_fixed : M LHeader = Frozen.

(** Byte [i] of array [b] can be seen by goroutine [t]. *)
Definition shown (t : nat) (P : nat -> Prop) (b : nat) (i : Z) : Prop :=
  P b \/ ((b < h0)%nat /\ may_read (M (LByte b i)) t false).

(** [U] is the memory of goroutine [t] as if alone, [S] the shared memory. *)
Record agree (t : nat) (P : nat -> Prop) (S U : St) : Prop := mkAgree {
  ag_hdS : b_buf (bb S) = hd0;
  ag_hdU : b_buf (bb U) = hd0;
  ag_fld : forall f, may_read (M (LField f)) t false -> get_fld (bb S) f = get_fld (bb U) f;
  ag_len : (h0 <= length (heap U) <= length (heap S))%nat;
  ag_priv : forall b, P b -> (h0 <= b < length (heap U))%nat;
  ag_size : forall b, P b \/ (b < h0)%nat -> zlen (block S b) = zlen (block U b);
  ag_byte : forall b i, 0 <= i -> shown t P b i -> byte_at S b i = byte_at U b i }.

Lemma agree_less t (P P' : nat -> Prop) S U : (forall b, P' b -> P b) -> agree t P S U -> agree t P' S U.
Proof.
  intros H [A1 A2 A3 A4 A5 A6 A7]. constructor; auto.
  - intros b [B|B]; auto.
  - intros b i Hi [B|B]; apply A7; auto; [left|right]; auto.
Qed.
Lemma agree_pad t P S U k : (length (heap U) + k <= length (heap S))%nat -> agree t P S U -> agree t P S (pad U k).
Proof.
  intros L [A1 A2 A3 A4 A5 A6 A7].
  assert (E : length (heap (pad U k)) = (length (heap U) + k)%nat) by (unfold pad; cbn; now rewrite app_length, repeat_length).
  constructor; auto; try rewrite E; try lia.
  - intros b B. apply A5 in B. lia.
  - intros b B. rewrite block_pad. auto.
  - intros b i Hi B. unfold byte_at at 2. rewrite block_pad. now apply A7.
Qed.
Lemma agree_alloc t P S U l : length (heap U) = length (heap S) -> agree t P S U ->
  agree t (add P (length (heap S))) (set_heap S (heap S ++ [l])) (set_heap U (heap U ++ [l])).
Proof.
  intros L [A1 A2 A3 A4 A5 A6 A7]. constructor; auto; cbn [heap set_heap bb].
  - rewrite !app_length. cbn. lia.
  - intros b [B|B]; [apply A5 in B|]; rewrite app_length; cbn; lia.
  - intros b [[B| ->]|B].
    + rewrite !block_alloc; auto; apply A5 in B; lia.
    + rewrite block_new. rewrite <- L, block_new. reflexivity.
    + rewrite !block_alloc; auto; lia.
  - unfold byte_at. intros b i Hi [[B| ->]|[B B']].
    + rewrite !block_alloc; try (apply A5 in B; lia). apply A7; auto. now left.
    + rewrite block_new. rewrite <- L, block_new. reflexivity.
    + rewrite !block_alloc; try lia. apply A7; auto. now right.
Qed.

(** The same write on both sides. *)
Lemma agree_write t P S U b i d h h' : heap_write (heap S) b i d = Some h -> heap_write (heap U) b i d = Some h' ->
  agree t P S U -> agree t P (set_heap S h) (set_heap U h').
Proof.
  intros H1 H2 [A1 A2 A3 A4 A5 A6 A7]. apply written in H1 as (L1 & Z1 & B1), H2 as (L2 & Z2 & B2).
  constructor; auto; cbn [heap set_heap bb]; rewrite ?L1, ?L2; auto.
  - intros c C. rewrite Z1, Z2. auto.
  - intros c j Hj C. rewrite B1, B2 by auto. rewrite A7 by auto. reflexivity.
Qed.
Lemma agree_fld t P S U f v : agree t P S U -> agree t P (set_bb S (upd_fld (bb S) f v)) (set_bb U (upd_fld (bb U) f v)).
Proof.
  intros [A1 A2 A3 A4 A5 A6 A7]. constructor; cbn [bb set_bb heap]; rewrite ?buf_upd; auto.
  intros g G. rewrite !get_upd. destruct (fld_eqb g f); auto.
Qed.
Lemma agree_read t P K S U b i n d d' : agree t P S U -> incl K (initial h0) ->
  (forall j, i <= j < i + n -> can_read M t P K false b j) ->
  heap_read (heap S) b i n = Some d -> heap_read (heap U) b i n = Some d' -> d = d'.
Proof.
  intros A HK C H1 H2. apply heap_read_inv in H1 as (_ & I1 & N1 & L1 & ->), H2 as (_ & _ & _ & L2 & ->).
  destruct (Z.eq_dec n 0) as [->|N]; [reflexivity|].
  assert (X : forall j, i <= j < i + n -> shown t P b j).
  { intros j Hj. destruct (C j Hj) as [X|[X X']]; [now left|right]. split; auto. now apply HK. }
  apply sub_same; auto.
  - apply (ag_size _ _ _ _ A). destruct (X i ltac:(lia)) as [Y|[Y _]]; auto.
  - intros j Hj. apply (ag_byte _ _ _ _ A); auto. lia.
Qed.

(** A write that another goroutine may make. *)
Lemma others_differ t u m : t <> u -> may_read m t false -> may_write m u false -> False.
Proof. destruct m; cbn; intuition congruence. Qed.
Lemma agree_other_write t u (Pt Pu K : nat -> Prop) S U b i (d : list Z) h : t <> u -> (forall c, Pt c -> Pu c -> False) ->
  (forall c, Pu c -> (h0 <= c)%nat) -> incl K (initial h0) ->
  (forall j, i <= j < i + zlen d -> can_write M u Pu K false b j) ->
  heap_write (heap S) b i d = Some h -> agree t Pt S U -> agree t Pt (set_heap S h) U.
Proof.
  intros N D HP HK C H [A1 A2 A3 A4 A5 A6 A7]. apply written in H as (L & Z & B).
  constructor; auto; cbn [heap set_heap bb]; rewrite ?L; auto.
  - intros c X. rewrite Z. auto.
  - intros c j Hj X. rewrite B by auto. rewrite <- A7 by auto. destruct (Nat.eqb_spec c b) as [->|]; auto. cbn [andb].
    destruct (_ && _) eqn:R; auto. exfalso. assert (R' : i <= j < i + zlen d) by lia. destruct (C j R') as [Y|[Y Y']].
    + destruct X as [X|[X _]]; eauto. apply HP in Y. lia.
    + apply HK in Y. unfold initial in Y. destruct X as [X|[X X']].
      * apply A5 in X. lia.
      * eapply others_differ; eauto.
Qed.

Definition local {A} (p : prog A) : Prop := match p with Alloc _ _ | Lock _ | Unlock _ => False | _ => True end.

Lemma own_step {A} t P K S U (p : prog A) Q R p' S' p'' U' : agree t P S U -> incl K (initial h0) -> disc M Hd t P K false Q R p -> local p ->
  step1 p S = Some (p', S') -> step1 p U = Some (p'', U') ->
  p'' = p' /\ agree t P S' U' /\ length (heap U') = length (heap U) /\ exists K', incl K' (initial h0) /\ disc M Hd t P K' false Q R p'.
Proof.
  intros A0 HK D L H1 H2. destruct p; cbn [disc local step1] in *; try discriminate; try contradiction.
  - injection H1 as <- <-. injection H2 as <- <-. destruct D as [_ D]. rewrite (ag_hdS _ _ _ _ A0), (ag_hdU _ _ _ _ A0).
    split; [reflexivity|split; [exact A0|split; [reflexivity|]]]. exists (add K (s_blk hd0)). split; [|apply D; now apply Hd_only]. intros b [B| ->]; auto.
  - rewrite hd_fixed in D. destruct D as [[] _].
  - injection H1 as <- <-. injection H2 as <- <-. destruct D as [D1 D2]. rewrite (ag_fld _ _ _ _ A0 _ D1). split; [reflexivity|split; [exact A0|split; [reflexivity|eauto]]].
  - injection H1 as <- <-. injection H2 as <- <-. destruct D as [D1 D2]. split; [reflexivity|split; [now apply agree_fld|split; [reflexivity|eauto]]].
  - destruct (heap_read (heap S) blk i 1) as [[|v [|]]|] eqn:R1; try discriminate. injection H1 as <- <-.
    destruct (heap_read (heap U) blk i 1) as [[|w [|]]|] eqn:R2; try discriminate. injection H2 as <- <-.
    destruct D as [D1 D2]. assert (E : [v] = [w]). { eapply agree_read; eauto. intros j Hj. replace j with i by lia. auto. }
    injection E as ->. split; [reflexivity|split; [exact A0|split; [reflexivity|eauto]]].
  - destruct (heap_write (heap S) blk i [v]) as [h|] eqn:R1; try discriminate. injection H1 as <- <-.
    destruct (heap_write (heap U) blk i [v]) as [h'|] eqn:R2; try discriminate. injection H2 as <- <-.
    destruct D as [D1 D2]. split; [reflexivity|split; [eapply agree_write; eauto|split; [cbn; now apply written in R2|eauto]]].
  - destruct (heap_read (heap S) _ _ n) as [d|] eqn:R1; try discriminate.
    destruct (heap_read (heap U) _ _ n) as [d'|] eqn:R2; try discriminate.
    destruct D as (_ & _ & D1 & D2 & D3). assert (d = d') as <- by (eapply agree_read; eauto).
    destruct (heap_write (heap S) _ _ d) as [h|] eqn:R3; try discriminate. injection H1 as <- <-.
    destruct (heap_write (heap U) _ _ d) as [h'|] eqn:R4; try discriminate. injection H2 as <- <-.
    split; [reflexivity|split; [eapply agree_write; eauto|split; [cbn; now apply written in R4|eauto]]].
Qed.

(** What the goroutine can do alone it can do in company. *)
Lemma reads_too t (P K : nat -> Prop) S U b i n d : agree t P S U -> incl K (initial h0) -> P b \/ K b ->
  heap_read (heap U) b i n = Some d -> exists d', heap_read (heap S) b i n = Some d' /\ zlen d' = zlen d.
Proof.
  intros A HK B H. apply heap_read_inv in H as (H1 & H2 & H3 & H4 & ->).
  assert (Z : zlen (block S b) = zlen (block U b)) by (apply (ag_size _ _ _ _ A); destruct B; auto; right; now apply HK).
  unfold block in Z. pose proof (ag_len _ _ _ _ A).
  exists (sub (nth b (heap S) []) i n). split; [apply heap_read_ok; auto; lia|]. rewrite !sub_length; auto; lia.
Qed.
Lemma writes_too t (P K : nat -> Prop) S U b i d d' h : agree t P S U -> incl K (initial h0) -> P b \/ K b -> zlen d' = zlen d ->
  heap_write (heap U) b i d = Some h -> exists h', heap_write (heap S) b i d' = Some h'.
Proof.
  intros A HK B E H. apply heap_write_inv in H as (H1 & H2 & H3 & ->).
  assert (Z : zlen (block S b) = zlen (block U b)) by (apply (ag_size _ _ _ _ A); destruct B; auto; right; now apply HK).
  unfold block in Z. pose proof (ag_len _ _ _ _ A). eexists. apply heap_write_ok; auto; lia.
Qed.
Lemma steps_too {A} t P K S U (p : prog A) Q R p' U' : agree t P S U -> incl K (initial h0) -> disc M Hd t P K false Q R p ->
  match p with Lock _ | Unlock _ => False | _ => True end ->
  step1 p U = Some (p', U') -> exists p'' S', step1 p S = Some (p'', S').
Proof.
  intros A0 HK D L H. destruct p; cbn [disc step1] in *; try discriminate; try contradiction; eauto.
  - destruct (heap_read (heap U) blk i 1) as [[|w [|]]|] eqn:R2; try discriminate.
    destruct D as [D1 D2]. eapply reads_too in R2 as (d & -> & Z); eauto.
    + destruct d as [|x [|y d]]; [discriminate Z| |unfold zlen in Z; cbn in Z; lia]. eauto.
    + destruct D1 as [D1|[D1 _]]; auto.
  - destruct (heap_write (heap U) blk i [v]) as [h'|] eqn:R2; try discriminate.
    destruct D as [D1 D2]. eapply writes_too in R2 as (h & E); eauto.
    + rewrite E. eauto.
    + destruct D1 as [D1|[D1 _]]; auto.
  - destruct (heap_read (heap U) _ _ n) as [d'|] eqn:R2; try discriminate.
    destruct (heap_write (heap U) _ _ _) as [h'|] eqn:R4; try discriminate.
    destruct D as (D1 & D2 & _). eapply reads_too in R2 as (d & E & Z); eauto. rewrite E.
    eapply writes_too in R4 as (h & E'); eauto. rewrite E'. eauto.
Qed.

Lemma other_step {A} t u (Pt Pu K : nat -> Prop) S U (p : prog A) Q R p' S' : t <> u -> (forall c, Pt c -> Pu c -> False) ->
  (forall c, Pu c -> (h0 <= c)%nat) -> incl K (initial h0) -> disc M Hd u Pu K false Q R p ->
  match p with Lock _ | Unlock _ => False | _ => True end ->
  step1 p S = Some (p', S') -> agree t Pt S U -> agree t Pt S' U.
Proof.
  intros N Dj HP HK D L H A0. destruct p; cbn [disc step1] in *; try discriminate; try contradiction.
  - injection H as <- <-. auto.
  - rewrite hd_fixed in D. destruct D as [[] _].
  - injection H as <- <-. auto.
  - injection H as <- <-. destruct A0 as [A1 A2 A3 A4 A5 A6 A7]. constructor; cbn [bb set_bb heap]; rewrite ?buf_upd; auto.
    intros g G. rewrite get_upd. destruct (fld_eqb g f) eqn:E; auto. assert (g = f) as -> by (destruct g, f; auto; discriminate).
    destruct D as [D _]. exfalso. eapply others_differ; eauto.
  - destruct (heap_read (heap S) blk i 1) as [[|v [|]]|] eqn:R1; try discriminate. injection H as <- <-. auto.
  - destruct (heap_write (heap S) blk i [v]) as [h|] eqn:R1; try discriminate. injection H as <- <-.
    destruct D as [D _]. eapply agree_other_write; eauto. change (zlen [v]) with 1. intros j Hj. now replace j with i by lia.
  - destruct (heap_read (heap S) _ _ n) as [d|] eqn:R1; try discriminate.
    destruct (heap_write (heap S) _ _ d) as [h|] eqn:R2; try discriminate. injection H as <- <-.
    destruct D as (_ & _ & D & _). eapply agree_other_write; eauto. apply heap_read_inv in R1 as (_ & R1 & R3 & R4 & ->).
    rewrite sub_length by auto. exact D.
  - injection H as <- <-. destruct A0 as [A1 A2 A3 A4 A5 A6 A7]. constructor; auto; cbn [heap set_heap].
    + rewrite app_length. lia.
    + intros b B. rewrite block_alloc; auto. destruct B as [B|B]; [apply A5 in B|]; lia.
    + intros b i Hi B. unfold byte_at at 1. rewrite block_alloc; [now apply A7|]. destruct B as [B|[B _]]; [apply A5 in B|]; lia.
Qed.
End Sim.

(** ** Runs in small steps *)

(** [al]: allocations are allowed. *)
Inductive psteps {A} (al : bool) (p : prog A) (s : St) : prog A -> St -> Prop :=
| ps_refl : psteps al p s p s
| ps_step p1 s1 p2 s2 : psteps al p s p1 s1 -> (al = true \/ match p1 with Alloc _ _ => False | _ => True end) ->
    step1 p1 s1 = Some (p2, s2) -> psteps al p s p2 s2.
Lemma step1_run {A} (p : prog A) s p' s' : step1 p s = Some (p', s') -> run p s = run p' s'.
Proof.
  destruct p; cbn [step1 run]; intro H; try discriminate; try (injection H as <- <-; reflexivity).
  - destruct (heap_read _ _ _ _) as [[|v [|]]|]; try discriminate. injection H as <- <-. reflexivity.
  - destruct (heap_write _ _ _ _); try discriminate. injection H as <- <-. reflexivity.
  - destruct (heap_read _ _ _ _); try discriminate. destruct (heap_write _ _ _ _); try discriminate. injection H as <- <-. reflexivity.
  - destruct (mu s); try discriminate. injection H as <- <-. reflexivity.
  - destruct (mu s); try discriminate. injection H as <- <-. reflexivity.
Qed.
Lemma psteps_run {A} al (p : prog A) s p' s' : psteps al p s p' s' -> run p s = run p' s'.
Proof. induction 1; auto. rewrite IHpsteps. now apply step1_run. Qed.
Lemma psteps_any {A} al (p : prog A) s p' s' : psteps al p s p' s' -> psteps true p s p' s'.
Proof. induction 1; [constructor|]. eapply ps_step; eauto. Qed.

Lemma pad_read s k b i n d : heap_read (heap s) b i n = Some d -> heap_read (heap (pad s k)) b i n = Some d.
Proof.
  intro H. apply heap_read_inv in H as (H1 & H2 & H3 & H4 & ->). pose proof (block_pad s k b) as E. unfold block in E.
  rewrite heap_read_ok; rewrite ?E; auto. unfold pad. cbn. rewrite app_length. lia.
Qed.
Lemma put_app {A} (l m : list A) i d : 0 <= i -> i + zlen d <= zlen l -> put (l ++ m) i d = put l i d ++ m.
Proof.
  intros H1 H2. unfold put, zlen in *. rewrite firstn_app, skipn_app.
  replace (Z.to_nat i - length l)%nat with O by lia.
  replace (Z.to_nat i + length d - length l)%nat with O by lia. cbn [firstn skipn]. rewrite app_nil_r, <- !app_assoc. reflexivity.
Qed.
Lemma pad_write s k b i d h : heap_write (heap s) b i d = Some h -> heap_write (heap (pad s k)) b i d = Some (h ++ repeat [] k).
Proof.
  intro H. apply heap_write_inv in H as (H1 & H2 & H3 & ->). pose proof (block_pad s k b) as E. unfold block in E.
  rewrite heap_write_ok; rewrite ?E; auto; [|unfold pad; cbn; rewrite app_length; lia].
  unfold pad. cbn [heap set_heap]. rewrite put_app; auto; [lia|]. change (zlen [put (nth b (heap s) []) i d]) with 1. unfold zlen. lia.
Qed.
Lemma pad_step {A} (p : prog A) s p' s' k : match p with Alloc _ _ => False | _ => True end -> step1 p s = Some (p', s') -> step1 p (pad s k) = Some (p', pad s' k).
Proof.
  intros N H. destruct p; cbn [step1] in *; try discriminate; try contradiction; try (injection H as <- <-; reflexivity).
  - destruct (heap_read (heap s) _ _ _) as [[|v [|]]|] eqn:E; try discriminate. injection H as <- <-. now rewrite (pad_read _ _ _ _ _ _ E).
  - destruct (heap_write (heap s) _ _ _) as [h|] eqn:E; try discriminate. injection H as <- <-. now rewrite (pad_write _ _ _ _ _ _ E).
  - destruct (heap_read (heap s) _ _ _) as [d|] eqn:E; try discriminate. rewrite (pad_read _ _ _ _ _ _ E).
    destruct (heap_write (heap s) _ _ _) as [h|] eqn:E2; try discriminate. injection H as <- <-. now rewrite (pad_write _ _ _ _ _ _ E2).
  - cbn [mu pad set_heap]. destruct (mu s); try discriminate. injection H as <- <-. reflexivity.
  - cbn [mu pad set_heap]. destruct (mu s); try discriminate. injection H as <- <-. reflexivity.
Qed.
Lemma pad_psteps {A} (p : prog A) s p' s' k : psteps false p s p' s' -> psteps false p (pad s k) p' (pad s' k).
Proof.
  induction 1; [constructor|]. destruct H0 as [H0|H0]; [discriminate|]. eapply ps_step; eauto. now apply pad_step.
Qed.

(** ** Calls made alone *)

Section Solo.
Variable s0 : St.

(** The calls made one after the other, each with its answer; arrays may be added
    between calls. *)
Inductive solo : list (call slice * answer) -> St -> Prop :=
| so_start : solo [] s0
| so_pad l V k : solo l V -> solo l (pad V k)
| so_call l V c r V' : solo l V -> valid_call V c -> view_call V c = view_call s0 c ->
    exec1 (History.ECall c) V = Some ([r], V') -> solo (l ++ [(c, r)]) V'.

Lemma pad_S s k : pad s (S k) = alloc (pad s k) [].
Proof. unfold pad, alloc, set_heap. cbn [heap bb mu outs]. f_equal. rewrite <- app_assoc. f_equal. apply repeat_cons. Qed.
Lemma pad_WF s k : WF s -> WF (pad s k) /\ abs (pad s k) = abs s.
Proof.
  intro W. induction k as [|k [W1 A1]].
  - unfold pad. cbn. rewrite app_nil_r, set_heap_id. auto.
  - rewrite pad_S. split; [apply alloc_WF; auto; change (zlen []) with 0; change maxAlloc with (2 ^ 48); lia|].
    rewrite abs_alloc; auto.
Qed.

Lemma solo_abs l V : WF s0 -> solo l V -> WF V /\ alone s0 (map fst l) = (map snd l, abs V).
Proof.
  intros W H. induction H as [|l V k H [W1 A1]|l V c r V' H [W1 A1] VC VW E].
  - split; auto.
  - destruct (pad_WF V k W1) as [W2 A2]. split; auto. now rewrite A2.
  - destruct (exec1_refines (History.ECall c) V W1 VC) as (a & s' & E' & W' & _ & _ & R). rewrite E in E'. injection E' as <- <-.
    split; auto. unfold alone in *. rewrite map_app, map_app, abs_exec_app, A1. cbn [map fst snd].
    cbn [view_event] in R. rewrite VW in R. rewrite R. now rewrite map_app.
Qed.
End Solo.

(** ** All goroutines *)

(** A part of the buffer, from memory. *)
Lemma sub_sub_app {A} (l : list A) o n m : 0 <= o -> 0 <= n -> 0 <= m -> o + n + m <= zlen l -> sub l o n ++ sub l (o + n) m = sub l o (n + m).
Proof.
  intros H1 H2 H3 H4. apply nth_error_ext. intro j.
  assert (L1 : length (sub l o n) = Z.to_nat n) by (pose proof (sub_length l o n); unfold zlen in *; lia).
  rewrite nth_error_app_if, !nth_error_sub, L1. unfold zlen in H4. nat_cases; try lia; auto. f_equal. lia.
Qed.
Lemma part_byte s i : WF s -> part (Byte i) (abs s) = if (0 <=? i) && (i <? s_cap (b_buf (bb s))) then byte_at s (s_blk (b_buf (bb s))) (s_off (b_buf (bb s)) + i) else 0.
Proof.
  intro W. destruct (wf_sl _ W) as (W1 & W2 & W3 & W4). cbn [part abs a_bytes a_spare]. destruct (Z.leb_spec 0 i); cbn [andb]; auto.
  unfold content, slice_bytes, spare. rewrite sub_sub_app by lia. unfold byte_at, block. rewrite !nth_nth_error, nth_error_sub.
  destruct (Z.ltb_spec i (s_cap (b_buf (bb s)))); nat_cases; try lia; auto. f_equal. rewrite Z2Nat.inj_add by lia. reflexivity.
Qed.
Lemma part_len s : WF s -> zlen (content s) = s_len (b_buf (bb s)).
Proof. intro W. destruct (wf_sl _ W) as (W1 & W2 & W3 & W4). unfold content, slice_bytes. apply sub_length; lia. Qed.

Section Shared.
Variables (s0 : St) (programs : list (list (call slice))).
Hypothesis W0 : WF s0.
Hypothesis valid0 : Forall (Forall (valid_call s0)) programs.
Hypothesis separate0 : Forall (Forall (separate s0)) programs.
Hypothesis in_place0 : Forall (Forall in_place) programs.
Hypothesis indep : independent programs.

Let hd0 := b_buf (bb s0).
Let h0 := length (heap s0).
Let pm := owner_mode programs.
Let M := modes3 hd0 h0 pm.
Let Hd := headers3 hd0 h0 pm.
Let no_one := length programs.

Lemma of_program {Q : call slice -> Prop} t cs c : Forall (Forall Q) programs -> nth_error programs t = Some cs -> In c cs -> Q c.
Proof. intros F E I. apply nth_error_In in E. rewrite Forall_forall in F. specialize (F cs E). rewrite Forall_forall in F. auto. Qed.

Lemma indep_comp : compatible3 programs.
Proof.
  intros t u cs ds c d N E1 E2 I1 I2 (x & X & Y). destruct (indep t u cs ds c d x N E1 E2 I1 I2 X) as [S1 S2].
  unfold sees in S1. apply orb_false_iff in S1 as [S1 _]. destruct Y; congruence.
Qed.
Lemma slice_frozen : pm Slice = Frozen.
Proof.
  unfold pm, owner_mode. destruct (owner programs Slice) as [u|] eqn:O; auto.
  apply owner_some in O as (cs & c & E & I & X). pose proof (of_program u cs c in_place0 E I) as F.
  destruct c; cbn in X, F; try discriminate; contradiction.
Qed.
Lemma owner_sees x t cs c : nth_error programs t = Some cs -> In c cs -> sees c x = true -> may_read (pm x) t false.
Proof.
  intros E I R. unfold pm, owner_mode. destruct (owner programs x) as [u|] eqn:O; cbn; auto.
  apply owner_some in O as (ds & d & E' & I' & X). destruct (Nat.eq_dec t u) as [|N]; auto.
  destruct (indep u t ds cs d c x) as [S1 _]; auto. congruence.
Qed.
Lemma hd_in : (s_blk hd0 < h0)%nat.
Proof. apply wf_blk. exact W0. Qed.
Lemma Hd_is s : Hd s <-> s = hd0.
Proof. unfold Hd, headers3. rewrite slice_frozen. reflexivity. Qed.
Lemma M_header : M LHeader = Frozen.
Proof. exact slice_frozen. Qed.
Lemma M_own i : M (LByte (s_blk hd0) i) = pm (Byte (i - s_off hd0)).
Proof. unfold M, modes3. rewrite own_inside, slice_frozen, Nat.eqb_refl. reflexivity. Qed.
Lemma M_outside b i : (b < h0)%nat -> b <> s_blk hd0 -> M (LByte b i) = Frozen.
Proof. intros H1 H2. unfold M, modes3, outside. apply Nat.ltb_lt in H1. apply Nat.eqb_neq in H2. now rewrite H1, H2. Qed.

Notation agree := (agree M hd0 h0).
Notation disc t P K p := (disc M Hd t P K false yes (fun _ => True) p).

Lemma call_disc t cs c : nth_error programs t = Some cs -> In c cs -> disc t RaceLemmas.none (initial h0) (do_call c).
Proof.
  intros E I. apply (disc_call3 _ _ _ _ hd_in s0); auto.
  - exact (of_program t cs c valid0 E I).
  - exact (of_program t cs c separate0 E I).
  - left. exact slice_frozen.
  - intros x X. eapply owner_reads; eauto using indep_comp.
  - intros x X. eapply owner_writes; eauto using indep_comp.
Qed.

(** The argument of a call is the same for a goroutine alone. *)
Lemma call_fits t cs c V S : nth_error programs t = Some cs -> In c cs -> agree t RaceLemmas.none S V ->
  agree no_one RaceLemmas.none S s0 -> valid_call V c /\ view_call V c = view_call s0 c.
Proof.
  intros E I A N. pose proof (of_program t cs c valid0 E I) as VC. pose proof (of_program t cs c separate0 E I) as SC.
  assert (D : forall d, wf_arg s0 d -> s_blk d <> s_blk hd0 -> wf_arg V d /\ slice_bytes (heap V) d = slice_bytes (heap s0) d).
  { intros d (D1 & D2 & D3 & D4) D5.
    assert (Z : zlen (block V (s_blk d)) = zlen (block s0 (s_blk d))).
    { rewrite <- (ag_size _ _ _ _ _ _ _ A), <- (ag_size _ _ _ _ _ _ _ N); auto. }
    unfold block in Z. split.
    - unfold wf_arg, wf_slice. rewrite Z. repeat split; auto; try lia. apply (ag_len _ _ _ _ _ _ _) in A. unfold h0 in A. lia.
    - unfold slice_bytes. apply sub_same; auto; try lia. intros j Hj.
      change (byte_at V (s_blk d) j = byte_at s0 (s_blk d) j).
      rewrite <- (ag_byte _ _ _ _ _ _ _ A), <- (ag_byte _ _ _ _ _ _ _ N); auto; try lia; right; split; auto; rewrite M_outside; cbn; auto. }
  destruct c as [off o|o| | | |off r|off r|off|off| | |n|n|n| | | | | | |]; cbn [valid_call view_call] in *; auto.
  - destruct VC as [V1 V2]. destruct o; cbn [valid_opn abs_opn separate] in *; auto. destruct (D d V2 SC) as [D1 D2]. rewrite D2. auto.
  - destruct o; cbn [valid_opn abs_opn separate] in *; auto. destruct (D d VC SC) as [D1 D2]. rewrite D2. auto.
Qed.

(** A returned slice shows only bytes that the caller sees. *)
Lemma add_in off n : is_i64 off -> is_i64 n -> 0 <= off <= off +! n -> off +! n = off + n.
Proof.
  intros H1 H2 H3. destruct (wrap64_cases (off + n)) as [k K]. pose proof (add64_range off n). unfold is_i64, add64 in *. rewrite K in *. lia.
Qed.
Lemma returned_slice V c sl U : WF V -> b_buf (bb V) = hd0 -> valid_call V c -> run (do_call c) V = Done (RBytes sl) U ->
  s_blk sl = s_blk hd0 /\ 0 <= s_off sl /\ 0 <= s_len sl /\
  forall j, s_off sl <= j < s_off sl + s_len sl -> sees c (Byte (j - s_off hd0)) = true.
Proof.
  intros W B VC R.
  assert (O : 0 <= s_off hd0) by (rewrite <- B; now apply wf_off0).
  assert (L : 0 <= s_len hd0) by (rewrite <- B; now apply wf_len0).
  assert (P : forall (A : Type) (p : prog A) (f : A -> rv slice) V, (forall x, match f x with RBytes _ => False | _ => True end) ->
    run (x <- p ;; Ret (f x)) V = Done (RBytes sl) U -> False).
  { intros A p f V' F. rewrite run_bind. destruct (run p V') as [x ?| | |]; cbn [run]; try discriminate. intro X. injection X as X _.
    specialize (F x). now rewrite X in F. }
  destruct c as [off o|o| | | |off r|off r|off|off| | |n|n|n| | | | | | |]; cbn [do_call] in R;
    unfold ret_unit, ret_int, ret_bytes, ret_nums in R; try (exfalso; eapply P in R; [exact R|intro; exact I]).
  - destruct o; cbn [do_at] in R; unfold ret_unit, ret_int, ret_bytes, ret_nums in R; try (exfalso; eapply P in R; [exact R|intro; exact I]).
    destruct VC as [V1 V2]. cbn [valid_opn] in V2. revert R. unfold V3Buffer.ReadBytes, get, get_buf, panic_if, reslice. cbn [bind run].
    destruct (_ >? _); cbn [bind run]; [discriminate|]. destruct (Z.ltb_spec off 0); cbn [bind run]; [discriminate|]. rewrite B.
    destruct (_ && _) eqn:C; cbn [bind run]; [|discriminate]. intro R. injection R as <- <-. cbn [s_blk s_off s_len].
    assert (E : off +! n = off + n) by (apply add_in; auto; lia). rewrite E.
    repeat split; try lia. intros j Hj. unfold sees. cbn [reads3 span orb]. lia.
  - destruct o; cbn [do_next] in R; unfold ret_unit, ret_int, ret_bytes, ret_nums in R; try (exfalso; eapply P in R; [exact R|intro; exact I]).
    revert R. unfold V3Buffer.ReadBytesNext, V3Buffer.ReadBytes, V3Buffer.SeekByte, get, set, get_buf, panic_if, reslice. cbn [bind run].
    destruct (_ >? _); cbn [bind run]; [discriminate|]. destruct (Z.ltb_spec (get_fld (bb V) FOff) 0); cbn [bind run]; [discriminate|]. rewrite B.
    destruct (_ && _) eqn:C; cbn [bind run]; [|discriminate]. intro R. injection R as <- <-. cbn [s_blk s_off s_len].
    cbn [get_fld] in H, C. repeat split; lia.
  - cbn in R. injection R as <- <-. rewrite B. repeat split; auto.
Qed.

Definition track (t : nat) (P : nat -> Prop) (S : St) (g : goroutine (call slice)) (rs : list (call slice * answer)) : Prop :=
  exists cs, nth_error programs t = Some cs /\
  match cur g with
  | None => map fst rs ++ todo g = cs /\ exists V, solo s0 rs V /\ agree t P S V
  | Some (c, p) => map fst rs ++ c :: todo g = cs /\
      exists V U K, solo s0 rs V /\ valid_call V c /\ view_call V c = view_call s0 c /\ b_buf (bb V) = hd0 /\
        incl K (initial h0) /\ disc t P K p /\ agree t P S U /\
        ((psteps false (do_call c) V p U /\ single p) \/ (psteps true (do_call c) V p U /\ quiet p))
  end.

Record inv (h : list (Conc.event (call slice))) (c : config (call slice)) (P : nat -> nat -> Prop) : Prop := mkInv {
  in_len : length (gs c) = length programs;
  in_track : forall t g, nth_error (gs c) t = Some g -> track t (P t) (sh c) g (returns_of t h);
  in_apart : forall t u b, t <> u -> P t b -> P u b -> False;
  in_new : forall t b, P t b -> (h0 <= b < length (heap (sh c)))%nat;
  in_cover : forall b, (h0 <= b < length (heap (sh c)))%nat -> exists t, (t < length programs)%nat /\ P t b;
  in_frozen : agree no_one RaceLemmas.none (sh c) s0 }.

Definition set_p (P : nat -> nat -> Prop) (t : nat) (X : nat -> Prop) : nat -> nat -> Prop := fun u => if Nat.eqb u t then X else P u.

Lemma agree_start t : agree t RaceLemmas.none s0 s0.
Proof. constructor; auto; try contradiction. Qed.

Lemma inv_start : inv [] (start s0 programs) (fun _ => RaceLemmas.none).
Proof.
  constructor; cbn [gs sh start]; try (intros; contradiction).
  - apply map_length.
  - intros t g E. rewrite nth_error_map in E. destruct (nth_error programs t) as [cs|] eqn:E'; [|discriminate]. injection E as <-.
    exists cs. split; auto. cbn. split; auto. exists s0. split; [constructor|apply agree_start].
  - intros b H. unfold h0 in H. lia.
  - apply agree_start.
Qed.

(** What the others know is not affected by a step of goroutine [t] that leaves memory alone. *)
Lemma inv_still h c P t g g' e : inv h c P -> nth_error (gs c) t = Some g -> (forall u, u <> t -> returns_of u e = []) ->
  track t (P t) (sh c) g' (returns_of t (h ++ e)) -> inv (h ++ e) (set_g c t (sh c) g') P.
Proof.
  intros [I1 I2 I3 I4 I5 I6] E He T. assert (L : (t < length (gs c))%nat) by (apply nth_error_Some; congruence).
  constructor; cbn [gs sh set_g]; auto.
  - now rewrite length_set_nth.
  - intros u gu Eu. rewrite nth_error_set_nth in Eu by auto. destruct (Nat.eqb_spec u t) as [->|N].
    + injection Eu as <-. exact T.
    + rewrite returns_of_app, He, app_nil_r by auto. auto.
Qed.

Lemma track_other t u (Pt Pu K : nat -> Prop) S (p : prog (rv slice)) p' S' g rs : t <> u -> (forall c, Pt c -> Pu c -> False) ->
  (forall c, Pu c -> (h0 <= c)%nat) -> incl K (initial h0) -> disc u Pu K p ->
  match p with Lock _ | Unlock _ => False | _ => True end ->
  step1 p S = Some (p', S') -> track t Pt S g rs -> track t Pt S' g rs.
Proof.
  intros N Dj HP HK D L H (cs & E & T). exists cs. split; auto. destruct (cur g) as [[c q]|].
  - destruct T as (T1 & V & U & K' & A1 & A2 & A3 & A4 & A5 & A6 & A7 & A8). split; auto. exists V, U, K'.
    repeat (split; [assumption|]). split; auto. eapply (other_step M Hd hd0 h0 Hd_is hd_in M_header t u Pt Pu K); eauto.
  - destruct T as (T1 & V & A1 & A2). split; auto. exists V. split; auto.
    eapply (other_step M Hd hd0 h0 Hd_is hd_in M_header t u Pt Pu K); eauto.
Qed.

Lemma call_runs V c : WF V -> valid_call V c -> run (do_call c) V <> Stuck /\ forall s, run (do_call c) V <> Deadlock s.
Proof.
  intros W VC. destruct (exec1_refines (History.ECall c) V W VC) as (a & s' & E & _). cbn [exec1] in E.
  destruct (run (do_call c) V); split; try congruence.
Qed.
Lemma fits_pad V c k : WF V -> valid_call V c -> valid_call (pad V k) c /\ view_call (pad V k) c = view_call V c.
Proof.
  intros W VC.
  assert (D : forall d, wf_arg V d -> wf_arg (pad V k) d /\ slice_bytes (heap (pad V k)) d = slice_bytes (heap V) d).
  { intros d (D1 & D2 & D3 & D4). pose proof (block_pad V k (s_blk d)) as E. unfold block in E.
    unfold wf_arg, wf_slice, slice_bytes. rewrite E. repeat split; auto; try lia. unfold pad. cbn. rewrite app_length. lia. }
  destruct c as [off o|o| | | |off r|off r|off|off| | |n|n|n| | | | | | |]; cbn [valid_call view_call] in *; auto.
  - destruct VC as [V1 V2]. destruct o; cbn [valid_opn abs_opn] in *; auto. destruct (D d V2) as [D1 D2]. rewrite D2. auto.
  - destruct o; cbn [valid_opn abs_opn] in *; auto. destruct (D d VC) as [D1 D2]. rewrite D2. auto.
Qed.

(** A step of goroutine [t] inside a call. *)
Lemma inv_access h c P t os o p p' s' : inv h c P -> nth_error (gs c) t = Some (mkG os (Some (o, p))) -> step1 p (sh c) = Some (p', s') ->
  exists P', inv (h ++ []) (set_g c t s' (mkG os (Some (o, p')))) P'.
Proof.
  intros [I1 I2 I3 I4 I6 I5] E St. rewrite app_nil_r. assert (L : (t < length (gs c))%nat) by (apply nth_error_Some; congruence).
  destruct (I2 t _ E) as (cs & C & T). cbn [cur todo] in T. destruct T as (T1 & V & U & K & A1 & A2 & A3 & A4 & A5 & A6 & A7 & A8).
  assert (LK : match p with Lock _ | Unlock _ => False | _ => True end).
  { destruct A8 as [[_ X]|[_ X]]; destruct p; cbn in X; auto. }
  destruct (solo_abs s0 _ _ W0 A1) as [WV _].
  assert (N : no_one <> t) by (unfold no_one; lia).
  assert (F : agree no_one RaceLemmas.none s' s0).
  { eapply (other_step M Hd hd0 h0 Hd_is hd_in M_header no_one t RaceLemmas.none (P t) K); eauto. intros b B. apply I4 in B. lia. }
  assert (O : forall u g, u <> t -> nth_error (gs c) u = Some g -> track u (P u) s' g (returns_of u h)).
  { intros u g Nu Eu. eapply (track_other u t (P u) (P t) K); eauto. intros b B. apply I4 in B. lia. }
  destruct (Bool.bool_dec (match p with Alloc _ _ => true | _ => false end) true) as [AL|AL].
  - (* an allocation: the goroutine alone gets the same array *)
    destruct p as [| | | | | | | | | |l kk| | | |]; try discriminate AL. clear AL. cbn [step1] in St. injection St as <- <-.
    destruct A8 as [[B1 B2]|[_ B2]]; [|contradiction B2]. cbn [single] in B2.
    set (k := (length (heap (sh c)) - length (heap U))%nat). set (b := length (heap (sh c))) in *.
    assert (Lk : (length (heap U) + k = length (heap (sh c)))%nat) by (pose proof (ag_len _ _ _ _ _ _ _ A7); unfold k, b; lia).
    assert (Lp : length (heap (pad U k)) = b) by (unfold pad; cbn; rewrite app_length, repeat_length; lia).
    exists (set_p P t (add (P t) b)). constructor; cbn [gs sh set_g]; auto.
    + now rewrite length_set_nth.
    + intros u gu Eu. rewrite nth_error_set_nth in Eu by auto. unfold set_p. destruct (Nat.eqb_spec u t) as [->|Nu]; [|auto].
      injection Eu as <-. exists cs. split; auto. cbn [cur todo]. split; auto.
      exists (pad V k), (set_heap (pad U k) (heap (pad U k) ++ [l])), K.
      destruct (fits_pad V o k WV A2) as [X1 X2].
      split; [now constructor|]. split; [exact X1|]. split; [congruence|]. split; [exact A4|]. split; [exact A5|]. split; [|split].
      * cbn [RaceLemmas.disc] in A6. apply A6. intro X. apply A5 in X. unfold initial in X. pose proof (ag_len _ _ _ _ _ _ _ A7). unfold b in X. lia.
      * apply (agree_alloc M Hd hd0 h0 Hd_is hd_in); [exact Lp|]. apply (agree_pad M Hd hd0 h0 Hd_is hd_in); auto. lia.
      * right. split; [|apply B2]. eapply ps_step; [apply (psteps_any false), pad_psteps; exact B1|now left|].
        cbn [step1]. rewrite Lp. reflexivity.
    + intros u v x Nu. unfold set_p. destruct (Nat.eqb_spec u t) as [->|N1], (Nat.eqb_spec v t) as [->|N2]; try congruence.
      * intros [X|X] Y; [eauto|]. subst x. apply I4 in Y. unfold b in Y. lia.
      * intros X [Y|Y]; [eauto|]. subst x. apply I4 in X. unfold b in X. lia.
      * apply I3. auto.
    + intros u x. cbn [heap set_heap]. rewrite app_length. cbn [length]. unfold set_p. destruct (Nat.eqb_spec u t) as [->|].
      * intros [X| ->]; [apply I4 in X; lia|]. pose proof (ag_len _ _ _ _ _ _ _ A7). unfold b. lia.
      * intro X. apply I4 in X. lia.
    + intros x. cbn [heap set_heap]. rewrite app_length. cbn [length]. intro X. unfold set_p. destruct (Nat.eq_dec x b) as [->|Nx].
      * exists t. rewrite Nat.eqb_refl. split; [lia|right; reflexivity].
      * destruct (I6 x) as (u & U1 & U2); [unfold b in Nx; lia|]. exists u. split; auto. destruct (Nat.eqb_spec u t) as [->|]; auto. left. auto.
  - (* any other access: the goroutine alone makes the same one *)
    assert (RU : run (do_call o) V = run p U) by (destruct A8 as [[X _]|[X _]]; eapply psteps_run; eauto).
    destruct (call_runs V o WV A2) as [R1 R2]. rewrite RU in R1, R2.
    destruct (step1_progress p U R1 R2) as [EN|(p'' & U' & SU)].
    { destruct p; try contradiction EN; discriminate St. }
    assert (LC : local p) by (destruct p; cbn in *; auto; congruence).
    destruct (own_step M Hd hd0 h0 Hd_is hd_in M_header t (P t) K (sh c) U p _ _ p' s' p'' U' A7 A5 A6 LC St SU) as (-> & A' & LU & K' & K1 & K2).
    assert (LS : length (heap s') = length (heap (sh c))).
    { clear - St AL. destruct p; cbn [step1] in St; try discriminate; try congruence; try (injection St as <- <-; reflexivity).
      - destruct (heap_read _ _ _ _) as [[|v [|]]|]; try discriminate. injection St as <- <-. reflexivity.
      - destruct (heap_write _ _ _ _) eqn:E; try discriminate. injection St as <- <-. now apply written in E.
      - destruct (heap_read _ _ _ _); try discriminate. destruct (heap_write _ _ _ _) eqn:E; try discriminate. injection St as <- <-. now apply written in E.
      - destruct (mu (sh c)); try discriminate. injection St as <- <-. reflexivity.
      - destruct (mu (sh c)); try discriminate. injection St as <- <-. reflexivity. }
    exists P. constructor; cbn [gs sh set_g]; auto.
    + now rewrite length_set_nth.
    + intros u gu Eu. rewrite nth_error_set_nth in Eu by auto. destruct (Nat.eqb_spec u t) as [->|Nu]; [|auto].
      injection Eu as <-. exists cs. split; auto. cbn [cur todo]. split; auto. exists V, U', K'.
      repeat (split; [assumption|]). destruct A8 as [[X1 X2]|[X1 X2]].
      * left. split.
        { eapply ps_step; eauto. right. destruct p; auto. }
        { clear - X2 St AL. destruct p; cbn [step1 single] in *; try discriminate; try congruence; try contradiction;
            try (injection St as <- <-; auto; fail).
          - destruct (heap_read _ _ _ _) as [[|v [|]]|]; try discriminate. injection St as <- <-. auto.
          - destruct (heap_write _ _ _ _); try discriminate. injection St as <- <-. auto.
          - destruct (heap_read _ _ _ _); try discriminate. destruct (heap_write _ _ _ _); try discriminate. injection St as <- <-. auto. }
      * right. split.
        { eapply ps_step; eauto. }
        { clear - X2 St. destruct p; cbn [step1 quiet] in *; try discriminate; try contradiction;
            try (injection St as <- <-; auto; fail).
          - destruct (heap_read _ _ _ _) as [[|v [|]]|]; try discriminate. injection St as <- <-. auto.
          - destruct (heap_write _ _ _ _); try discriminate. injection St as <- <-. auto.
          - destruct (heap_read _ _ _ _); try discriminate. destruct (heap_write _ _ _ _); try discriminate. injection St as <- <-. auto. }
    + intros u b. rewrite LS. apply I4.
    + intros b. rewrite LS. apply I6.
Qed.

(** The answer is the same for the goroutine alone. *)
Lemma same_view t P cs c V S U v : nth_error programs t = Some cs -> In c cs -> WF V -> valid_call V c -> b_buf (bb V) = hd0 ->
  agree t P S U -> run (do_call c) V = Done v U -> view_rv S v = view_rv U v.
Proof.
  intros E I WV VC B A R. destruct v as [|z|sl|l]; cbn [view_rv]; auto. f_equal.
  destruct (returned_slice V c sl U WV B VC R) as (H1 & H2 & H3 & H4). unfold slice_bytes. rewrite H1. apply sub_same; auto.
  - apply (ag_size _ _ _ _ _ _ _ A). right. exact hd_in.
  - intros j Hj. change (byte_at S (s_blk hd0) j = byte_at U (s_blk hd0) j). apply (ag_byte _ _ _ _ _ _ _ A); [lia|].
    right. split; [exact hd_in|]. rewrite M_own. eapply owner_sees; eauto.
Qed.

Theorem inv_step h c P t e c' : inv h c P -> gstep do_call t c e c' -> exists P', inv (h ++ e) c' P'.
Proof.
  intros I St. destruct St as [o os E|o os p p' s' E St|o os v E|o os er E].
  - exists P. destruct (in_track _ _ _ I t _ E) as (cs & C & T). cbn [cur todo] in T. destruct T as (T1 & V & A1 & A2).
    assert (Io : In o cs) by (rewrite <- T1; apply in_or_app; right; left; reflexivity).
    destruct (call_fits t cs o V (sh c) C Io (agree_less _ _ _ t (P t) RaceLemmas.none (sh c) V (fun b F => False_ind _ F) A2) (in_frozen _ _ _ I)) as [X1 X2].
    eapply inv_still; eauto. exists cs. split; auto. cbn [cur todo]. rewrite returns_of_app. cbn [returns_of flat_map].
    rewrite app_nil_r. split; auto. exists V, V, (initial h0).
    split; auto. split; auto. split; auto. split; [apply (ag_hdU _ _ _ _ _ _ _ A2)|]. split; [apply incl_refl|].
    split; [|].
    { eapply (disc_mono M Hd t yes yes); [| | | |eapply call_disc; eauto]; auto using incl_refl. intros b []. } split; auto. left. split; [constructor|]. apply single_call. exact (of_program t cs o in_place0 C Io).
  - eapply inv_access; eauto.
  - exists P. destruct (in_track _ _ _ I t _ E) as (cs & C & T). cbn [cur todo] in T.
    destruct T as (T1 & V & U & K & A1 & A2 & A3 & A4 & A5 & A6 & A7 & A8).
    assert (Io : In o cs) by (rewrite <- T1; apply in_or_app; right; left; reflexivity).
    destruct (solo_abs s0 _ _ W0 A1) as [WV _].
    assert (RU : run (do_call o) V = Done v U) by (destruct A8 as [[X _]|[X _]]; apply psteps_run in X; rewrite X; reflexivity).
    eapply inv_still; eauto.
    { intros u Nu. cbn. destruct (Nat.eqb_spec t u); [congruence|reflexivity]. }
    exists cs. split; auto. cbn [cur todo]. rewrite returns_of_app. cbn [returns_of flat_map]. rewrite Nat.eqb_refl. cbn [app].
    rewrite map_app, <- app_assoc. split; auto. exists U. split.
    + eapply so_call; eauto. cbn [exec1]. rewrite RU. f_equal. f_equal. f_equal. f_equal. symmetry. eapply same_view; eauto.
    + exact A7.
  - exists P. destruct (in_track _ _ _ I t _ E) as (cs & C & T). cbn [cur todo] in T.
    destruct T as (T1 & V & U & K & A1 & A2 & A3 & A4 & A5 & A6 & A7 & A8).
    assert (RU : run (do_call o) V = Panicked er U) by (destruct A8 as [[X _]|[X _]]; apply psteps_run in X; rewrite X; reflexivity).
    eapply inv_still; eauto.
    { intros u Nu. cbn. destruct (Nat.eqb_spec t u); [congruence|reflexivity]. }
    exists cs. split; auto. cbn [cur todo]. rewrite returns_of_app. cbn [returns_of flat_map]. rewrite Nat.eqb_refl. cbn [app].
    rewrite map_app, <- app_assoc. split; auto. exists U. split.
    + eapply so_call; eauto. cbn [exec1]. rewrite RU. reflexivity.
    + exact A7.
Qed.

Theorem inv_exec h c : exec do_call (start s0 programs) h c -> exists P, inv h c P.
Proof. induction 1 as [|h c1 t h' c2 E [P IH] St]; [eauto using inv_start|]. eapply inv_step; eauto. Qed.

(** ** Results *)

Theorem as_alone h c t cs : exec do_call (start s0 programs) h c -> nth_error programs t = Some cs ->
  prefix (map fst (returns_of t h)) cs /\ map snd (returns_of t h) = fst (alone s0 (map fst (returns_of t h))).
Proof.
  intros E Et. destruct (inv_exec h c E) as [P I].
  assert (L : (t < length (gs c))%nat) by (rewrite (in_len _ _ _ I); apply nth_error_Some; congruence).
  apply nth_error_Some in L. destruct (nth_error (gs c) t) as [g|] eqn:G; [|congruence].
  destruct (in_track _ _ _ I t g G) as (cs' & E' & T). rewrite Et in E'. injection E' as <-.
  destruct (cur g) as [[o p]|].
  - destruct T as (T1 & V & U & K & A1 & _). destruct (solo_abs s0 _ _ W0 A1) as [_ A]. rewrite A. split; auto. rewrite <- T1. now eexists.
  - destruct T as (T1 & V & A1 & _). destruct (solo_abs s0 _ _ W0 A1) as [_ A]. rewrite A. split; auto. rewrite <- T1. now eexists.
Qed.

Theorem never_stuck h c t g : exec do_call (start s0 programs) h c -> nth_error (gs c) t = Some g -> g <> mkG [] None ->
  exists e c', gstep do_call t c e c'.
Proof.
  intros E G N. destruct (inv_exec h c E) as [P I]. destruct (in_track _ _ _ I t g G) as (cs & _ & T).
  destruct g as [[|o os] [[c0 p]|]]; cbn [cur todo] in T; try congruence;
    try (do 2 eexists; eapply g_call; exact G);
    destruct T as (_ & V & U & K & A1 & A2 & A3 & A4 & A5 & A6 & A7 & A8); destruct (solo_abs s0 _ _ W0 A1) as [WV _];
    (assert (LK : match p with Lock _ | Unlock _ => False | _ => True end) by (destruct A8 as [[_ X]|[_ X]]; destruct p; cbn in X; auto));
    (assert (RU : run (do_call c0) V = run p U) by (destruct A8 as [[X _]|[X _]]; eapply psteps_run; eauto));
    destruct (call_runs V c0 WV A2) as [R1 R2]; rewrite RU in R1, R2;
    (destruct (step1_progress p U R1 R2) as [EN|(p'' & U' & SU)]; [eapply ended_step; eauto|]);
    destruct (steps_too M Hd hd0 h0 Hd_is hd_in t (P t) K (sh c) U p _ _ p'' U' A7 A5 A6 LK SU) as (q & S' & ST);
    do 2 eexists; eapply g_step; eauto.
Qed.

(** No goroutine is inside a call. *)
Definition at_rest (c : config (call slice)) : Prop := forall t g, nth_error (gs c) t = Some g -> cur g = None.

Lemma rest_track h c P t : inv h c P -> at_rest c -> (t < length programs)%nat ->
  exists V, solo s0 (returns_of t h) V /\ agree t (P t) (sh c) V /\ WF V /\ alone s0 (map fst (returns_of t h)) = (map snd (returns_of t h), abs V).
Proof.
  intros I R L. rewrite <- (in_len _ _ _ I) in L. apply nth_error_Some in L. destruct (nth_error (gs c) t) as [g|] eqn:G; [|congruence].
  destruct (in_track _ _ _ I t g G) as (cs' & E' & T). rewrite (R t g G) in T. destruct T as (_ & V & A1 & A2).
  exists V. destruct (solo_abs s0 _ _ W0 A1). auto.
Qed.

(** Every part of the shared buffer is as some goroutine, or nobody, left it. *)
Lemma part_left x : (exists t, (t < length programs)%nat /\ pm x = Exclusive t) \/ pm x = Frozen.
Proof.
  unfold pm, owner_mode. destruct (owner programs x) as [u|] eqn:O; auto. left. exists u. split; auto.
  apply owner_some in O as (cs & c & E & _). apply nth_error_Some. congruence.
Qed.

Lemma rest_byte h c P b i : inv h c P -> at_rest c -> (b < length (heap (sh c)))%nat -> 0 <= i ->
  exists X, WF X /\ (b < length (heap X))%nat /\ zlen (block (sh c) b) = zlen (block X b) /\ byte_at (sh c) b i = byte_at X b i.
Proof.
  intros I R B Hi. destruct (Nat.lt_ge_cases b h0) as [L|L].
  - assert (FR : may_read (M (LByte b i)) no_one false -> exists X, WF X /\ (b < length (heap X))%nat /\ zlen (block (sh c) b) = zlen (block X b) /\ byte_at (sh c) b i = byte_at X b i).
    { intro F. exists s0. split; [exact W0|]. split; [exact L|]. split; [apply (ag_size _ _ _ _ _ _ _ (in_frozen _ _ _ I)); auto|].
      apply (ag_byte _ _ _ _ _ _ _ (in_frozen _ _ _ I)); auto. right. auto. }
    destruct (Nat.eq_dec b (s_blk hd0)) as [->|N]; [|apply FR; rewrite M_outside; cbn; auto].
    destruct (part_left (Byte (i - s_off hd0))) as [(u & Lu & E)|E]; [|apply FR; rewrite M_own, E; exact Logic.I].
    destruct (rest_track h c P u I R Lu) as (V & _ & A & WV & _). exists V. split; auto. split; [pose proof (ag_len _ _ _ _ _ _ _ A); lia|].
    split; [apply (ag_size _ _ _ _ _ _ _ A); auto|]. apply (ag_byte _ _ _ _ _ _ _ A); auto. right. split; auto. rewrite M_own, E. reflexivity.
  - destruct (in_cover _ _ _ I b (conj L B)) as (u & Lu & Pu). destruct (rest_track h c P u I R Lu) as (V & _ & A & WV & _). exists V.
    split; auto. split; [apply (ag_priv _ _ _ _ _ _ _ A) in Pu; lia|]. split; [apply (ag_size _ _ _ _ _ _ _ A); auto|].
    apply (ag_byte _ _ _ _ _ _ _ A); auto. left. auto.
Qed.
Lemma rest_fld h c P f : inv h c P -> at_rest c -> exists X, WF X /\ b_buf (bb X) = hd0 /\ get_fld (bb (sh c)) f = get_fld (bb X) f.
Proof.
  intros I R. destruct (part_left (Fields f)) as [(u & Lu & E)|E].
  - destruct (rest_track h c P u I R Lu) as (V & _ & A & WV & _). exists V. split; auto. split; [apply (ag_hdU _ _ _ _ _ _ _ A)|].
    apply (ag_fld _ _ _ _ _ _ _ A). cbn. rewrite E. reflexivity.
  - exists s0. split; auto. split; auto. apply (ag_fld _ _ _ _ _ _ _ (in_frozen _ _ _ I)). cbn. rewrite E. exact Logic.I.
Qed.

Theorem rest_WF h c : exec do_call (start s0 programs) h c -> at_rest c -> WF (sh c).
Proof.
  intros E R. destruct (inv_exec h c E) as [P I]. pose proof (in_frozen _ _ _ I) as F. pose proof (ag_hdS _ _ _ _ _ _ _ F) as HS.
  assert (Z : zlen (block (sh c) (s_blk hd0)) = zlen (block s0 (s_blk hd0))) by (apply (ag_size _ _ _ _ _ _ _ F); right; exact hd_in).
  constructor.
  - unfold wf_heap. apply Forall_forall. intros a Ia. apply In_nth_error in Ia as [b Eb].
    assert (B : (b < length (heap (sh c)))%nat) by (apply nth_error_Some; congruence).
    assert (Ea : a = block (sh c) b) by (unfold block; now rewrite (nth_error_nth _ _ [] Eb)). subst a.
    assert (WX : forall X, WF X -> (b < length (heap X))%nat -> Forall is_byte (block X b) /\ zlen (block X b) <= maxAlloc).
    { intros X WX LX. pose proof (wf_h _ WX) as H. unfold wf_heap in H. rewrite Forall_forall in H. apply H. apply nth_In. exact LX. }
    split.
    + apply Forall_forall. intros v Iv. apply In_nth_error in Iv as [i Ei].
      assert (Li : (i < length (block (sh c) b))%nat) by (apply nth_error_Some; congruence).
      destruct (rest_byte h c P b (Z.of_nat i) I R B ltac:(lia)) as (X & X1 & X2 & X3 & X4).
      unfold byte_at in X4. rewrite Nat2Z.id in X4. rewrite (nth_error_nth _ _ 0 Ei) in X4. subst v.
      destruct (WX X X1 X2) as [H _]. rewrite Forall_forall in H. apply H. apply nth_In. unfold zlen in X3. lia.
    + destruct (rest_byte h c P b 0 I R B ltac:(lia)) as (X & X1 & X2 & X3 & _). rewrite X3. now apply WX.
  - rewrite HS. destruct (wf_sl _ W0) as (W1 & W2 & W3 & W4). fold hd0 in W1, W2, W3, W4. unfold block in Z.
    split; [|split; [exact W2|split; [exact W3|]]]; [|rewrite Z; exact W4]. pose proof (ag_len _ _ _ _ _ _ _ F). unfold h0 in *. lia.
  - destruct (rest_fld h c P FCap I R) as (X & X1 & X2 & X3). cbn in X3. rewrite X3, HS, (wf_cap _ X1), X2. reflexivity.
  - destruct (rest_fld h c P FBcap I R) as (X & X1 & X2 & X3). cbn in X3. rewrite X3, HS, (wf_bcap _ X1), X2. reflexivity.
  - destruct (rest_fld h c P FOff I R) as (X & X1 & X2 & X3). cbn in X3. rewrite X3. apply (wf_off _ X1).
  - destruct (rest_fld h c P FBoff I R) as (X & X1 & X2 & X3). cbn in X3. rewrite X3. apply (wf_boff _ X1).
Qed.

Lemma part_same t P S V x : WF S -> WF V -> agree t P S V -> may_read (pm x) t false -> part x (abs S) = part x (abs V).
Proof.
  intros WS WV A R. pose proof (ag_hdS _ _ _ _ _ _ _ A) as HS. pose proof (ag_hdU _ _ _ _ _ _ _ A) as HV.
  destruct x as [|f|i].
  - cbn [part abs a_bytes]. rewrite !part_len by auto. congruence.
  - pose proof (ag_fld _ _ _ _ _ _ _ A f R) as F. destruct f; cbn [part abs a_bytes a_off a_boff get_fld] in *; auto; rewrite !part_len by auto; congruence.
  - rewrite !part_byte by auto. rewrite HS, HV. destruct (_ && _) eqn:C; auto. apply (ag_byte _ _ _ _ _ _ _ A).
    { destruct (wf_sl _ WS) as (_ & W2 & _). rewrite HS in W2. lia. }
    right. split; [exact hd_in|]. rewrite M_own. replace (s_off hd0 + i - s_off hd0) with i by lia. exact R.
Qed.

(** At rest, goroutine [t] has left its parts as if alone ... *)
Theorem rest_own h c t cs d x : exec do_call (start s0 programs) h c -> at_rest c -> nth_error programs t = Some cs -> In d cs ->
  writes3 d x = true -> part x (abs (sh c)) = part x (snd (alone s0 (map fst (returns_of t h)))).
Proof.
  intros E R Et Id Wx. pose proof (rest_WF h c E R) as WS. destruct (inv_exec h c E) as [P I].
  destruct (rest_track h c P t I R) as (V & _ & A & WV & ->). { apply nth_error_Some. congruence. }
  apply (part_same t (P t)); auto. pose proof (owner_writes programs indep_comp x t cs d Et Id Wx) as X. fold pm in X. destruct (pm x); cbn in *; tauto.
Qed.
(** ... and nobody has changed the others. *)
Theorem rest_frozen h c x : exec do_call (start s0 programs) h c -> at_rest c ->
  (forall cs d, In cs programs -> In d cs -> writes3 d x = false) -> part x (abs (sh c)) = part x (abs s0).
Proof.
  intros E R N. pose proof (rest_WF h c E R) as WS. destruct (inv_exec h c E) as [P I].
  apply (part_same no_one RaceLemmas.none); auto. { exact (in_frozen _ _ _ I). }
  destruct (part_left x) as [(u & Lu & X)|X]; [|rewrite X; exact Logic.I]. exfalso.
  unfold pm, owner_mode in X. destruct (owner programs x) as [v|] eqn:O; [|discriminate].
  apply owner_some in O as (cs & d & E' & I' & X'). apply nth_error_In in E'. rewrite (N cs d E' I') in X'. discriminate.
Qed.

Lemma rest_of_finished (c : config (call slice)) : finished c -> at_rest c.
Proof. intros F t g G. apply nth_error_In in G. unfold finished in F. rewrite Forall_forall in F. rewrite (F g G). reflexivity. Qed.

(** In the end every goroutine has had an answer to every call. *)
Theorem all_returned h c t cs : exec do_call (start s0 programs) h c -> finished c -> nth_error programs t = Some cs ->
  map fst (returns_of t h) = cs.
Proof.
  intros E F Et. destruct (inv_exec h c E) as [P I].
  assert (L : (t < length (gs c))%nat) by (rewrite (in_len _ _ _ I); apply nth_error_Some; congruence).
  apply nth_error_Some in L. destruct (nth_error (gs c) t) as [g|] eqn:G; [|congruence].
  destruct (in_track _ _ _ I t g G) as (cs' & E' & T). rewrite Et in E'. injection E' as <-.
  unfold finished in F. rewrite Forall_forall in F. rewrite (F g (nth_error_In _ _ G)) in T. cbn [cur todo] in T.
  destruct T as (T1 & _). rewrite app_nil_r in T1. exact T1.
Qed.
Theorem keeps_slice h c : exec do_call (start s0 programs) h c -> b_buf (bb (sh c)) = b_buf (bb s0).
Proof. intro E. destruct (inv_exec h c E) as [P I]. apply (ag_hdS _ _ _ _ _ _ _ (in_frozen _ _ _ I)). Qed.
End Shared.

(** Two buffers with the same slice and the same parts have the same contents. *)
Lemma parts_abs s s' : WF s -> WF s' -> b_buf (bb s) = b_buf (bb s') -> (forall x, part x (abs s) = part x (abs s')) -> abs s = abs s'.
Proof.
  intros W W' B H. assert (L : zlen (content s) = zlen (content s')) by (rewrite !content_zlen, B; auto).
  assert (LL : zlen (content s ++ spare s) = zlen (content s' ++ spare s')).
  { destruct (wf_sl _ W) as (_ & W2 & W3 & W4), (wf_sl _ W') as (_ & V2 & V3 & V4).
    unfold content, slice_bytes, spare. rewrite !sub_sub_app, !sub_length, B by lia. reflexivity. }
  assert (A : content s ++ spare s = content s' ++ spare s').
  { apply (nth_ext _ _ 0 0); [unfold zlen in LL; lia|]. intros i Hi. specialize (H (Byte (Z.of_nat i))). cbn [part abs a_bytes a_spare] in H.
    destruct (Z.leb_spec 0 (Z.of_nat i)); [|lia]. now rewrite Nat2Z.id in H. }
  pose proof (H (Fields FOff)) as H1. pose proof (H (Fields FBoff)) as H2. cbn in H1, H2.
  assert (C : content s = content s').
  { apply (f_equal (firstn (length (content s)))) in A. assert (LN : length (content s) = length (content s')) by (unfold zlen in L; lia).
    rewrite firstn_app, Nat.sub_diag, firstn_all, app_nil_r in A. rewrite LN, firstn_app, Nat.sub_diag, firstn_all, app_nil_r in A. exact A. }
  unfold abs. f_equal; auto. rewrite C in A. now apply app_inv_head in A.
Qed.
