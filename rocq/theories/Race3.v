(** * Race3: the methods of the v3 [Buffer] access no more than RaceSpec3.v says. *)
From Coq Require Import ZArith List Bool Lia Arith ZifyBool.
From Verif Require Import GoSem Errors Spec GoLemmas Typed TypedCanon Calls Conc Race RaceSpec3 RaceLemmas RaceOld.
From Verif Require V3Buffer.
Import ListNotations.
Open Scope Z_scope.
Open Scope list_scope.

Section Loops.
Variables (M : location -> mode) (Hd : slice -> Prop) (t : nat).
Notation disc := (disc M Hd t).

(** The rounds of a loop: the first one is always run. *)
Definition round (n i : Z) : Prop := 0 <= i /\ (i < n \/ i = 0).

Lemma disc_dw_round {S} (R : bool -> Prop) n (b : Z -> S -> prog S) P K h : n < 2 ^ 63 ->
  (forall i a P' K', round n i -> incl P P' -> incl K K' -> disc P' K' h (keeps P K h (fun _ => True)) R (b i a)) ->
  forall fuel i a P' K', round n i -> incl P P' -> incl K K' -> disc P' K' h (keeps P K h (fun _ => True)) R (dw fuel n b i a).
Proof.
  intros Hn H. induction fuel as [|f IH]; intros i a P' K' HI HP HK; cbn [dw]; [exact I|].
  apply disc_bind. refine (disc_weaken _ _ _ (keeps P K h (fun _ => True)) _ R R _ _ _ _ _ _ (H i a P' K' HI HP HK)); auto.
  intros P1 K1 h1 a1 (X3 & X4 & -> & X5). cbv zeta. destruct (i +! 1 <? n) eqn:L.
  - apply IH; auto. destruct HI as [H1 H2]. rewrite add64_id in L |- * by (unfold is_i64; lia). split; lia.
  - repeat split; auto.
Qed.
Lemma disc_goto_round {S} (R : bool -> Prop) n (b : Z -> S -> prog S) a P K h (Q : (nat -> Prop) -> (nat -> Prop) -> bool -> S -> Prop) :
  n < 2 ^ 63 ->
  (forall i a P' K', round n i -> incl P P' -> incl K K' -> disc P' K' h (keeps P K h (fun _ => True)) R (b i a)) ->
  (forall P' K' a, incl P P' -> incl K K' -> Q P' K' h a) ->
  disc P K h Q R (goto_loop n b a).
Proof.
  intros Hn H HQ. unfold goto_loop. eapply (disc_weaken _ _ _ (keeps P K h (fun _ => True))); [intros ? X; exact X| |apply disc_dw_round; auto using incl_refl].
  - intros P1 K1 h1 a1 (X3 & X4 & -> & X5). now apply HQ.
  - split; lia.
Qed.
End Loops.

Section Methods.
Variables (M : location -> mode) (Hd : slice -> Prop) (t : nat).
Notation disc := (disc M Hd t).

(** What goroutine [t] may do to byte [i] of the buffer. *)
Definition may_get (i : Z) : Prop := forall s, Hd s -> may_read (M (LByte (s_blk s) (s_off s + i))) t false.
Definition may_put (i : Z) : Prop := forall s, Hd s -> may_write (M (LByte (s_blk s) (s_off s + i))) t false.

(** [Q] holds whenever as much is known as now. *)
Definition stable {A} (P K : nat -> Prop) (Q : (nat -> Prop) -> (nat -> Prop) -> bool -> A -> Prop) : Prop :=
  forall P' K' a, incl P P' -> incl K K' -> Q P' K' false a.
Notation post A := ((nat -> Prop) -> (nat -> Prop) -> bool -> A -> Prop).
Notation all_end := (fun _ : bool => True).

Lemma stable_more {A} (P K P' K' : nat -> Prop) (Q : post A) : stable P K Q -> incl P P' -> incl K K' -> stable P' K' Q.
Proof. intros H HP HK P1 K1 a H1 H2. apply H; eapply incl_trans; eauto. Qed.
Lemma stable_keeps {A} (P K : nat -> Prop) P' K' : incl P P' -> incl K K' -> stable (A := A) P' K' (keeps P K false (fun _ => True)).
Proof. intros HP HK P1 K1 a H1 H2. repeat split; auto; eapply incl_trans; eauto. Qed.

Hypothesis hdr : may_read (M LHeader) t false.

Lemma disc_buf_get i P K (Q : post Z) : (0 <= i -> may_get i) -> stable P K Q -> disc P K false Q all_end (buf_get i).
Proof.
  intros H S. unfold buf_get, get_buf. cbn [bind RaceLemmas.disc]. split; [exact hdr|]. intros s Hs.
  unfold slice_get. destruct (Z.leb_spec 0 i); cbn [andb]; [|exact I]. destruct (i <? s_len s); cbn [RaceLemmas.disc]; [|exact I].
  split; [right; split; [right; reflexivity|now apply H]|]. intro v. apply S; auto using incl_refl, incl_add.
Qed.
Lemma disc_buf_set i v P K (Q : post unit) : (0 <= i -> may_put i) -> stable P K Q -> disc P K false Q all_end (buf_set i v).
Proof.
  intros H S. unfold buf_set, get_buf. cbn [bind RaceLemmas.disc]. split; [exact hdr|]. intros s Hs.
  unfold slice_set. destruct (Z.leb_spec 0 i); cbn [andb]; [|exact I]. destruct (i <? s_len s); cbn [RaceLemmas.disc]; [|exact I].
  split; [right; split; [right; reflexivity|now apply H]|]. apply S; auto using incl_refl, incl_add.
Qed.

(** ** Bits *)

Section Bits.
Hypothesis bits_limit : may_read (M (LField FBcap)) t false.

Lemma disc_ReadBit off P K (Q : post Z) : (0 <= off -> may_get (off / 8)) -> stable P K Q ->
  disc P K false Q all_end (V3Buffer.ReadBit off).
Proof.
  intros H S. unfold V3Buffer.ReadBit, get. cbn [bind RaceLemmas.disc]. split; [exact bits_limit|]. intro v.
  unfold panic_if. destruct (off >? v -! 1); cbn [bind RaceLemmas.disc]; [exact I|].
  destruct (Z.ltb_spec off 0); cbn [bind RaceLemmas.disc]; [exact I|]. apply disc_bind. apply disc_buf_get.
  - intros _. rewrite quo_nonneg by lia. now apply H.
  - intros P' K' a HP HK. cbn. now apply S.
Qed.
Lemma disc_change off P K (Q : post unit) over under (f : Z -> Z) : (0 <= off -> may_get (off / 8)) -> (0 <= off -> may_put (off / 8)) -> stable P K Q ->
  disc P K false Q all_end
    (bcap <- get FBcap ;; panic_if (off >? (bcap -! 1)) over ;; panic_if (off <? 0) under ;;
     v <- buf_get (quo off 8) ;; buf_set (quo off 8) (f v)).
Proof.
  intros H H' S. unfold get. cbn [bind RaceLemmas.disc]. split; [exact bits_limit|]. intro v.
  unfold panic_if. destruct (off >? v -! 1); cbn [bind RaceLemmas.disc]; [exact I|].
  destruct (Z.ltb_spec off 0); cbn [bind RaceLemmas.disc]; [exact I|]. apply disc_bind. apply disc_buf_get.
  - intros _. rewrite quo_nonneg by lia. now apply H.
  - intros P' K' a HP HK. cbv beta. apply disc_buf_set; [|eapply stable_more; eauto].
    intros _. rewrite quo_nonneg by lia. now apply H'.
Qed.
Lemma disc_SetBit off P K (Q : post unit) : (0 <= off -> may_get (off / 8)) -> (0 <= off -> may_put (off / 8)) -> stable P K Q ->
  disc P K false Q all_end (V3Buffer.SetBit off).
Proof. exact (fun H H' S => disc_change off P K Q _ _ _ H H' S). Qed.
Lemma disc_ClearBit off P K (Q : post unit) : (0 <= off -> may_get (off / 8)) -> (0 <= off -> may_put (off / 8)) -> stable P K Q ->
  disc P K false Q all_end (V3Buffer.ClearBit off).
Proof. exact (fun H H' S => disc_change off P K Q _ _ _ H H' S). Qed.
Lemma disc_FlipBit off P K (Q : post unit) : (0 <= off -> may_get (off / 8)) -> (0 <= off -> may_put (off / 8)) -> stable P K Q ->
  disc P K false Q all_end (V3Buffer.FlipBit off).
Proof. exact (fun H H' S => disc_change off P K Q _ _ _ H H' S). Qed.

Lemma disc_ReadBits off n P K (Q : post Z) : n < 2 ^ 63 ->
  (forall i, round n i -> 0 <= off +! i -> may_get ((off +! i) / 8)) -> stable P K Q ->
  disc P K false Q all_end (V3Buffer.ReadBits off n).
Proof.
  intros Hn H S. unfold V3Buffer.ReadBits. apply disc_goto_round; auto.
  - intros i a P' K' HI HP HK. apply disc_bind. apply disc_ReadBit; [now apply H|].
    intros P1 K1 v H1 H2. cbn. repeat split; auto; eapply incl_trans; eauto.
Qed.
Lemma disc_SetBits off data n P K (Q : post unit) : n < 2 ^ 63 ->
  (forall i, round n i -> 0 <= off +! i -> may_get ((off +! i) / 8)) ->
  (forall i, round n i -> 0 <= off +! i -> may_put ((off +! i) / 8)) -> stable P K Q ->
  disc P K false Q all_end (V3Buffer.SetBits off data n).
Proof.
  intros Hn H H' S. unfold V3Buffer.SetBits. apply disc_goto_round; auto.
  - intros i a P' K' HI HP HK. destruct (_ =? 0).
    + apply disc_ClearBit; auto. now apply stable_keeps.
    + apply disc_SetBit; auto. now apply stable_keeps.
Qed.
End Bits.

(** ** Bytes and integers *)

Section Bytes.
Hypothesis bytes_limit : may_read (M (LField FCap)) t false.

Lemma disc_checked off e over under (p : Z -> prog unit) P K (Q : post unit) :
  True -> disc P K false Q all_end (p off) -> 
  disc P K false Q all_end (cap <- get FCap ;; panic_if (e >? cap) over ;; panic_if (off <? 0) under ;; p off).
Proof.
  intros _ H. unfold get. cbn [bind RaceLemmas.disc]. split; [exact bytes_limit|]. intro v.
  unfold panic_if. destruct (e >? v); cbn [bind RaceLemmas.disc]; [exact I|].
  destruct (off <? 0); cbn [bind RaceLemmas.disc]; [exact I|exact H].
Qed.

Lemma disc_WriteBytes off (d : slice) (P K : nat -> Prop) (Q : post unit) : P (s_blk d) \/ K (s_blk d) ->
  (forall i, s_off d <= i < s_off d + s_len d -> can_read M t P K false (s_blk d) i) ->
  (forall i, 0 <= off -> off <= i < off + s_len d -> may_put i) -> stable P K Q ->
  disc P K false Q all_end (V3Buffer.WriteBytes off d).
Proof.
  intros HB HD HW S. unfold V3Buffer.WriteBytes, get, get_buf. cbn [bind RaceLemmas.disc]. split; [exact bytes_limit|]. intro v.
  unfold panic_if. destruct (_ >? v); cbn [bind RaceLemmas.disc]; [exact I|].
  destruct (Z.ltb_spec off 0); cbn [bind RaceLemmas.disc]; [exact I|].
  split; [exact hdr|]. intros s Hs. unfold reslice. destruct (_ && _); cbn [bind RaceLemmas.disc]; [|exact I].
  unfold copy. cbn [RaceLemmas.disc s_blk s_off s_len]. split; [right; right; reflexivity|]. split; [destruct HB; [left|right; left]; auto|]. split; [|split].
  - intros i Hi. right. split; [right; reflexivity|].
    replace i with (s_off s + (i - s_off s)) by lia. apply HW; auto; lia.
  - intros i Hi. eapply can_read_mono; [apply incl_refl|apply incl_add|]. apply HD. lia.
  - apply S; auto using incl_refl, incl_add.
Qed.
Lemma disc_WriteByte off v P K (Q : post unit) :
  (0 <= off -> may_put off) -> stable P K Q -> disc P K false Q all_end (V3Buffer.WriteByte off v).
Proof.
  intros HW S. unfold V3Buffer.WriteByte, lit_bytes. cbn [bind RaceLemmas.disc]. intros b Hb.
  apply disc_WriteBytes.
  - left. right. reflexivity.
  - intros i Hi. left. cbn. right. reflexivity.
  - cbn [s_len]. change (zlen [v]) with 1. intros i H Hi. assert (i = off) as -> by lia. auto.
  - apply (stable_more P K); [exact S|apply incl_add|apply incl_refl].
Qed.
Lemma disc_ReadBytes off n P K (Q : post slice) :
  stable P K Q -> disc P K false Q all_end (V3Buffer.ReadBytes off n).
Proof.
  intros S. unfold V3Buffer.ReadBytes, get, get_buf. cbn [bind RaceLemmas.disc]. split; [exact bytes_limit|]. intro v.
  unfold panic_if. destruct (_ >? v); cbn [bind RaceLemmas.disc]; [exact I|].
  destruct (Z.ltb_spec off 0); cbn [bind RaceLemmas.disc]; [exact I|].
  split; [exact hdr|]. intros s Hs. unfold reslice. destruct (_ && _); cbn [bind RaceLemmas.disc]; [|exact I].
  apply S; auto using incl_refl, incl_add.
Qed.
Lemma disc_ReadByte off P K (Q : post Z) :
  (0 <= off -> may_get off) -> stable P K Q -> disc P K false Q all_end (V3Buffer.ReadByte off).
Proof.
  intros H S. unfold V3Buffer.ReadByte, V3Buffer.ReadBytes, get, get_buf. cbn [bind RaceLemmas.disc]. split; [exact bytes_limit|]. intro v.
  unfold panic_if. destruct (_ >? v); cbn [bind RaceLemmas.disc]; [exact I|].
  destruct (Z.ltb_spec off 0); cbn [bind RaceLemmas.disc]; [exact I|].
  split; [exact hdr|]. intros s Hs. unfold reslice. destruct (_ && _); cbn [bind RaceLemmas.disc]; [|exact I].
  unfold slice_get. destruct (_ && _); cbn [RaceLemmas.disc s_blk s_off]; [|exact I].
  split; [right; split; [right; reflexivity|]|].
  - rewrite Z.add_0_r. now apply H.
  - intro x. apply S; auto using incl_refl, incl_add.
Qed.

Lemma disc_elem l i P K (Q : post Z) : stable P K Q -> disc P K false Q all_end (elem l i).
Proof. intro S. unfold elem. destruct (_ && _); cbn; [apply S; apply incl_refl|exact I]. Qed.

Lemma disc_stores bits w off i data P K (Q : post unit) : 0 <= i -> forall l,
  Forall (fun x => i < zlen data -> 0 <= off +! cidx w (fst x) i -> may_put (off +! cidx w (fst x) i)) l ->
  stable P K Q -> disc P K false Q all_end (stores bits w off i data l).
Proof.
  intros Hi. intros l. revert P K. induction l as [|[k sh] l IH]; intros P K F S; cbn [stores]; [apply S; apply incl_refl|].
  inversion F as [|? ? F1 F2]; subst. cbn [fst] in F1.
  assert (E : forall (p : Z -> prog unit), (i < zlen data -> forall v, disc P K false Q all_end (p v)) ->
    disc P K false Q all_end (bind (elem data i) p)).
  { intros p H. unfold elem. destruct (Z.leb_spec 0 i); [|lia]. destruct (Z.ltb_spec i (zlen data)); cbn; auto. }
  destruct l as [|y l].
  - apply E. intros L v. apply disc_buf_set; auto.
  - apply E. intros L v. apply disc_bind. apply disc_buf_set; auto.
    intros P1 K1 [] H1 H2. cbv beta. apply IH; auto. eapply stable_more; eauto.
Qed.
Lemma disc_WriteT ty off data P K (Q : post unit) : zlen data < 2 ^ 63 ->
  (forall i k, 0 <= i < zlen data -> 0 <= k < tsize ty -> 0 <= off +! cidx (tsize ty) k i -> may_put (off +! cidx (tsize ty) k i)) ->
  stable P K Q -> disc P K false Q all_end (WriteT ty off data).
Proof.
  intros L HW S. rewrite WriteT_canon, MiniWriteT_canon.
  apply (disc_checked off _ _ _ (fun off => goto_loop (zlen data) (fun i _ => stores (bits_of ty) (tsize ty) off i data (wlayout ty)) tt)); [exact I|].
  apply disc_goto_round; auto.
  intros i a P' K' [HI _] HP HK. apply disc_stores; auto; [|now apply stable_keeps].
  apply Forall_forall. intros x Hx Li. apply HW; [lia|].
  unfold wlayout in Hx. apply in_map_iff in Hx as (j & <- & Hj). cbn [fst].
  unfold iota in Hj. apply in_map_iff in Hj as (m & <- & Hm). apply in_seq in Hm. unfold tsize. lia.
Qed.

Lemma disc_loads {A} w off i (ks : list Z) (k : list Z -> prog A) (Q : post A) : 
  Forall (fun x => 0 <= off +! cidx w x i -> may_get (off +! cidx w x i)) ks ->
  forall acc P K, (forall xs P' K', incl P P' -> incl K K' -> disc P' K' false Q all_end (k xs)) ->
  disc P K false Q all_end (loads w off i ks acc k).
Proof.
  intros F. induction F as [|x ks F1 F2 IH]; intros acc P K H; cbn [loads]; [apply H; apply incl_refl|].
  apply disc_bind. apply disc_buf_get; auto. intros P' K' v HP HK. cbv beta. apply IH.
  intros xs P1 K1 H1 H2. apply H; eapply incl_trans; eauto.
Qed.
Lemma disc_ReadT ty off n P K (Q : post (list Z)) :
  (forall i k, round n i -> 0 <= n -> n * tsize ty <= maxAlloc -> 0 <= k < tsize ty -> 0 <= off +! cidx (tsize ty) k i -> may_get (off +! cidx (tsize ty) k i)) ->
  stable P K Q -> disc P K false Q all_end (ReadT ty off n).
Proof.
  intros HW S. rewrite ReadT_canon. unfold get. cbn [bind RaceLemmas.disc]. split; [exact bytes_limit|]. intro v.
  unfold panic_if. destruct (_ >? v); cbn [bind RaceLemmas.disc]; [exact I|].
  destruct (Z.ltb_spec off 0); cbn [bind RaceLemmas.disc]; [exact I|].
  unfold make_elems. destruct (Z.leb_spec 0 n); cbn [andb bind RaceLemmas.disc]; [|exact I].
  destruct (Z.leb_spec (n * tsize ty) maxAlloc) as [L|]; cbn [bind RaceLemmas.disc]; [|exact I].
  assert (n < 2 ^ 63). { assert (1 <= tsize ty) by (destruct ty; cbv; discriminate). assert (n <= 2 ^ 48) by (change maxAlloc with (2 ^ 48) in L; nia). lia. }
  apply disc_goto_round; auto.
  intros i a P' K' HI HP HK. unfold rbody. apply disc_loads.
  - apply Forall_forall. intros x Hx. apply HW; auto. unfold rlayout in Hx. apply in_map_iff in Hx as (j & <- & Hj).
    unfold iota in Hj. apply in_map_iff in Hj as (m & <- & Hm). apply in_seq in Hm. unfold tsize. destruct (ty_endian ty); lia.
  - intros xs P1 K1 X1 X2. unfold set_elem. destruct (_ && _); cbn; [|exact I]. repeat split; auto; eapply incl_trans; eauto.
Qed.
End Bytes.
End Methods.

(** ** Calls *)

(** The bytes that an operation at [off] reaches, with the int arithmetic of the code. *)
Definition touched (off : Z) (o : opn slice) (i : Z) : Prop :=
  match o with
  | OReadBit | OSetBit | OClearBit | OFlipBit => 0 <= off /\ i = off / 8
  | OReadBits n | OSetBits _ n => exists k, round n k /\ 0 <= off +! k /\ i = (off +! k) / 8
  | OWriteBytes d => 0 <= off /\ off <= i < off + s_len d
  | OWriteByte _ | OReadByte => 0 <= off /\ i = off
  | OReadBytes _ => False
  | OWrite t d => exists j k, 0 <= j < zlen d /\ 0 <= k < tsize t /\ 0 <= off +! cidx (tsize t) k j /\ i = off +! cidx (tsize t) k j
  | ORead t n => exists j k, round n j /\ 0 <= n /\ n * tsize t <= maxAlloc /\ 0 <= k < tsize t /\
      0 <= off +! cidx (tsize t) k j /\ i = off +! cidx (tsize t) k j
  end.

Lemma idx_small w k j : 0 <= j -> 0 <= k < w -> j * w + k <= maxAlloc + w -> w <= 8 -> cidx w k j = j * w + k.
Proof.
  intros H1 H2 H3 H4. unfold cidx. change maxAlloc with (2 ^ 48) in H3.
  rewrite mul64_id by (unfold is_i64; nia). destruct (Z.eqb_spec k 0); [lia|].
  rewrite add64_id by (unfold is_i64; nia). lia.
Qed.
Lemma add_nonneg x y : is_i64 x -> is_i64 y -> 0 <= y -> 0 <= x +! y -> x +! y = x + y.
Proof.
  intros H1 H2 H3 H4. destruct (Z.le_gt_cases (x + y) (2 ^ 63 - 1)).
  - apply add64_id. unfold is_i64 in *. lia.
  - exfalso. destruct (wrap64_cases (x + y)) as [k W]. pose proof (add64_range x y) as G. unfold is_i64, add64 in *. rewrite W in *. lia.
Qed.

Lemma touched_span s off o i : is_i64 off -> valid_opn s o -> touched off o i -> span off o i = true.
Proof.
  intros H V T. assert (TS : forall ty, 1 <= tsize ty <= 8) by (intros []; cbv; split; discriminate).
  destruct o; cbn [touched span valid_opn] in *.
  1, 3, 4, 5: destruct T as [T ->]; replace (off + Z.max 1 1 - 1) with off by lia; lia.
  1, 2: destruct T as (k & [K1 K2] & T & ->); assert (is_i64 k) by (unfold is_i64 in *; lia);
    rewrite add_nonneg in T |- * by (auto; tauto);
    apply andb_true_iff; split; apply Z.leb_le; apply Z.div_le_mono; lia.
  - lia.
  - lia.
  - destruct T.
  - lia.
  - destruct T as (j & k & J & K & T & ->). specialize (TS t). unfold wf_data in V.
    rewrite idx_small in T |- * by nia. change maxAlloc with (2 ^ 48) in V.
    rewrite add_nonneg in T |- * by (auto; unfold is_i64; nia). nia.
  - destruct T as (j & k & [J J'] & N & L & K & T & ->). specialize (TS t). 
    rewrite idx_small in T |- * by nia. change maxAlloc with (2 ^ 48) in L.
    rewrite add_nonneg in T |- * by (auto; unfold is_i64; nia).
    apply andb_true_iff; split; nia.
Qed.

Section Call.
Variables (M : location -> mode) (Hd : slice -> Prop) (t : nat).
Notation disc := (disc M Hd t).
Notation post A := ((nat -> Prop) -> (nat -> Prop) -> bool -> A -> Prop).
Notation all_end := (fun _ : bool => True).
Notation get_ok f := (may_read (M (LField f)) t false).
Notation set_ok f := (may_write (M (LField f)) t false).

(** The data of a [WriteBytes] may be read. *)
Definition source_ok (K : nat -> Prop) (o : opn slice) : Prop :=
  match o with
  | OWriteBytes d => K (s_blk d) /\ forall i P, can_read M t P K false (s_blk d) i
  | _ => True
  end.

Lemma disc_ret {A B} (p : prog A) (f : A -> B) P K (Q : post B) :
  disc P K false (fun P' K' h a => Q P' K' h (f a)) all_end p -> disc P K false Q all_end (x <- p ;; Ret (f x)).
Proof. intro H. apply disc_bind. exact H. Qed.

Lemma disc_at s off o P K (Q : post (rv slice)) : may_read (M LHeader) t false ->
  (if bit_addressed o then get_ok FBcap else get_ok FCap) ->
  source_ok K o -> valid_opn s o ->
  (forall i, touched off o i -> may_get M Hd t i) -> (is_write o = true -> forall i, touched off o i -> may_put M Hd t i) ->
  stable P K Q -> disc P K false Q all_end (do_at off o).
Proof.
  intros H L S V R W Q'.
  destruct o; cbn [bit_addressed touched is_write source_ok valid_opn do_at] in *; try specialize (W eq_refl);
    unfold ret_unit, ret_int, ret_bytes, ret_nums;
    match goal with
    | |- RaceLemmas.disc _ _ _ _ _ _ _ _ (bind ?p (fun x => Ret ?v)) => apply (disc_ret p (fun x => v))
    end.
  - apply disc_ReadBit; auto. intros P' K' a X Y; apply Q'; auto.
  - apply disc_ReadBits; auto. { unfold is_i64 in V; lia. } { intros i X Y. apply R. eauto. } intros P' K' a X Y; apply Q'; auto.
  - apply disc_SetBit; auto. intros P' K' a X Y; apply Q'; auto.
  - apply disc_ClearBit; auto. intros P' K' a X Y; apply Q'; auto.
  - apply disc_FlipBit; auto. intros P' K' a X Y; apply Q'; auto.
  - apply disc_SetBits; auto. { unfold is_i64 in V; lia. } { intros i X Y. apply R. eauto. } { intros i X Y. apply W. eauto. } intros P' K' a X Y; apply Q'; auto.
  - destruct S as [S1 S2]. apply disc_WriteBytes; auto. intros P' K' a X Y; apply Q'; auto.
  - apply disc_WriteByte; auto. intros P' K' a X Y; apply Q'; auto.
  - apply disc_ReadBytes; auto. intros P' K' a X Y; apply Q'; auto.
  - apply disc_ReadByte; auto. intros P' K' a X Y; apply Q'; auto.
  - apply disc_WriteT; auto.
    { unfold wf_data in V. change maxAlloc with (2 ^ 48) in V. assert (1 <= tsize t0) by (destruct t0; cbv; discriminate).
      assert (zlen d <= 2 ^ 48) by nia. lia. }
    { intros i k X Y Z. apply W. eauto 10. }
    intros P' K' a X Y; apply Q'; auto.
  - apply disc_ReadT; auto. { intros i k X Y Z X1 Y1. apply R. exists i, k. auto 10. } intros P' K' a X Y; apply Q'; auto.
Qed.

Lemma disc_SeekByte n P K (Q : post unit) : get_ok FOff -> set_ok FOff -> stable P K Q -> disc P K false Q all_end (V3Buffer.SeekByte n true).
Proof. intros H1 H2 S. cbn. repeat split; auto. apply S; apply incl_refl. Qed.
Lemma disc_SeekBit n P K (Q : post unit) : get_ok FBoff -> set_ok FBoff -> stable P K Q -> disc P K false Q all_end (V3Buffer.SeekBit n true).
Proof. intros H1 H2 S. cbn. repeat split; auto. apply S; apply incl_refl. Qed.

Lemma disc_next s o P K (Q : post (rv slice)) : may_read (M LHeader) t false ->
  (if bit_addressed o then get_ok FBcap /\ get_ok FBoff /\ set_ok FBoff else get_ok FCap /\ get_ok FOff /\ set_ok FOff) ->
  source_ok K o -> valid_opn s o ->
  (no_bytes o = false -> forall i, may_get M Hd t i) -> (is_write o = true -> forall i, may_put M Hd t i) ->
  stable P K Q -> disc P K false Q all_end (do_next o).
Proof.
  intros H L S V R W Q'.
  destruct o; cbn [bit_addressed no_bytes is_write source_ok valid_opn do_next] in *; destruct L as (L1 & L2 & L3);
    try specialize (W eq_refl); try specialize (R eq_refl);
    unfold ret_unit, ret_int, ret_bytes, ret_nums;
    match goal with
    | |- RaceLemmas.disc _ _ _ _ _ _ _ _ (bind ?p (fun x => Ret ?v)) => apply (disc_ret p (fun x => v))
    end;
    rewrite ?WriteTNext_canon, ?ReadTNext_canon; try unfold V3Buffer.ReadBitNext; try unfold V3Buffer.ReadBitsNext;
    try unfold V3Buffer.SetBitNext; try unfold V3Buffer.ClearBitNext; try unfold V3Buffer.FlipBitNext; try unfold V3Buffer.SetBitsNext;
    try unfold V3Buffer.WriteBytesNext; try unfold V3Buffer.WriteByteNext; try unfold V3Buffer.ReadBytesNext;
    apply disc_bind; cbn [get RaceLemmas.disc]; (split; [exact L2|]); intro off; 
    try (apply disc_bind).
  - apply disc_ReadBit; auto. intros P' K' a X Y. apply disc_bind, disc_SeekBit; auto. intros P1 K1 b X1 Y1. apply Q'; eapply incl_trans; eauto.
  - apply disc_ReadBits; auto. { unfold is_i64 in V; lia. } intros P' K' a X Y. apply disc_bind, disc_SeekBit; auto. intros P1 K1 b X1 Y1. apply Q'; eapply incl_trans; eauto.
  - apply disc_SetBit; auto. intros P' K' a X Y. apply disc_SeekBit; auto. intros P1 K1 b X1 Y1. apply Q'; eapply incl_trans; eauto.
  - apply disc_ClearBit; auto. intros P' K' a X Y. apply disc_SeekBit; auto. intros P1 K1 b X1 Y1. apply Q'; eapply incl_trans; eauto.
  - apply disc_FlipBit; auto. intros P' K' a X Y. apply disc_SeekBit; auto. intros P1 K1 b X1 Y1. apply Q'; eapply incl_trans; eauto.
  - apply disc_SetBits; auto. { unfold is_i64 in V; lia. } intros P' K' a X Y. apply disc_SeekBit; auto. intros P1 K1 b X1 Y1. apply Q'; eapply incl_trans; eauto.
  - destruct S as [S1 S2]. apply disc_WriteBytes; auto. intros P' K' a X Y. apply disc_SeekByte; auto. intros P1 K1 b X1 Y1. apply Q'; eapply incl_trans; eauto.
  - cbn [lit_bytes RaceLemmas.disc]. intros b Hb. apply disc_bind. apply disc_WriteBytes; auto. { left. right. reflexivity. } { intros i Hi. left. right. reflexivity. }
    intros P' K' a X Y. apply disc_SeekByte; auto. intros P1 K1 c X1 Y1.
    apply Q'; eapply incl_trans; eauto; eapply incl_trans; eauto using incl_add.
  - apply disc_ReadBytes; auto. intros P' K' a X Y. apply disc_bind, disc_SeekByte; auto. intros P1 K1 b X1 Y1. apply Q'; eapply incl_trans; eauto.
  - unfold V3Buffer.ReadBytes, get, get_buf. cbn [bind RaceLemmas.disc]. split; [exact L1|]. intro v.
    unfold panic_if. destruct (_ >? v); cbn [bind RaceLemmas.disc]; [exact I|].
    destruct (Z.ltb_spec off 0); cbn [bind RaceLemmas.disc]; [exact I|].
    split; [exact H|]. intros sl Hs. unfold reslice. destruct (_ && _); cbn [bind RaceLemmas.disc]; [|exact I].
    apply disc_bind. unfold slice_get. destruct (_ && _); cbn [RaceLemmas.disc s_blk s_off]; [|exact I].
    split; [right; split; [right; reflexivity|]|].
    + rewrite Z.add_0_r. now apply R.
    + intro x. apply disc_bind, disc_SeekByte; auto. intros P1 K1 b X1 Y1. apply Q'; auto. eapply incl_trans; [apply incl_add|exact Y1].
  - apply disc_WriteT; auto.
    { unfold wf_data in V. change maxAlloc with (2 ^ 48) in V. assert (1 <= tsize t0) by (destruct t0; cbv; discriminate).
      assert (zlen d <= 2 ^ 48) by nia. lia. }
    intros P' K' a X Y. apply disc_SeekByte; auto. intros P1 K1 b X1 Y1. apply Q'; eapply incl_trans; eauto.
  - apply disc_ReadT; auto. intros P' K' a X Y. apply disc_bind, disc_SeekByte; auto. intros P1 K1 b X1 Y1. apply Q'; eapply incl_trans; eauto.
Qed.
End Call.

(** ** Modes *)

Section Modes.
Variables (hd0 : slice) (h0 : nat) (pm : piece -> mode) (t : nat).

(** The arrays that exist at the start, other than the one of the buffer. *)
Definition outside (b : nat) : bool := (b <? h0)%nat && negb (b =? s_blk hd0)%nat.
Definition modes3 (l : location) : mode :=
  match l with
  | LHeader => pm Slice
  | LField f => pm (Fields f)
  | LByte b i =>
      if outside b then Frozen
      else match pm Slice with
           | Frozen => if (b =? s_blk hd0)%nat then pm (Byte (i - s_off hd0)) else Frozen
           | m => m
           end
  | LOut => Frozen
  end.
Definition headers3 (s : slice) : Prop :=
  match pm Slice with Frozen => s = hd0 | _ => outside (s_blk s) = false end.
Notation disc := (disc modes3 headers3 t).

Hypothesis h0_pos : (s_blk hd0 < h0)%nat.
Lemma own_inside : outside (s_blk hd0) = false.
Proof. unfold outside. now rewrite Nat.eqb_refl, andb_false_r. Qed.
Lemma headers_inside s : headers3 s -> outside (s_blk s) = false.
Proof. unfold headers3. destruct (pm Slice); auto. intros ->. apply own_inside. Qed.

Lemma get_byte i : may_read (pm Slice) t false -> may_read (pm (Byte i)) t false -> may_get modes3 headers3 t i.
Proof.
  intros H1 H2 s Hs. cbn [modes3]. rewrite (headers_inside s Hs). unfold headers3 in Hs. destruct (pm Slice) eqn:E; auto.
  subst s. rewrite Nat.eqb_refl. now replace (s_off hd0 + i - s_off hd0) with i by lia.
Qed.
Lemma put_byte i : may_read (pm Slice) t false -> (forall u, pm Slice <> Owned u) -> pm Slice <> Guarded -> may_write (pm (Byte i)) t false ->
  may_put modes3 headers3 t i.
Proof.
  intros H1 HO HG H2 s Hs. cbn [modes3]. rewrite (headers_inside s Hs). unfold headers3 in Hs. destruct (pm Slice) eqn:E; cbn in *; auto.
  - subst s. rewrite Nat.eqb_refl. now replace (s_off hd0 + i - s_off hd0) with i by lia.
  - now destruct (HO t0).
Qed.
Lemma source_fine (K : nat -> Prop) s o : length (heap s) = h0 -> b_buf (bb s) = hd0 -> incl (initial h0) K -> valid_opn s o -> separate s (Next o) ->
  source_ok modes3 t K o.
Proof.
  intros E1 E2 HK V X. destruct o; cbn in *; auto.
  assert (L : (s_blk d < h0)%nat). { unfold wf_arg, wf_slice in V. rewrite E1 in V. tauto. }
  split; [now apply HK|]. intros i P. right.
  split; [now apply HK|]. cbn. unfold outside. rewrite E2 in X.
  apply Nat.ltb_lt in L. apply Nat.eqb_neq in X. now rewrite L, X.
Qed.

Notation call_disc := (disc RaceLemmas.none (initial h0) false yes (fun _ => True)).

Lemma headers3_again s o n c : pm Slice <> Frozen -> headers3 s -> headers3 (mkSlice (s_blk s) o n c).
Proof. unfold headers3. cbn. destruct (pm Slice); tauto. Qed.
Lemma headers3_fresh (K : nat -> Prop) b o n c : pm Slice <> Frozen -> incl (initial h0) K -> ~ K b -> headers3 (mkSlice b o n c).
Proof.
  unfold headers3. cbn [s_blk]. intros N I H. assert (E : outside b = false).
  { unfold outside. destruct (Nat.ltb_spec b h0); auto. destruct H. now apply I. }
  destruct (pm Slice); tauto.
Qed.

Lemma disc_call3 s c : length (heap s) = h0 -> b_buf (bb s) = hd0 -> valid_call s c -> separate s c ->
  (pm Slice = Frozen \/ exists u, pm Slice = Exclusive u) ->
  (forall x, reads3 c x = true -> may_read (pm x) t false) -> (forall x, writes3 c x = true -> may_write (pm x) t false) ->
  call_disc (do_call c).
Proof.
  intros E1 E2 V X F R W.
  assert (HO : forall u, pm Slice <> Owned u) by (intros u Eu; destruct F as [F|[v F]]; congruence).
  assert (HG : pm Slice <> Guarded) by (intros Eu; destruct F as [F|[v F]]; congruence).
  assert (ST : forall A, stable (A := A) RaceLemmas.none (initial h0) yes) by (intros A P K a _ _; exact I).
  assert (GS : reads3 c Slice = true -> may_read (modes3 LHeader) t false) by apply (R Slice).
  assert (GF : forall f, reads3 c (Fields f) = true -> may_read (modes3 (LField f)) t false) by (intro f; apply (R (Fields f))).
  assert (PF : forall f, writes3 c (Fields f) = true -> may_write (modes3 (LField f)) t false) by (intro f; apply (W (Fields f))).
  assert (GB : reads3 c Slice = true -> forall i, reads3 c (Byte i) = true -> may_get modes3 headers3 t i) by (intros A i B; apply get_byte; auto).
  assert (PB : reads3 c Slice = true -> forall i, writes3 c (Byte i) = true -> may_put modes3 headers3 t i) by (intros A i B; apply put_byte; auto).
  assert (NF : writes3 c Slice = true -> pm Slice <> Frozen) by (intros A B; apply W in A; rewrite B in A; exact A).
  assert (PS : writes3 c Slice = true -> may_write (modes3 LHeader) t false) by apply (W Slice).
  assert (PN : writes3 c Slice = true -> forall b, ~ initial h0 b -> forall i, may_write (modes3 (LByte b i)) t false).
  { intros A b N i. cbn. replace (outside b) with false; [|unfold outside; destruct (Nat.ltb_spec b h0); auto; now destruct N].
    apply W in A. destruct (pm Slice) eqn:E; cbn in *; auto; contradiction. }
  clear F HO HG R W.
  Ltac fin := first [ exact I | match goal with
    | H : forall f, _ -> may_read (modes3 (LField f)) _ _ |- _ => first [exact (H FOff eq_refl)|exact (H FCap eq_refl)|exact (H FBoff eq_refl)|exact (H FBcap eq_refl)]
    | H : forall f, _ -> may_write (modes3 (LField f)) _ _ |- _ => first [exact (H FOff eq_refl)|exact (H FCap eq_refl)|exact (H FBoff eq_refl)|exact (H FBcap eq_refl)]
    | H : _ -> may_read (modes3 LHeader) _ _ |- _ => exact (H eq_refl)
    | H : _ -> may_write (modes3 LHeader) _ _ |- _ => exact (H eq_refl) end | intro; fin ].
  destruct c as [off o|o| | | |off r|off r|off|off| | |n|n|n| | | | | | |]; cbn [reads3 writes3] in *.
  - destruct V as [V1 V2]. apply (disc_at modes3 headers3 t s); auto.
    + destruct (bit_addressed o); apply GF; reflexivity.
    + eapply source_fine; eauto. apply incl_refl.
    + intros i T. apply GB; auto. eapply touched_span; eauto.
    + intros Wr i T. apply PB; auto. rewrite Wr. eapply touched_span; eauto.
  - apply (disc_next modes3 headers3 t s); auto.
    + destruct (bit_addressed o); repeat split; first [apply GF; reflexivity|apply PF; reflexivity].
    + eapply source_fine; eauto. apply incl_refl.
    + intros E i. apply GB; auto. now rewrite E.
  - cbn [do_call]. unfold ret_unit. apply (disc_ret _ _ _ _ (fun _ => RUnit)). unfold V3Buffer.ClearAllBits, V3Buffer.SetAllBits, V3Buffer.FlipAllBits, get_buf. cbn [bind RaceLemmas.disc]. split; auto. intros sl Hs.
    apply (disc_goto _ _ _ (fun _ => True)); [exact I| |intros; exact I].
    intros i a P K HP HK _. apply disc_buf_set; auto. apply stable_keeps; auto.
  - cbn [do_call]. unfold ret_unit. apply (disc_ret _ _ _ _ (fun _ => RUnit)). unfold V3Buffer.ClearAllBits, V3Buffer.SetAllBits, V3Buffer.FlipAllBits, get_buf. cbn [bind RaceLemmas.disc]. split; auto. intros sl Hs.
    apply (disc_goto _ _ _ (fun _ => True)); [exact I| |intros; exact I].
    intros i a P K HP HK _. apply disc_buf_set; auto. apply stable_keeps; auto.
  - cbn [do_call]. unfold ret_unit. apply (disc_ret _ _ _ _ (fun _ => RUnit)). unfold V3Buffer.ClearAllBits, V3Buffer.SetAllBits, V3Buffer.FlipAllBits, get_buf. cbn [bind RaceLemmas.disc]. split; auto. intros sl Hs.
    apply (disc_goto _ _ _ (fun _ => True)); [exact I| |intros; exact I].
    intros i a P K HP HK _. apply disc_bind. apply disc_buf_get; auto. intros P1 K1 v H1 H2. apply disc_buf_set; auto.
    apply stable_keeps; eapply incl_trans; eauto.
  - destruct r; cbn; repeat split; try solve [fin].
  - destruct r; cbn; repeat split; try solve [fin].
  - destruct off; cbn; repeat split; try solve [fin].
  - destruct off; cbn; repeat split; try solve [fin].
  - cbn; repeat split; try solve [fin].
  - cbn; repeat split; try solve [fin].
  - cbn [do_call]. unfold ret_unit. apply (disc_ret _ _ _ _ (fun _ => RUnit)). unfold V3Buffer.TruncateLeft, panic_if, get_buf, get, set_buf, reslice.
    destruct (_ <? 0); cbn [bind RaceLemmas.disc]; [exact I|]. split; try solve [fin]. intros sl Hs. split; try solve [fin]. intros v.
    destruct (_ && _); cbn [bind RaceLemmas.disc]; [|exact I].
    repeat split; try solve [fin]. { apply headers3_again; auto. } { left. right. reflexivity. }
  - cbn [do_call]. unfold ret_unit. apply (disc_ret _ _ _ _ (fun _ => RUnit)). unfold V3Buffer.TruncateRight, panic_if, get_buf, get, set_buf, reslice.
    destruct (_ <? 0); cbn [bind RaceLemmas.disc]; [exact I|]. split; try solve [fin]. intros sl Hs. split; try solve [fin]. intros v.
    destruct (_ && _); cbn [bind RaceLemmas.disc]; [|exact I].
    repeat split; try solve [fin]. { apply headers3_again; auto. } { left. right. reflexivity. }
  - cbn [do_call]. unfold ret_unit. apply (disc_ret _ _ _ _ (fun _ => RUnit)). unfold V3Buffer.Grow, panic_if, get_buf, get, set_buf, reslice, make_bytes.
    destruct (_ <? 0); cbn [bind RaceLemmas.disc]; [exact I|]. split; try solve [fin]. intros sl Hs. split; try solve [fin]. intros v.
    destruct (_ <=? _); cbn [bind RaceLemmas.disc].
    + split; try solve [fin]. intros s1 Hs1. split; try solve [fin]. intros v1.
      destruct (_ && _); cbn [bind RaceLemmas.disc]; [|exact I].
      repeat split; try solve [fin]. { apply headers3_again; auto. } { left. right. reflexivity. }
    + split; try solve [fin]. intros v1. split; try solve [fin]. intros s1 Hs1.
      destruct (_ && _); cbn [bind RaceLemmas.disc]; [|exact I]. intros b Nb.
      split; try solve [fin]. intros s2 Hs2.
      assert (I0 : incl (initial h0) (add (add (initial h0) (s_blk sl)) (s_blk s1))) by (eapply incl_trans; apply incl_add).
      unfold copy. cbn [bind RaceLemmas.disc s_blk s_off]. repeat split; try solve [fin].
      * left. right. reflexivity.
      * right. right. reflexivity.
      * intros i Hi. left. right. reflexivity.
      * intros i Hi. right. split; [right; reflexivity|].
        replace i with (s_off s2 + (i - s_off s2)) by lia. apply GB; auto.
      * eapply headers3_fresh; eauto.
      * right. split; [right; reflexivity|]. intro i. apply PN; auto.
  - cbn. repeat split; try solve [fin].
  - cbn [do_call]. unfold ret_unit. apply (disc_ret _ _ _ _ (fun _ => RUnit)). unfold V3Buffer.Reset, get_buf, set, set_buf, reslice.
    cbn [bind RaceLemmas.disc]. split; try solve [fin]. intros sl Hs. 
    destruct (_ && _); cbn [bind RaceLemmas.disc]; [|exact I].
    repeat split; try solve [fin]. { apply headers3_again; auto. } { left. right. reflexivity. }
  - cbn. repeat split; try solve [fin].
  - cbn. repeat split; try solve [fin].
  - cbn. repeat split; try solve [fin].
  - cbn. repeat split; try solve [fin].
  - cbn. repeat split; try solve [fin].
Qed.
End Modes.

(** ** Programs *)

Section Programs3.
Variable programs : list (list (call slice)).

(** The goroutine that writes [x], if there is one. *)
Definition owner (x : piece) : option nat :=
  find (fun t => existsb (fun c => writes3 c x) (nth t programs [])) (seq 0 (length programs)).
Definition owner_mode (x : piece) : mode := match owner x with Some t => Exclusive t | None => Frozen end.

Lemma owner_some x u : owner x = Some u -> exists cs c, nth_error programs u = Some cs /\ In c cs /\ writes3 c x = true.
Proof.
  intro H. apply find_some in H as [H1 H2]. apply in_seq in H1. apply existsb_exists in H2 as (c & C1 & C2).
  exists (nth u programs []), c. split; auto. apply nth_error_nth'. lia.
Qed.
Lemma owner_none x t cs c : owner x = None -> nth_error programs t = Some cs -> In c cs -> writes3 c x = false.
Proof.
  intros H E I. destruct (writes3 c x) eqn:W; auto.
  assert (L : (t < length programs)%nat) by (apply nth_error_Some; congruence).
  pose proof (find_none _ _ H t) as N. rewrite in_seq in N. specialize (N ltac:(lia)). cbv beta in N.
  rewrite (nth_error_nth _ _ _ E) in N. rewrite <- N. symmetry. apply existsb_exists. eauto.
Qed.
Hypothesis comp : compatible3 programs.
Lemma owner_reads x t cs c : nth_error programs t = Some cs -> In c cs -> reads3 c x = true -> may_read (owner_mode x) t false.
Proof.
  intros E I R. unfold owner_mode. destruct (owner x) as [u|] eqn:O; cbn; auto.
  apply owner_some in O as (ds & d & E' & I' & W). destruct (Nat.eq_dec t u) as [|N]; auto.
  exfalso. apply (comp u t ds cs d c); auto. exists x. auto.
Qed.
Lemma owner_writes x t cs c : nth_error programs t = Some cs -> In c cs -> writes3 c x = true -> may_write (owner_mode x) t false.
Proof.
  intros E I R. unfold owner_mode. destruct (owner x) as [u|] eqn:O; cbn.
  - apply owner_some in O as (ds & d & E' & I' & W). destruct (Nat.eq_dec t u) as [|N]; auto.
    exfalso. apply (comp u t ds cs d c); auto. exists x. auto.
  - rewrite (owner_none x t cs c O E I) in R. discriminate.
Qed.

Theorem compatible3_race_free s tr c : (s_blk (b_buf (bb s)) < length (heap s))%nat ->
  Forall (Forall (valid_call s)) programs -> Forall (Forall (separate s)) programs ->
  traced do_call (start s programs) tr c -> race_free tr.
Proof.
  intros B V X T. set (h := length (heap s)) in *.
  apply (disciplined (modes3 (b_buf (bb s)) h owner_mode) (headers3 (b_buf (bb s)) h owner_mode) do_call h s programs tr c); auto.
  - unfold headers3. destruct (owner_mode Slice); auto; unfold outside; now rewrite Nat.eqb_refl, andb_false_r.
  - intros t cs E. apply Forall_forall. intros d D. unfold good.
    assert (Ic : In cs programs) by (eapply nth_error_In; eauto).
    rewrite Forall_forall in V, X. specialize (V cs Ic). specialize (X cs Ic). rewrite Forall_forall in V, X.
    apply (disc_call3 _ _ _ _ B s); auto.
    + unfold owner_mode. destruct (owner Slice); eauto.
    + intros x. eapply owner_reads; eauto.
    + intros x. eapply owner_writes; eauto.
Qed.
End Programs3.

(** ** Finding races *)

(** Without a mutex only the steps of one goroutine are ordered. *)
Definition no_sync (a : access) : bool := match a with Acquire | Release => false | _ => true end.
Lemma before_same tr : Forall (fun x => no_sync (snd x) = true) tr ->
  forall i j, before tr i j -> exists t a b, nth_error tr i = Some (t, a) /\ nth_error tr j = Some (t, b).
Proof.
  intros F i j B. induction B as [i j t a b L H1 H2|i j t u L H1 H2|i j k B1 IH1 B2 IH2].
  - eauto.
  - apply nth_error_In in H1. rewrite Forall_forall in F. specialize (F _ H1). discriminate F.
  - destruct IH1 as (t & a & b & H1 & H2), IH2 as (u & a' & b' & H3 & H4).
    rewrite H2 in H3. injection H3 as <- <-. eauto.
Qed.

(** The accesses of a program that runs alone. *)
Fixpoint accesses (fuel : nat) (p : prog (rv slice)) (s : St) : list access * (prog (rv slice) * St) :=
  match fuel with
  | O => ([], (p, s))
  | S f =>
      match access_of p s, step1 p s with
      | Some a, Some (p', s') => let (l, e) := accesses f p' s' in (a :: l, e)
      | _, _ => ([], (p, s))
      end
  end.
(** The program runs after a call with these accesses and conflicts with it. *)
Definition second_races (x : list access * (prog (rv slice) * St)) (q : prog (rv slice)) : bool :=
  let (lb, _) := accesses 99 q (snd (snd x)) in
  if forallb no_sync (fst x) then
    if forallb no_sync lb then existsb (fun a => existsb (clash a) lb) (fst x) else false
  else false.

Section InTurn.
Context {call : Type} (body : call -> prog (rv slice)).

Lemma accesses_first c0 c d q fuel : forall p s l p' s' tr,
  accesses fuel p s = (l, (p', s')) -> traced body c0 tr (pair s c d p q) ->
  traced body c0 (tr ++ map (fun a => (0%nat, a)) l) (pair s' c d p' q).
Proof.
  induction fuel as [|f IH]; intros p s l p' s' tr E T; cbn [accesses] in E.
  { injection E as <- <- <-. now rewrite app_nil_r. }
  destruct (access_of p s) as [a|] eqn:A; [|injection E as <- <- <-; now rewrite app_nil_r].
  destruct (step1 p s) as [[p1 s1]|] eqn:P; [|injection E as <- <- <-; now rewrite app_nil_r].
  destruct (accesses f p1 s1) as [l1 e1] eqn:R. injection E as <- ->.
  change (map (fun a => (0%nat, a)) (a :: l1)) with ([(0%nat, a)] ++ map (fun a => (0%nat, a)) l1). rewrite app_assoc.
  eapply IH; [exact R|].
  replace [(0%nat, a)] with (next_access (pair s c d p q) 0) by (unfold next_access, pair; cbn; now rewrite A).
  eapply tr_step; [exact T|]. exact (g_step body 0 (pair s c d p q) c [] p p1 s1 eq_refl P).
Qed.
Lemma accesses_second c0 c d p fuel : forall q s l q' s' tr,
  accesses fuel q s = (l, (q', s')) -> traced body c0 tr (pair s c d p q) ->
  traced body c0 (tr ++ map (fun a => (1%nat, a)) l) (pair s' c d p q').
Proof.
  induction fuel as [|f IH]; intros q s l q' s' tr E T; cbn [accesses] in E.
  { injection E as <- <- <-. now rewrite app_nil_r. }
  destruct (access_of q s) as [a|] eqn:A; [|injection E as <- <- <-; now rewrite app_nil_r].
  destruct (step1 q s) as [[q1 s1]|] eqn:P; [|injection E as <- <- <-; now rewrite app_nil_r].
  destruct (accesses f q1 s1) as [l1 e1] eqn:R. injection E as <- ->.
  change (map (fun a => (1%nat, a)) (a :: l1)) with ([(1%nat, a)] ++ map (fun a => (1%nat, a)) l1). rewrite app_assoc.
  eapply IH; [exact R|].
  replace [(1%nat, a)] with (next_access (pair s c d p q) 1) by (unfold next_access, pair; cbn; now rewrite A).
  eapply tr_step; [exact T|]. exact (g_step body 1 (pair s c d p q) d [] q q1 s1 eq_refl P).
Qed.

Lemma in_turn {f g} c d s la p' s' lb q' s'' a b :
  accesses f (body c) s = (la, (p', s')) -> accesses g (body d) s' = (lb, (q', s'')) ->
  forallb no_sync la = true -> forallb no_sync lb = true -> In a la -> In b lb -> conflict a b ->
  exists tr c', traced body (start s [[c]; [d]]) tr c' /\ ~ race_free tr.
Proof.
  intros E1 E2 NA NB IA IB C.
  assert (T0 : traced body (start s [[c]; [d]]) [] (pair s c d (body c) (body d))).
  { replace (@nil (nat * access)) with (([] ++ next_access (start s [[c]; [d]]) 0) ++ next_access (mkC s [mkG [] (Some (c, body c)); mkG [d] None]) 1) by reflexivity.
    eapply tr_step; [eapply tr_step; [apply tr_start|]|].
    - exact (g_call body 0 (start s [[c]; [d]]) c [] eq_refl).
    - exact (g_call body 1 (mkC s [mkG [] (Some (c, body c)); mkG [d] None]) d [] eq_refl). }
  pose proof (accesses_first _ _ _ _ _ _ _ _ _ _ _ E1 T0) as T1. cbn [app] in T1.
  pose proof (accesses_second _ _ _ _ _ _ _ _ _ _ _ E2 T1) as T2.
  eexists _, _. split; [exact T2|]. intro F.
  apply In_nth_error in IA as [i IA]. apply In_nth_error in IB as [j IB].
  set (tr := map _ la ++ map _ lb) in *.
  assert (L : (i < length la)%nat) by (apply nth_error_Some; congruence).
  assert (H1 : nth_error tr i = Some (0%nat, a)).
  { unfold tr. rewrite nth_error_app1 by (rewrite map_length; exact L). now rewrite nth_error_map, IA. }
  assert (H2 : nth_error tr (length la + j) = Some (1%nat, b)).
  { unfold tr. rewrite nth_error_app2 by (rewrite map_length; lia).
    replace (length la + j - length (map (fun a => (0%nat, a)) la))%nat with j by (rewrite map_length; lia). now rewrite nth_error_map, IB. }
  apply (F i (length la + j)%nat). exists 0%nat, a, 1%nat, b. repeat split; auto; [lia|]. intro B.
  apply before_same in B.
  - destruct B as (t & x & y & X & Y). rewrite H1 in X. rewrite H2 in Y. congruence.
  - unfold tr. rewrite Forall_app. rewrite forallb_forall in NA, NB.
    split; apply Forall_forall; intros x X; apply in_map_iff in X as (y & <- & Y); cbn; auto.
Qed.
Lemma in_turn_sound c d s : second_races (accesses 99 (body c) s) (body d) = true ->
  exists tr c', traced body (start s [[c]; [d]]) tr c' /\ ~ race_free tr.
Proof.
  unfold second_races. destruct (accesses 99 (body c) s) as [la [p' s']] eqn:E1. cbn [fst snd].
  destruct (accesses 99 (body d) s') as [lb [q' s'']] eqn:E2. intro H.
  destruct (forallb no_sync la) eqn:NA; [|discriminate]. destruct (forallb no_sync lb) eqn:NB; [|discriminate].
  apply existsb_exists in H as (a & A & H). apply existsb_exists in H as (b & B & H). apply clash_true in H as [H _].
  eapply in_turn; eauto.
Qed.
End InTurn.
