(** * RaceExact: the bytes that a call of v3 certainly accesses when it returns. *)
From Coq Require Import ZArith List Bool Lia Arith ZifyBool.
From Verif Require Import GoSem Errors Spec GoLemmas Typed TypedCanon Calls MiniAbs Conc Race RaceSpec3 Race3 RaceMiniSpec RaceLog.
From Verif Require V3Buffer V3Mini.
Import ListNotations.
Open Scope Z_scope.
Open Scope list_scope.

Section Hits.
(** The fields of the buffer. *)
Variable B : Buf.
Notation len := (s_len (b_buf B)).
Hypothesis len_max : 0 <= len <= 2 ^ 48.
Hypothesis cap_len : b_cap B = len.

(** Among the accesses is a write of byte [i] of the buffer ([w]), or at least an access. *)
Definition hits (w : bool) (i : Z) (l : list access) : Prop :=
  exists a, In a l /\ (writes a (LByte (s_blk (b_buf B)) (s_off (b_buf B) + i)) \/
                       (w = false /\ reads a (LByte (s_blk (b_buf B)) (s_off (b_buf B) + i)))).
Definition at_byte (w : bool) (i : Z) (l : list access) : Prop := hits w i l /\ 0 <= i < len.

Lemma at_byte_mono w i l l' : (forall x, In x l -> In x l') -> at_byte w i l -> at_byte w i l'.
Proof. intros H [(a & X & Y) L]. split; auto. exists a. auto. Qed.
Lemma at_byte_left w i l l' : at_byte w i l -> at_byte w i (l ++ l').
Proof. apply at_byte_mono. intros x X. apply in_or_app. now left. Qed.
Lemma at_byte_right w i l l' : at_byte w i l' -> at_byte w i (l ++ l').
Proof. apply at_byte_mono. intros x X. apply in_or_app. now right. Qed.
Lemma at_byte_cons w i a l : at_byte w i l -> at_byte w i (a :: l).
Proof. apply at_byte_mono. intros x X. now right. Qed.
Lemma at_byte_weak i l : at_byte true i l -> at_byte false i l.
Proof. intros [(a & X & [Y|[Y _]]) L]; [|discriminate]. split; auto. exists a. auto. Qed.

(** ** One byte *)

Lemma post_buf_get i s : bb s = B -> post (buf_get i) s (fun _ s' l => bb s' = B /\ at_byte false i l).
Proof.
  intros E v s' R. unfold buf_get, slice_get in *. cbn [get_buf bind run log] in *. rewrite E in *.
  destruct ((0 <=? i) && (i <? len)) eqn:C; [|discriminate]. cbn [run log] in *.
  destruct (heap_read _ _ _ _) as [[|x [|? ?]]|] eqn:H; try discriminate. injection R as <- <-. split; auto. split; [|lia].
  exists (Rd (LByte (s_blk (b_buf B)) (s_off (b_buf B) + i))). cbn. auto.
Qed.
Lemma post_buf_set i x s : bb s = B -> post (buf_set i x) s (fun _ s' l => bb s' = B /\ at_byte true i l).
Proof.
  intros E v s' R. unfold buf_set, slice_set in *. cbn [get_buf bind run log] in *. rewrite E in *.
  destruct ((0 <=? i) && (i <? len)) eqn:C; [|discriminate]. cbn [run log] in *.
  destruct (heap_write _ _ _ _) as [h|] eqn:H; try discriminate. injection R as <- <-. split; auto. split; [|lia].
  exists (Wr (LByte (s_blk (b_buf B)) (s_off (b_buf B) + i))). cbn. auto.
Qed.

Ltac steps :=
  apply post_bind, post_get; cbv beta; apply post_bind, post_panic_if; intro; cbv beta; apply post_bind, post_panic_if; intro; cbv beta; cbn [app].

(** ** Bits *)

Lemma post_mini_ReadBit off s : bb s = B -> post (V3Mini.ReadBit off) s (fun _ s' l => bb s' = B /\ at_byte false (quo off 8) l).
Proof.
  intro E. unfold V3Mini.ReadBit. apply post_bind. eapply post_weaken; [apply post_buf_get; auto|]. cbv beta. intros v s1 l [E1 H].
  apply post_ret. split; auto. now rewrite app_nil_r.
Qed.
Lemma post_change off (f : Z -> Z) s : bb s = B ->
  post (v <- buf_get (quo off 8) ;; buf_set (quo off 8) (f v)) s (fun _ s' l => bb s' = B /\ at_byte true (quo off 8) l).
Proof.
  intro E. apply post_bind. eapply post_weaken; [apply post_buf_get; auto|]. cbv beta. intros v s1 l [E1 H].
  eapply post_weaken; [apply post_buf_set; auto|]. cbv beta. intros a s2 l2 [E2 H2]. split; auto. now apply at_byte_right.
Qed.
Lemma post_ReadBit off s : bb s = B -> post (V3Buffer.ReadBit off) s (fun _ s' l => bb s' = B /\ 0 <= off /\ at_byte false (quo off 8) l).
Proof.
  intro E. unfold V3Buffer.ReadBit. steps. eapply post_weaken; [apply (post_mini_ReadBit off); auto|].
  cbv beta. intros v s1 l [E1 H1]. split; auto. split; [lia|]. now apply at_byte_cons.
Qed.
Lemma post_checked_change off (f : Z -> Z) e1 e2 s : bb s = B ->
  post (bcap <- get FBcap ;; panic_if (off >? (bcap -! 1)) e1 ;; panic_if (off <? 0) e2 ;;
        v <- buf_get (quo off 8) ;; buf_set (quo off 8) (f v)) s (fun _ s' l => bb s' = B /\ 0 <= off /\ at_byte true (quo off 8) l).
Proof.
  intro E. steps. eapply post_weaken; [apply (post_change off f); auto|].
  cbv beta. intros v s1 l [E1 H1]. split; auto. split; [lia|]. now apply at_byte_cons.
Qed.

(** The rounds of a loop over bits cover the bytes of its bits. *)
Lemma bits_cover w off n l : is_i64 off -> is_i64 n ->
  (forall j, 0 <= j < Z.max 1 n -> at_byte w (quo (off +! j) 8) l) ->
  forall i, Z.quot off 8 <= i <= Z.quot (off + Z.max n 1 - 1) 8 -> at_byte w i l.
Proof.
  intros Ho Hn H i Hi. unfold quo in H.
  assert (H0 : 0 <= Z.quot off 8 < len).
  { destruct (H 0 ltac:(lia)) as [_ X]. replace (off +! 0) with off in X; auto. symmetry. rewrite add64_id; [lia|]. now rewrite Z.add_0_r. }
  assert (O : -8 < off < 2 ^ 51).
  { change (2 ^ 51) with (8 * 2 ^ 48). split.
    - destruct (Z.le_gt_cases off (-8)); auto. exfalso. assert (Z.quot off 8 <= -1); [|lia].
      replace off with (- (- off)) by lia. rewrite Z.quot_opp_l by lia. assert (1 <= Z.quot (- off) 8); [|lia].
      apply Z.quot_le_lower_bound; lia.
    - destruct (Z.le_gt_cases (8 * 2 ^ 48) off); [|lia]. exfalso. assert (2 ^ 48 <= Z.quot off 8) by (apply Z.quot_le_lower_bound; lia). lia. }
  assert (S : forall j, 0 <= j < Z.max 1 n -> off +! j = off + j).
  { intros j J. apply add64_id. unfold is_i64 in *. destruct (Z.le_gt_cases (2 ^ 63) (off + j)); [|lia]. exfalso.
    destruct (H j J) as [_ [X _]]. assert (W : off +! j = off + j - 2 ^ 64).
    { unfold add64, wrap64. change (2 ^ 51) with 2251799813685248 in *. replace ((off + j + 2 ^ 63) mod 2 ^ 64) with (off + j + 2 ^ 63 - 2 ^ 64); [lia|].
      apply Z.mod_unique with 1; lia. }
    rewrite W in X. assert (Z.quot (off + j - 2 ^ 64) 8 <= -1); [|lia].
    replace (off + j - 2 ^ 64) with (- (2 ^ 64 - off - j)) by lia. rewrite Z.quot_opp_l by lia.
    assert (1 <= Z.quot (2 ^ 64 - off - j) 8); [|lia]. change (2 ^ 51) with 2251799813685248 in *. apply Z.quot_le_lower_bound; lia. }
  destruct (Z.eq_dec i (Z.quot off 8)) as [->|D].
  - specialize (H 0 ltac:(lia)). rewrite S, Z.add_0_r in H by lia. exact H.
  - assert (P : 0 < i) by lia.
    assert (L : off < 8 * i). { destruct (Z.le_gt_cases (8 * i) off); auto. exfalso. assert (i <= Z.quot off 8) by (apply Z.quot_le_lower_bound; lia). lia. }
    assert (U : 8 * i <= off + Z.max n 1 - 1).
    { destruct (Z.le_gt_cases (8 * i) (off + Z.max n 1 - 1)); auto. exfalso. assert (Z.quot (off + Z.max n 1 - 1) 8 < i); [|lia].
      destruct (Z.le_gt_cases 0 (off + Z.max n 1 - 1)).
      - apply Z.quot_lt_upper_bound; lia.
      - assert (Z.quot (off + Z.max n 1 - 1) 8 <= 0); [|lia]. replace (off + Z.max n 1 - 1) with (- - (off + Z.max n 1 - 1)) by lia.
        rewrite Z.quot_opp_l by lia. assert (0 <= Z.quot (- (off + Z.max n 1 - 1)) 8) by (apply Z.quot_pos; lia). lia. }
    specialize (H (8 * i - off) ltac:(lia)). rewrite S in H by lia. replace (off + (8 * i - off)) with (i * 8) in H by lia.
    rewrite Z.quot_mul in H by lia. exact H.
Qed.

Lemma post_bits {A} w off n (b : Z -> A -> prog A) a s : is_i64 off -> is_i64 n ->
  (forall i a s, bb s = B -> post (b i a) s (fun _ s' l => bb s' = B /\ at_byte w (quo (off +! i) 8) l)) -> bb s = B ->
  post (goto_loop n b a) s (fun _ s' l => bb s' = B /\ forall i, Z.quot off 8 <= i <= Z.quot (off + Z.max n 1 - 1) 8 -> at_byte w i l).
Proof.
  intros Ho Hn H E. eapply post_weaken.
  - apply (post_goto n b a s (fun s => bb s = B) (fun i l => at_byte w (quo (off +! i) 8) l)); auto; [unfold is_i64 in Hn; lia|].
    intros. eapply at_byte_mono; eauto.
  - cbv beta. intros x s' l [E1 H1]. split; auto. intros i Hi. now apply (bits_cover w off n l).
Qed.

(** ** Numbers *)

Lemma nums_cover w wd off n l : 1 <= wd <= 8 -> is_i64 off ->
  (forall i k, 0 <= i < Z.max 1 n -> 0 <= k < wd -> at_byte w (off +! cidx wd k i) l) ->
  forall b, off <= b < off + Z.max n 1 * wd -> at_byte w b l.
Proof.
  intros Hw Ho H b Hb.
  assert (C0 : forall i k, 0 <= i -> 0 <= k < wd -> i * wd <= 2 ^ 50 -> cidx wd k i = k + i * wd).
  { intros i k Hi Hk M. change (2 ^ 50) with 1125899906842624 in M. unfold cidx. destruct (Z.eqb_spec k 0); subst; rewrite mul64_id by (unfold is_i64; lia); [lia|].
    rewrite add64_id by (unfold is_i64; lia). reflexivity. }
  assert (O : 0 <= off < len).
  { destruct (H 0 0 ltac:(lia) ltac:(lia)) as [_ X]. rewrite C0 in X by lia. rewrite add64_id in X; [lia|]. replace (off + (0 + 0 * wd)) with off by lia. exact Ho. }
  assert (M : (Z.max 1 n - 1) * wd < len - off).
  { destruct (Z.le_gt_cases (len - off) ((Z.max 1 n - 1) * wd)); auto. exfalso.
    set (i0 := (len - off + wd - 1) / wd).
    assert (I0 : len - off <= i0 * wd < len - off + wd).
    { unfold i0. pose proof (Z.div_mod (len - off + wd - 1) wd ltac:(lia)). pose proof (Z.mod_pos_bound (len - off + wd - 1) wd ltac:(lia)). nia. }
    assert (0 <= i0 < Z.max 1 n) as I1 by nia.
    destruct (H i0 0 I1 ltac:(lia)) as [_ X]. change (2 ^ 48) with 281474976710656 in *.
    rewrite C0 in X by lia. rewrite add64_id in X by (unfold is_i64; lia). lia. }
  set (i := (b - off) / wd). set (k := (b - off) mod wd).
  assert (E : b = off + (k + i * wd)) by (unfold i, k; pose proof (Z.div_mod (b - off) wd ltac:(lia)); lia).
  assert (K : 0 <= k < wd) by (apply Z.mod_pos_bound; lia).
  assert (I : 0 <= i < Z.max 1 n) by (split; nia).
  specialize (H i k I K). change (2 ^ 48) with 281474976710656 in *.
  assert (i * wd <= 281474976710656) by nia.
  rewrite C0 in H by lia. rewrite add64_id in H by (unfold is_i64; lia). now rewrite E.
Qed.

Lemma post_elem d i s : post (elem d i) s (fun _ s' l => s' = s /\ l = []).
Proof. intros v s' R. unfold elem in *. destruct (_ && _); [|discriminate]. injection R as <- <-. auto. Qed.
Lemma post_stores bits wd off i d : forall ks s, bb s = B ->
  post (stores bits wd off i d ks) s (fun _ s' l => bb s' = B /\ Forall (fun x => at_byte true (off +! cidx wd (fst x) i) l) ks).
Proof.
  induction ks as [|[k sh] ks IH]; intros s E; cbn [stores]; [apply post_ret; auto|].
  destruct ks as [|y ks].
  - apply post_bind. eapply post_weaken; [apply post_elem|]. cbv beta. intros v s1 l [-> ->].
    eapply post_weaken; [apply post_buf_set; auto|]. cbv beta. intros a s2 l2 [E2 H2]. split; auto.
  - apply post_bind. eapply post_weaken; [apply post_elem|]. cbv beta. intros v s1 l [-> ->].
    apply post_bind. eapply post_weaken; [apply post_buf_set; auto|]. cbv beta. intros a s2 l2 [E2 H2].
    eapply post_weaken; [apply IH; auto|]. cbv beta. intros a3 s3 l3 [E3 H3]. split; auto. cbn [app].
    apply Forall_cons; [now apply at_byte_left|]. revert H3. apply Forall_impl. intros x. apply at_byte_right.
Qed.
Lemma post_loads {A} wd off i (K : list Z -> prog A) (G : A -> St -> Prop) : forall ks acc s, bb s = B ->
  (forall xs s, bb s = B -> post (K xs) s (fun _ s' _ => bb s' = B)) ->
  post (loads wd off i ks acc K) s (fun _ s' l => bb s' = B /\ Forall (fun x => at_byte false (off +! cidx wd x i) l) ks).
Proof.
  induction ks as [|k ks IH]; intros acc s E HK; cbn [loads].
  - eapply post_weaken; [apply HK; auto|]. cbv beta. auto.
  - apply post_bind. eapply post_weaken; [apply post_buf_get; auto|]. cbv beta. intros v s1 l [E1 H1].
    eapply post_weaken; [apply IH; auto|]. cbv beta. intros a s2 l2 [E2 H2]. split; auto.
    apply Forall_cons; [now apply at_byte_left|]. revert H2. apply Forall_impl. intros x. apply at_byte_right.
Qed.

Lemma tsize_range t : 1 <= tsize t <= 8.
Proof. destruct t; cbv; split; discriminate. Qed.
Lemma in_wlayout t k : 0 <= k < tsize t -> exists sh, In (k, sh) (wlayout t).
Proof.
  intro K. unfold wlayout. eexists. apply in_map_iff. exists k. split; [reflexivity|].
  unfold iota. apply in_map_iff. exists (Z.to_nat k). split; [lia|]. apply in_seq. unfold tsize in K. lia.
Qed.
Lemma in_rlayout t k : 0 <= k < tsize t -> In k (rlayout t).
Proof.
  intro K. unfold rlayout. apply in_map_iff. destruct (ty_endian t).
  - exists k. split; auto. unfold iota. apply in_map_iff. exists (Z.to_nat k). split; [lia|]. apply in_seq. unfold tsize in K. lia.
  - exists (tsize t - 1 - k). split; [lia|]. unfold iota. apply in_map_iff. exists (Z.to_nat (tsize t - 1 - k)). split; [lia|]. apply in_seq. unfold tsize in *. lia.
Qed.

Lemma post_MiniWriteT t off d s : is_i64 off -> wf_data (tsize t) d -> bb s = B ->
  post (MiniWriteT t off d) s (fun _ s' l => bb s' = B /\ forall i, off <= i < off + zlen d * tsize t -> at_byte true i l).
Proof.
  intros Ho Hd E. rewrite MiniWriteT_canon. pose proof (tsize_range t) as TS.
  eapply post_weaken.
  - apply (post_goto (zlen d) _ tt s (fun s => bb s = B) (fun i l => Forall (fun x => at_byte true (off +! cidx (tsize t) (fst x) i) l) (wlayout t))); auto.
    + unfold wf_data in Hd. change maxAlloc with (2 ^ 48) in Hd. nia.
    + intros i l l' M. apply Forall_impl. intros x. now apply at_byte_mono.
    + intros i a s1 E1 _. now apply post_stores.
  - cbv beta. intros a s' l [E1 H1]. split; auto. intros i Hi. apply (nums_cover true (tsize t) off (zlen d) l); auto; [|nia].
    intros j k J K. specialize (H1 j J). rewrite Forall_forall in H1. destruct (in_wlayout t k K) as [sh X]. exact (H1 _ X).
Qed.
Lemma post_MiniReadT t off n s : is_i64 off -> is_i64 n -> bb s = B ->
  post (MiniReadT t off n) s (fun _ s' l => bb s' = B /\ forall i, off <= i < off + Z.max n 1 * tsize t -> at_byte false i l).
Proof.
  intros Ho Hn E. rewrite MiniReadT_canon. pose proof (tsize_range t) as TS.
  eapply post_weaken.
  - apply (post_goto n _ tt s (fun s => bb s = B) (fun i l => Forall (fun x => at_byte false (off +! cidx (tsize t) x i) l) (rlayout t))); auto.
    + unfold is_i64 in Hn. lia.
    + intros i l l' M. apply Forall_impl. intros x. now apply at_byte_mono.
    + intros i a s1 E1 _. unfold mrbody. apply (post_loads (tsize t) off i _ (fun _ _ => True)); auto.
      intros xs s2 E2 u s3 R. cbn [run] in R. unfold set_elem in R. destruct (_ && _); [|discriminate]. cbn in R. injection R as _ <-. exact E2.
  - cbv beta. intros a s' l [E1 H1]. split; auto. apply (nums_cover false (tsize t) off n l); auto.
    intros j k J K. specialize (H1 j J). rewrite Forall_forall in H1. exact (H1 _ (in_rlayout t k K)).
Qed.
Lemma post_WriteT t off d s : is_i64 off -> wf_data (tsize t) d -> bb s = B ->
  post (WriteT t off d) s (fun _ s' l => bb s' = B /\ forall i, off <= i < off + zlen d * tsize t -> at_byte true i l).
Proof.
  intros Ho Hd E. rewrite WriteT_canon. steps. eapply post_weaken; [apply post_MiniWriteT; auto|]. cbv beta. intros a s1 l [E1 H1].
  split; auto. intros i Hi. now apply at_byte_cons, H1.
Qed.
Lemma post_make w n s : post (make_elems w n) s (fun _ s' l => s' = s /\ l = []).
Proof. intros v s' R. unfold make_elems in *. destruct (_ && _); [|discriminate]. injection R as <- <-. auto. Qed.
Lemma post_ReadT t off n s : is_i64 off -> is_i64 n -> bb s = B ->
  post (ReadT t off n) s (fun _ s' l => bb s' = B /\ forall i, off <= i < off + Z.max n 1 * tsize t -> at_byte false i l).
Proof.
  intros Ho Hn E. rewrite ReadT_canon. pose proof (tsize_range t) as TS. steps.
  apply post_bind. eapply post_weaken; [apply post_make|]. cbv beta. intros x s1 l1 [-> ->]. cbn [app].
  eapply post_weaken.
  - apply (post_goto n (rbody t off) x s (fun s => bb s = B) (fun i l => Forall (fun x => at_byte false (off +! cidx (tsize t) x i) l) (rlayout t))); auto.
    + unfold is_i64 in Hn. lia.
    + intros i l l' M. apply Forall_impl. intros y. now apply at_byte_mono.
    + intros i a s1 E1 _. unfold rbody. apply (post_loads (tsize t) off i _ (fun _ _ => True)); auto.
      intros xs s2 E2 u s3 R. unfold set_elem in R. destruct (_ && _); [|discriminate]. cbn in R. injection R as _ <-. exact E2.
  - cbv beta. intros a s' l [E1 H1]. split; auto. intros i Hi. apply at_byte_cons. apply (nums_cover false (tsize t) off n l); auto.
    intros j k J K. specialize (H1 j J). rewrite Forall_forall in H1. exact (H1 _ (in_rlayout t k K)).
Qed.

(** ** Byte strings *)

Lemma post_mini_WriteBytes off d s : 0 <= s_len d -> off + s_len d <= len -> bb s = B ->
  post (V3Mini.WriteBytes off d) s (fun _ s' l => bb s' = B /\ forall i, off <= i < off + s_len d -> at_byte true i l).
Proof.
  intros Hd Ho E a s' R. unfold V3Mini.WriteBytes, reslice, copy in *. cbn [get_buf bind run log] in *. rewrite E in *.
  destruct ((0 <=? off) && (off <=? len) && (len <=? s_cap (b_buf B))) eqn:C; [|discriminate]. cbn [bind run log s_blk s_off s_len] in *.
  destruct (heap_read _ _ _ _) as [x|] eqn:H; try discriminate. destruct (heap_write _ _ _ _) as [h|] eqn:H2; try discriminate.
  injection R as <- <-. split; auto. intros i Hi. split; [|lia]. eexists. split; [cbn; right; left; reflexivity|]. left. cbn [writes].
  exists (s_off (b_buf B) + i). split; auto. rewrite Z.min_r by lia. lia.
Qed.
Lemma post_WriteBytes off d s : is_i64 off -> 0 <= s_len d <= 2 ^ 48 -> bb s = B ->
  post (V3Buffer.WriteBytes off d) s (fun _ s' l => bb s' = B /\ forall i, off <= i < off + s_len d -> at_byte true i l).
Proof.
  intros Ho Hd E. unfold V3Buffer.WriteBytes. steps. rewrite E in H. cbn [get_fld] in H. rewrite cap_len in H.
  assert (P : post (V3Mini.WriteBytes off d) s (fun _ s' l => bb s' = B /\ forall i, off <= i < off + s_len d -> at_byte true i l)).
  { destruct (Z.le_gt_cases (off + s_len d) len); [apply post_mini_WriteBytes; auto; lia|].
    (* off + s_len d overflows: the slice expression panics *)
    intros a s' R. exfalso. unfold V3Mini.WriteBytes, reslice in R. cbn [get_buf bind run] in R. rewrite E in R.
    destruct ((0 <=? off) && (off <=? len) && (len <=? s_cap (b_buf B))) eqn:C; [|discriminate].
    change (2 ^ 48) with 281474976710656 in *. rewrite add64_id in H by (unfold is_i64; lia). lia. }
  eapply (post_weaken _ _ _ _ P). cbv beta. intros a s1 l [E1 H1]. split; auto. intros i Hi. now apply at_byte_cons, H1.
Qed.
Lemma post_ReadBytes off n s : bb s = B -> post (V3Buffer.ReadBytes off n) s (fun x s' _ => bb s' = B /\
  s_blk x = s_blk (b_buf B) /\ s_off x = s_off (b_buf B) + off /\ 0 <= off /\ off +! n <= len /\ s_len x = (off +! n) - off).
Proof.
  intro E. unfold V3Buffer.ReadBytes. steps. apply post_bind, post_get_buf. intros x s' R. rewrite E in R. unfold reslice in R.
  destruct (_ && _); [|discriminate]. injection R as <- <-. cbn. rewrite E in *. cbn in *. repeat split; auto; lia.
Qed.
Lemma post_ReadByte off s : is_i64 off -> bb s = B -> post (V3Buffer.ReadByte off) s (fun _ s' l => bb s' = B /\ at_byte false off l).
Proof.
  intros Ho E. unfold V3Buffer.ReadByte. apply post_bind. eapply post_weaken; [now apply post_ReadBytes|]. cbv beta. intros x s1 l (E1 & X1 & X2 & X3 & X4 & X5).
  intros v s' R. unfold slice_get in *. destruct (_ && _) eqn:C; [|discriminate]. cbn [run log] in *. rewrite X1, X2 in *.
  destruct (heap_read _ _ _ _) as [[|y [|? ?]]|]; try discriminate. injection R as <- <-. split; auto. split.
  2:{ assert (off + 1 < 2 ^ 63 \/ off + 1 = 2 ^ 63) as [D|D] by (unfold is_i64 in Ho; lia); [rewrite add64_id in * by (unfold is_i64; lia); lia|].
      assert (off = 2 ^ 63 - 1) as -> by lia. change ((2 ^ 63 - 1) +! 1) with (- 2 ^ 63) in *. lia. }
  eexists. split; [apply in_or_app; right; left; reflexivity|]. right. split; auto. cbn. f_equal. lia.
Qed.
Lemma post_all n (b : Z -> unit -> prog unit) s : n = len -> (forall i a s, bb s = B -> post (b i a) s (fun _ s' l => bb s' = B /\ at_byte true i l)) ->
  bb s = B -> post (goto_loop n b tt) s (fun _ s' l => bb s' = B /\ 0 < len /\ forall i, 0 <= i < len -> at_byte true i l).
Proof.
  intros -> H E. eapply post_weaken.
  - apply (post_goto len b tt s (fun s => bb s = B) (fun i l => at_byte true i l)); auto; [change (2 ^ 48) with 281474976710656 in *; lia|].
    intros. eapply at_byte_mono; eauto.
  - cbv beta. intros a s' l [E1 H1]. split; auto. destruct (H1 0 ltac:(lia)) as [_ L]. split; [lia|]. intros i Hi. apply H1. lia.
Qed.
End Hits.
