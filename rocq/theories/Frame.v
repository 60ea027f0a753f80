(** * Frame: what a v3 [Buffer] method may change.  Framing lemmas. *)
From Coq Require Import ZArith List Bool Lia ZifyBool.
From Verif Require Import GoSem Spec GoLemmas BitLemmas V3BitLemmas V3ByteLemmas.
Import ListNotations.
Open Scope Z_scope.

Lemma mem_frame_refl b lo hi h : mem_frame b lo hi h h.
Proof. split; [lia|]. intros; split; auto. Qed.

Lemma mem_frame_alloc b lo hi h l : mem_frame b lo hi h (h ++ [l]).
Proof.
  split. rewrite app_length; simpl; lia.
  intros b' Hb. unfold mem. rewrite app_nth1 by lia. auto.
Qed.

Lemma mem_frame_app b lo hi h l : mem_frame b lo hi h (h ++ l).
Proof.
  split. rewrite app_length; simpl; lia.
  intros b' Hb. unfold mem. rewrite app_nth1 by lia. auto.
Qed.

Lemma mem_frame_widen b lo hi lo' hi' h h' :
  lo' <= lo -> hi <= hi' -> mem_frame b lo hi h h' -> mem_frame b lo' hi' h h'.
Proof.
  intros H1 H2 [L F]. split; [exact L|]. intros b' Hb. destruct (F b' Hb) as [Z0 G].
  split; [exact Z0|]. intros i Hi D. apply G; [exact Hi|]. lia.
Qed.

Lemma mem_frame_trans b lo hi h1 h2 h3 :
  mem_frame b lo hi h1 h2 -> mem_frame b lo hi h2 h3 -> mem_frame b lo hi h1 h3.
Proof.
  intros [L F] [L' F']. split; [lia|]. intros b' Hb.
  destruct (F b' Hb) as [Z1 G1]. destruct (F' b' ltac:(lia)) as [Z2 G2].
  split; [congruence|]. intros i Hi D. rewrite G2, G1; auto.
Qed.

Lemma mem_frame_with_content s l :
  WF s -> zlen l = zlen (content s) ->
  mem_frame (s_blk (b_buf (bb s))) (s_off (b_buf (bb s)))
    (s_off (b_buf (bb s)) + s_len (b_buf (bb s))) (heap s) (heap (with_content s l)).
Proof.
  intros W Hl. pose proof (wf_blk s W) as B. pose proof (wf_off0 s W). pose proof (wf_len0 s W).
  pose proof (wf_lencap s W). pose proof (wf_in s W). pose proof (content_zlen s W).
  unfold with_content, set_heap; cbn [heap]. split.
  - rewrite length_put_heap by exact B. lia.
  - intros b' Hb. rewrite nth_put_heap by exact B. unfold mem. rewrite nth_put_heap by exact B.
    destruct (Nat.eqb_spec b' (s_blk (b_buf (bb s)))) as [->|N].
    + split. apply put_length; lia. intros i Hi D.
      rewrite byte_at_put by lia.
      replace ((s_off (b_buf (bb s)) <=? i) && (i <? s_off (b_buf (bb s)) + zlen l)) with false by lia.
      reflexivity.
    + auto.
Qed.

Lemma with_content_becomes s l :
  WF s -> zlen l = zlen (content s) -> becomes s l (with_content s l).
Proof.
  intros W Hl. unfold becomes. rewrite content_with_content by assumption.
  destruct (with_content_fields s l) as (-> & -> & ->).
  do 4 (split; [reflexivity|]). now apply mem_frame_with_content.
Qed.

Lemma alloc_with_content_becomes s x l :
  WF s -> Forall is_byte x -> zlen x <= maxAlloc -> zlen l = zlen (content s) ->
  becomes s l (with_content (alloc s x) l).
Proof.
  intros W Hx Hm Hl. pose proof (alloc_WF s x W Hx Hm) as W'.
  pose proof (content_alloc s x W) as C.
  destruct (with_content_becomes (alloc s x) l W') as (A1 & A2 & A3 & A4 & A5). congruence.
  split; [exact A1|]. split; [exact A2|]. split; [exact A3|]. split; [exact A4|].
  eapply mem_frame_trans; [apply mem_frame_alloc|]. exact A5.
Qed.

Lemma becomes_refl s : becomes s (content s) s.
Proof. do 4 (split; [reflexivity|]). apply mem_frame_refl. Qed.

Lemma alloc_becomes s x : WF s -> becomes s (content s) (alloc s x).
Proof.
  intros W. split. now apply content_alloc. do 3 (split; [reflexivity|]). apply mem_frame_alloc.
Qed.

(** [becomes] composes. *)
Lemma becomes_trans s1 l1 s2 l2 s3 : becomes s1 l1 s2 -> becomes s2 l2 s3 -> becomes s1 l2 s3.
Proof.
  intros (A1 & A2 & A3 & A4 & A5) (B1 & B2 & B3 & B4 & B5).
  rewrite A2 in *. split; [exact B1|]. split; [congruence|]. split; [congruence|]. split; [congruence|].
  eapply mem_frame_trans; eassumption.
Qed.

(** ** Spare bytes *)

Lemma spare_with_content s l :
  WF s -> zlen l = zlen (content s) -> spare (with_content s l) = spare s.
Proof.
  intros W Hl. pose proof (wf_blk s W) as B. pose proof (wf_off0 s W). pose proof (wf_len0 s W).
  pose proof (wf_lencap s W). pose proof (wf_in s W). pose proof (content_zlen s W).
  unfold spare, with_content, set_heap; cbn [heap bb].
  rewrite nth_put_heap by exact B. rewrite Nat.eqb_refl.
  apply sub_put_disjoint; lia.
Qed.

Lemma spare_alloc s l : WF s -> spare (alloc s l) = spare s.
Proof.
  intros W. pose proof (wf_blk s W). unfold spare, alloc, set_heap; cbn [heap bb].
  rewrite app_nth1 by lia. reflexivity.
Qed.

Lemma spare_bytes s : WF s -> Forall is_byte (spare s).
Proof. intro W. apply Forall_sub. now apply wf_arr_bytes. Qed.

Lemma spare_trunc_left s n :
  WF s -> 0 <= n <= zlen (content s) ->
  spare (with_slice s (trunc_left (b_buf (bb s)) n)) = spare s.
Proof.
  intros W H. unfold spare, with_slice, trunc_left, set_bb; cbn [heap bb b_buf s_blk s_off s_len s_cap].
  f_equal; lia.
Qed.

Lemma array_split s : WF s ->
  sub (nth (s_blk (b_buf (bb s))) (heap s) []) (s_off (b_buf (bb s))) (s_cap (b_buf (bb s))) =
  content s ++ spare s.
Proof.
  intros W. pose proof (wf_off0 s W). pose proof (wf_len0 s W). pose proof (wf_lencap s W).
  unfold content, spare, slice_bytes.
  rewrite <- sub_app_split by lia. f_equal. lia.
Qed.

Lemma sub_mid {A} (l1 l2 : list A) n m :
  0 <= n <= zlen l1 -> zlen l1 <= n + m -> 
  sub (l1 ++ l2) n m = sub l1 n (zlen l1 - n) ++ sub l2 0 (m - (zlen l1 - n)).
Proof.
  intros H H'. replace m with ((zlen l1 - n) + (m - (zlen l1 - n))) at 1 by lia.
  rewrite sub_app_split by lia. f_equal; unfold zlen in *; list_ext_with ltac:(unfold zlen; lia).
Qed.

Lemma spare_resize s n :
  WF s -> 0 <= n <= s_cap (b_buf (bb s)) ->
  spare (with_slice s (resize (b_buf (bb s)) n)) =
  sub (content s ++ spare s) n (s_cap (b_buf (bb s)) - n).
Proof.
  intros W H. pose proof (wf_off0 s W). rewrite <- array_split by assumption.
  rewrite sub_sub by lia. reflexivity.
Qed.

Lemma content_resize s n :
  WF s -> 0 <= n <= s_cap (b_buf (bb s)) ->
  content (with_slice s (resize (b_buf (bb s)) n)) = sub (content s ++ spare s) 0 n.
Proof.
  intros W H. pose proof (wf_off0 s W). rewrite <- array_split by assumption.
  rewrite sub_sub by lia. rewrite Z.add_0_r. reflexivity.
Qed.

Lemma spare_grown s n c :
  WF s -> 0 <= n -> zlen (content s) + n <= c -> spare (grown s n c) = zeros (c - zlen (content s) - n).
Proof.
  intros W Hn Hc. pose proof (zlen_nonneg (content s)).
  unfold spare, grown, with_slice, set_bb, alloc, set_heap; cbn [heap bb b_buf s_blk s_off s_len s_cap].
  rewrite app_nth2 by lia. rewrite Nat.sub_diag. cbn [nth].
  unfold zeros, zlen in *.
  apply nth_error_ext. intro j. rewrite nth_error_sub, nth_error_app_if.
  assert (R : forall m k, nth_error (repeat 0 m) k = if (k <? m)%nat then Some 0 else None).
  { intros m k. destruct (Nat.ltb_spec k m).
    - rewrite nth_error_repeat by assumption. reflexivity.
    - apply nth_error_oob. rewrite repeat_length. assumption. }
  rewrite !R. nat_cases; try lia; reflexivity.
Qed.
