(** * MiniSim: every v3 [MiniBuffer] method is simulated by the abstract
    MiniBuffer, on every argument; histories of calls. *)
From Coq Require Import ZArith List Bool Lia ZifyBool.
From Verif Require Import GoSem Errors Spec GoLemmas BitLemmas CodecLemmas Typed V3BitLemmas V3ByteLemmas
  TypedCanon TypedLemmas TypedReadLemmas Calls Abs Frame Sim History MiniAbs MiniLemmas.
From Verif Require V3Mini V3Buffer.
Import ListNotations.
Open Scope Z_scope.

(** As [sim], with the out variable followed separately. *)
Definition msim (s : St) (r : res (rv slice)) (o : outcome * list Z) : Prop :=
  match r with
  | Done v s' => o = (Ok (view_rv s' v) (abs s'), outs s') /\ good s (set_outs s' (outs s))
  | Panicked e s' => o = (Fail e (abs s'), outs s') /\ good s (set_outs s' (outs s))
  | Deadlock _ | Stuck => False
  end.

Lemma set_outs_self s : set_outs s (outs s) = s.
Proof. destruct s; reflexivity. Qed.
Lemma set_outs_twice s a b : set_outs (set_outs s a) b = set_outs s b.
Proof. reflexivity. Qed.

Lemma sim_msim s r o : sim s r o -> msim s r (o, outs s).
Proof.
  destruct r as [v s'|e s'|s'|]; cbn; auto; intros [-> G]; (split; [rewrite (g_outs _ _ G); reflexivity|]);
    rewrite <- (g_outs _ _ G), set_outs_self; exact G.
Qed.

Lemma msim_refl_ok s v w : WF s -> view_rv s v = w -> msim s (Done v s) (Ok w (abs s), outs s).
Proof. intros W <-. apply sim_msim. split; auto. now apply good_refl. Qed.
Lemma msim_refl_fail s e : WF s -> msim s (Panicked e s) (Fail e (abs s), outs s).
Proof. intros W. apply sim_msim. split; auto. now apply good_refl. Qed.
Lemma msim_wc s l :
  WF s -> zlen l = zlen (content s) -> Forall is_byte l ->
  msim s (Done RUnit (with_content s l)) (Ok RUnit (set_bytes (abs s) l), outs s).
Proof. intros. apply sim_msim. now apply wc_sim. Qed.
Lemma msim_wc_fail s l e :
  WF s -> zlen l = zlen (content s) -> Forall is_byte l ->
  msim s (Panicked e (with_content s l)) (Fail e (set_bytes (abs s) l), outs s).
Proof.
  intros. apply sim_msim. split; [|now apply good_with_content]. now rewrite abs_with_content.
Qed.

Ltac msame := first [apply msim_refl_ok; [assumption|reflexivity] | apply msim_refl_fail; assumption].

Lemma good_outs s o : WF s -> good s (set_outs (set_outs s o) (outs s)).
Proof. intro W. rewrite set_outs_twice, set_outs_self. now apply good_refl. Qed.

Theorem mini_at_sim s off o :
  WF s -> is_i64 off -> mini_opn o = true -> valid_opn s o -> valid_out o (outs s) ->
  msim s (run (mini_at off o) s) (mini_abs_at off (abs_opn s o) (abs s) (outs s)).
Proof.
  intros W Hoff Hm Ho Hv. pose proof (content_max s W) as HM. pose proof max_alloc_val as MV.
  pose proof (zlen_nonneg (content s)) as HN. pose proof (content_bytes s W) as HB.
  destruct o as [ | n | | | | data n | d | v | n | | t d | t n]; try discriminate;
    cbn [mini_at abs_opn mini_abs_at valid_opn valid_out] in *;
    change (a_bytes (abs s)) with (content s); change (a_spare (abs s)) with (spare s);
    rewrite ?run_ret_unit, ?run_ret_int, ?run_ret_bytes, ?run_ret_nums.
  - rewrite mini_ReadBit_all by assumption. destruct (mbit _ _); msame.
  - destruct (outs s) as [|x [|]] eqn:Hx; try contradiction. rename Hv into Ux. rewrite run_bind, (mini_ReadBits_all s off n x) by assumption.
    cbn [hd]. destruct (mread _ _ _ _) as [y []]; cbn [run out_int].
    + split; [reflexivity|]. now apply good_outs.
    + split; [reflexivity|]. now apply good_outs.
  - rewrite mini_SetBit_all by assumption. destruct (mupd _ _ _) eqn:U; [|msame].
    apply mupd_put_fits in U; [|assumption]. now apply msim_wc.
  - rewrite mini_ClearBit_all by assumption. destruct (mupd _ _ _) eqn:U; [|msame].
    apply mupd_put_fits in U; [|assumption]. now apply msim_wc.
  - rewrite mini_FlipBit_all by assumption. destruct (mupd _ _ _) eqn:U; [|msame].
    apply mupd_flip_fits in U; [|assumption]. now apply msim_wc.
  - destruct Ho as [Hd Hn]. rewrite mini_SetBits_all by assumption.
    destruct (mwrite_fits (field_bit data n) (Z.to_nat (Z.max 1 n)) (content s) off 0 HB) as [F1 F2].
    destruct (mwrite _ _ _ _ _) as [l' []]; cbn [fst] in *. now apply msim_wc. now apply msim_wc_fail.
  - rewrite mini_WriteBytes by assumption. pose proof (wf_slice_bytes_zlen _ _ Ho) as L. rewrite L.
    destruct (Z.leb_spec 0 off); [destruct (Z.leb_spec off (zlen (content s)))|]; cbn [andb]; try msame.
    assert (0 <= s_len d) by apply Ho.
    assert (F : Forall is_byte (slice_bytes (heap s) d)).
    { apply wf_slice_bytes; auto. apply (wf_h s W). }
    destruct (put_fits s off (sub (slice_bytes (heap s) d) 0 (Z.min (zlen (content s) - off) (s_len d)))); auto.
    { rewrite sub_length; lia. } { now apply Forall_sub. }
    now apply msim_wc.
  - rewrite mini_ReadBytes by assumption.
    pose proof (spare_zlen s W) as SP. pose proof (wf_off0 s W).
    replace (zlen (content s) + zlen (spare s)) with (s_cap (b_buf (bb s))) by lia.
    destruct ((0 <=? off) && (off <=? off +! n) && (off +! n <=? s_cap (b_buf (bb s)))) eqn:E; [|msame].
    apply msim_refl_ok; auto. cbn [view_rv].
    rewrite <- array_split by assumption. rewrite sub_sub by lia. reflexivity.
  - rewrite mini_WriteT by assumption.
    destruct ((zlen d =? 0) || (off <? 0) || (zlen (content s) <? off)) eqn:E; [msame|].
    pose proof (encode_all_zlen t d) as EZ. pose proof (encode_all_bytes t d) as EB.
    destruct (Z.leb_spec (off + zlen d * tsize t) (zlen (content s))).
    + destruct (put_fits s off (encode_all t d)); auto; try lia. now apply msim_wc.
    + destruct (put_fits s off (sub (encode_all t d) 0 (zlen (content s) - off))); auto; try lia.
      { rewrite sub_length; lia. } { now apply Forall_sub. }
      now apply msim_wc_fail.
  - rewrite run_bind, mini_ReadT_all by assumption. cbv zeta.
    destruct (_ <=? _); cbn [run out_nums].
    + split; [reflexivity|]. now apply good_outs.
    + split; [reflexivity|]. now apply good_outs.
Qed.

Theorem run_mini_next o s :
  mini_opn o = true ->
  run (mini_next o) s =
  match run (mini_at (cursor s (bit_addressed o)) o) s with
  | Done v s' => Done v (with_cursor s' (bit_addressed o)
                   (cursor s' (bit_addressed o) +! advance_of s_len o))
  | Panicked e s' => Panicked e s'
  | Deadlock s' => Deadlock s'
  | Stuck => Stuck
  end.
Proof.
  intro Hm.
  destruct o as [ | n | | | | data n | d | v | n | | t d | t n]; try discriminate;
    cbn [mini_next mini_at bit_addressed advance_of cursor with_cursor];
    rewrite ?MiniWriteTNext_canon, ?MiniReadTNext_canon;
    unfold V3Mini.ReadBitNext, V3Mini.ReadBitsNext, V3Mini.SetBitNext, V3Mini.ClearBitNext,
      V3Mini.FlipBitNext, V3Mini.SetBitsNext, V3Mini.WriteBytesNext,
      V3Mini.ReadBytesNext, ret_int, ret_unit, ret_bytes, ret_nums;
    rewrite ?run_bind; cbn [run get];
    change (get_fld (bb s) FBoff) with (b_boff (bb s));
    change (get_fld (bb s) FOff) with (b_off (bb s));
    change V3Mini.SeekByte with V3Buffer.SeekByte; change V3Mini.SeekBit with V3Buffer.SeekBit;
    rewrite ?run_bind; drun s; try reflexivity;
    rewrite ?run_bind, ?run_SeekBit, ?run_SeekByte; unfold mul64; rewrite ?add64_wrap; reflexivity.
Qed.

Theorem mini_next_sim s o :
  WF s -> mini_opn o = true -> valid_opn s o -> valid_out o (outs s) ->
  msim s (run (mini_next o) s) (mini_abs_next (abs_opn s o) (abs s) (outs s)).
Proof.
  intros W Hm Ho Hv. rewrite run_mini_next by assumption.
  pose proof (mini_at_sim s (cursor s (bit_addressed o)) o W (cursor_i64 s _ W) Hm Ho Hv) as H.
  unfold mini_abs_next. rewrite bit_addressed_abs, advance_abs by assumption.
  destruct (bit_addressed o); cbn [cursor with_cursor] in *.
  - change (a_boff (abs s)) with (b_boff (bb s)).
    destruct (run (mini_at (b_boff (bb s)) o) s) as [v s'|e s'|s'|]; cbn [msim] in *; auto.
    + destruct H as [-> G]. split; [reflexivity|].
      apply (good_boff s (set_outs s' (outs s))); auto. apply add64_range.
    + destruct H as [-> G]. now split.
  - change (a_off (abs s)) with (b_off (bb s)).
    destruct (run (mini_at (b_off (bb s)) o) s) as [v s'|e s'|s'|]; cbn [msim] in *; auto.
    + destruct H as [-> G]. split; [reflexivity|].
      apply (good_off s (set_outs s' (outs s))); auto. apply add64_range.
    + destruct H as [-> G]. now split.
Qed.

(** Setting the length within the array. *)
Lemma resize_abs s n :
  WF s -> 0 <= n <= s_cap (b_buf (bb s)) ->
  abs (with_slice s (resize (b_buf (bb s)) n)) = set_size (abs s) n.
Proof.
  intros W H. unfold set_size. change (a_bytes (abs s)) with (content s).
  change (a_spare (abs s)) with (spare s).
  assert (Z : zlen (content s ++ spare s) = s_cap (b_buf (bb s))).
  { rewrite zlen_app, spare_zlen by assumption. lia. }
  rewrite Z. unfold abs at 1. rewrite content_resize, spare_resize by assumption. reflexivity.
Qed.

Theorem mini_call_sim s c :
  WF s -> valid_mini s c (outs s) ->
  msim s (run (mini_call c) s) (mini_abs_call (view_call s c) (abs s) (outs s)).
Proof.
  intros W (Hm & Hc & Hv). pose proof (content_max s W) as HM. pose proof max_alloc_val as MV.
  pose proof (zlen_nonneg (content s)) as HN. pose proof (spare_zlen s W) as SP.
  assert (SAME : forall c', do_call c' = mini_call c' -> valid_call s c' ->
    msim s (run (mini_call c') s) (abs_call (view_call s c') (abs s), outs s)).
  { intros c' <- V. apply sim_msim. now apply do_call_sim. }
  destruct c as [off o | o | | | | off r | off r | off | off | | | n | n | n | | | | | | | ];
    cbn [mini_method valid_call] in *;
    try (apply SAME; [reflexivity|assumption]).
  - destruct Hc. now apply mini_at_sim.
  - now apply mini_next_sim.
  - cbn [mini_call view_call mini_abs_call]. change (a_bytes (abs s)) with (content s).
    rewrite run_ret_unit, mini_TruncateLeft by assumption.
    destruct ((0 <=? n) && (n <=? zlen (content s))) eqn:E; [|msame].
    apply sim_msim. split.
    + unfold abs, set_bytes; cbn [a_bytes a_spare a_off a_boff].
      rewrite content_trunc_left, spare_trunc_left by (auto; lia). reflexivity.
    + apply with_slice_good; auto. apply trunc_left_wf; auto; lia. all: cbn; lia.
  - cbn [mini_call view_call mini_abs_call]. change (a_bytes (abs s)) with (content s).
    change (a_spare (abs s)) with (spare s).
    rewrite run_ret_unit, mini_TruncateRight by assumption.
    replace (zlen (content s) + zlen (spare s)) with (s_cap (b_buf (bb s))) by lia.
    destruct ((0 <=? zlen (content s) - n) && (zlen (content s) - n <=? s_cap (b_buf (bb s)))) eqn:E; [|msame].
    apply sim_msim. split.
    + rewrite resize_abs by (auto; lia). reflexivity.
    + apply with_slice_good; auto. apply resize_wf; auto; lia. all: cbn; lia.
  - cbn [mini_call view_call mini_abs_call]. change (a_bytes (abs s)) with (content s).
    change (a_spare (abs s)) with (spare s).
    rewrite run_ret_unit, mini_Grow by assumption.
    assert (Ecap : s_cap (b_buf (bb s)) = zlen (content s) + zlen (spare s)) by lia. rewrite Ecap.
    replace (zlen (content s) + zlen (spare s) - zlen (content s)) with (zlen (spare s)) by lia.
    pose proof (zlen_nonneg (spare s)).
    destruct (Z.leb_spec n (zlen (spare s))).
    + destruct (Z.leb_spec 0 (zlen (content s) + n)); [|msame].
      apply sim_msim. split. rewrite resize_abs by (auto; lia). reflexivity.
      apply with_slice_good; auto. apply resize_wf; auto; lia. all: cbn; lia.
    + destruct (Z.leb_spec (2 * (zlen (content s) + zlen (spare s) + n)) maxAlloc); [|msame].
      apply sim_msim. split.
      * unfold abs; cbn [a_bytes a_spare a_off a_boff].
        rewrite content_grown, spare_grown by (auto; lia). f_equal. f_equal. f_equal. lia.
      * apply grown_good; auto; lia.
Qed.
