(** * Sim: every v3 [Buffer] method is simulated by the abstract buffer. *)
From Coq Require Import ZArith List Bool Lia ZifyBool.
From Verif Require Import GoSem Errors Spec GoLemmas BitLemmas CodecLemmas Typed V3BitLemmas V3ByteLemmas
  TypedCanon TypedLemmas TypedReadLemmas Calls Abs Frame.
From Verif Require V3Buffer.
Import ListNotations.
Open Scope Z_scope.

(** What a method leaves alone: [s'] is well formed, the mutex and the caller's
    variables are untouched, memory changed at most inside the bytes of the
    buffer, and the buffer is still inside its backing region, or in a new one. *)
Record good (s s' : St) : Prop := mkGood {
  g_wf : WF s';
  g_mu : mu s' = mu s;
  g_outs : outs s' = outs s;
  g_mem : mem_frame (s_blk (b_buf (bb s))) (s_off (b_buf (bb s)))
            (s_off (b_buf (bb s)) + s_len (b_buf (bb s))) (heap s) (heap s');
  g_reg : (s_blk (b_buf (bb s')) = s_blk (b_buf (bb s)) /\
           s_off (b_buf (bb s)) <= s_off (b_buf (bb s')) /\
           s_off (b_buf (bb s')) + s_cap (b_buf (bb s')) <= s_off (b_buf (bb s)) + s_cap (b_buf (bb s))) \/
          (length (heap s) <= s_blk (b_buf (bb s')))%nat }.

Lemma good_refl s : WF s -> good s s.
Proof. intro W. constructor; auto. apply mem_frame_refl. left; lia. Qed.

Lemma good_becomes s l s' : WF s' -> becomes s l s' -> good s s'.
Proof. intros W (H1 & H2 & H3 & H4 & H5). constructor; auto. rewrite H2. left; lia. Qed.

Lemma good_with_content s l :
  WF s -> zlen l = zlen (content s) -> Forall is_byte l -> good s (with_content s l).
Proof.
  intros W Hl Hb. eapply good_becomes. now apply with_content_WF. now apply with_content_becomes.
Qed.

Lemma good_alloc s x : WF s -> Forall is_byte x -> zlen x <= maxAlloc -> good s (alloc s x).
Proof.
  intros W Hx Hm. eapply good_becomes. now apply alloc_WF. now apply alloc_becomes.
Qed.

Lemma good_alloc_with_content s x l :
  WF s -> Forall is_byte x -> zlen x <= maxAlloc -> zlen l = zlen (content s) -> Forall is_byte l ->
  good s (with_content (alloc s x) l).
Proof.
  intros W Hx Hm Hl Hb. eapply good_becomes.
  - apply with_content_WF; auto. now apply alloc_WF. rewrite content_alloc; auto.
  - apply alloc_with_content_becomes; auto.
Qed.

Lemma good_off s s' x : good s s' -> is_i64 x -> good s (with_off s' x).
Proof.
  intros [W M O F R] Hx. constructor; auto. now apply with_off_WF.
Qed.
Lemma good_boff s s' x : good s s' -> is_i64 x -> good s (with_boff s' x).
Proof.
  intros [W M O F R] Hx. constructor; auto. now apply with_boff_WF.
Qed.

(** ** Abstraction of the state changes *)

Lemma abs_with_content s l :
  WF s -> zlen l = zlen (content s) -> abs (with_content s l) = set_bytes (abs s) l.
Proof.
  intros W Hl. unfold abs, set_bytes; cbn [a_bytes a_spare a_off a_boff].
  rewrite content_with_content, spare_with_content by assumption. reflexivity.
Qed.
Lemma abs_alloc s x : WF s -> abs (alloc s x) = abs s.
Proof. intros W. unfold abs. rewrite content_alloc, spare_alloc by assumption. reflexivity. Qed.
Lemma abs_alloc_with_content s x l :
  WF s -> Forall is_byte x -> zlen x <= maxAlloc -> zlen l = zlen (content s) ->
  abs (with_content (alloc s x) l) = set_bytes (abs s) l.
Proof.
  intros W Hx Hm Hl. rewrite abs_with_content; [now rewrite abs_alloc| now apply alloc_WF |].
  now rewrite content_alloc.
Qed.
Lemma abs_with_off s x : abs (with_off s x) = set_off (abs s) x.
Proof. reflexivity. Qed.
Lemma abs_with_boff s x : abs (with_boff s x) = set_boff (abs s) x.
Proof. reflexivity. Qed.

(** The simulation relation for one run: same result, and [good]. *)
Definition sim (s : St) (r : res (rv slice)) (o : outcome) : Prop :=
  match r with
  | Done v s' => o = Ok (view_rv s' v) (abs s') /\ good s s'
  | Panicked e s' => o = Fail e (abs s') /\ good s s'
  | Deadlock _ | Stuck => False
  end.

Lemma sim_bit_range s off over under r r' :
  WF s -> sim s r r' ->
  sim s (if 8 * zlen (content s) <=? off then Panicked over s
         else if off <? 0 then Panicked under s else r)
        (if 8 * zlen (content s) <=? off then Fail over (abs s)
         else if off <? 0 then Fail under (abs s) else r').
Proof.
  intros W H. destruct (_ <=? _); [now split; [|apply good_refl]|].
  destruct (_ <? _); [now split; [|apply good_refl]|]. exact H.
Qed.

Lemma put_fits s off d :
  WF s -> 0 <= off -> off + zlen d <= zlen (content s) -> Forall is_byte d ->
  zlen (put (content s) off d) = zlen (content s) /\ Forall is_byte (put (content s) off d).
Proof.
  intros W H1 H2 H3. split. now apply put_length. apply Forall_put; auto. now apply content_bytes.
Qed.

Lemma run_ret_unit p s :
  run (ret_unit p) s = match run p s with Done _ s' => Done RUnit s' | Panicked e s' => Panicked e s'
                       | Deadlock s' => Deadlock s' | Stuck => Stuck end.
Proof. unfold ret_unit. now rewrite run_bind. Qed.
Lemma run_ret_int p s :
  run (ret_int p) s = match run p s with Done x s' => Done (RInt x) s' | Panicked e s' => Panicked e s'
                       | Deadlock s' => Deadlock s' | Stuck => Stuck end.
Proof. unfold ret_int. now rewrite run_bind. Qed.
Lemma run_ret_bytes p s :
  run (ret_bytes p) s = match run p s with Done x s' => Done (RBytes x) s' | Panicked e s' => Panicked e s'
                       | Deadlock s' => Deadlock s' | Stuck => Stuck end.
Proof. unfold ret_bytes. now rewrite run_bind. Qed.
Lemma run_ret_nums p s :
  run (ret_nums p) s = match run p s with Done x s' => Done (RNums x) s' | Panicked e s' => Panicked e s'
                       | Deadlock s' => Deadlock s' | Stuck => Stuck end.
Proof. unfold ret_nums. now rewrite run_bind. Qed.

Ltac same_st := split; [reflexivity | now apply good_refl].
Ltac bcase := match goal with |- context [if ?c then _ else _] => destruct c eqn:? end.

Lemma wc_sim s l :
  WF s -> zlen l = zlen (content s) -> Forall is_byte l ->
  sim s (Done RUnit (with_content s l)) (Ok RUnit (set_bytes (abs s) l)).
Proof.
  intros. split; [|now apply good_with_content]. rewrite abs_with_content by assumption. reflexivity.
Qed.

Lemma put_bit_fits s off v :
  WF s -> 0 <= off < 8 * zlen (content s) ->
  zlen (put_bit (content s) off v) = zlen (content s) /\ Forall is_byte (put_bit (content s) off v).
Proof. intros W H. split. now apply put_bit_zlen. apply put_bit_bytes. now apply content_bytes. Qed.

Theorem do_at_sim s off o :
  WF s -> is_i64 off -> valid_opn s o ->
  sim s (run (do_at off o) s) (abs_at off (abs_opn s o) (abs s)).
Proof.
  intros W Hoff Ho. pose proof (content_max s W) as HM. pose proof max_alloc_val as MV.
  pose proof (zlen_nonneg (content s)) as HN.
  destruct o as [ | n | | | | data n | d | v | n | | t d | t n];
    cbn [do_at abs_opn abs_at valid_opn a_bytes abs] in *; fold (abs s);
    rewrite ?run_ret_unit, ?run_ret_int, ?run_ret_bytes, ?run_ret_nums.
  - (* ReadBit *) rewrite run_ReadBit by assumption.
    repeat bcase; same_st.
  - (* ReadBits *)
    destruct (Z.leb_spec (8 * zlen (content s)) off).
    { rewrite run_ReadBits_start by (auto; lia). replace (off <? 0) with false by lia. same_st. }
    destruct (Z.ltb_spec off 0).
    { rewrite run_ReadBits_start by (auto; lia). replace (off <? 0) with true by lia. same_st. }
    destruct (Z.leb_spec n 0).
    { rewrite run_ReadBits_nonpos by (auto; lia). same_st. }
    destruct (Z.ltb_spec (8 * zlen (content s)) (off + n)).
    { rewrite run_ReadBits_overrun by (auto; unfold is_i64 in *; lia). same_st. }
    rewrite run_ReadBits by (auto; lia). same_st.
  - (* SetBit *) rewrite run_SetBit by assumption.
    destruct (Z.leb_spec (8 * zlen (content s)) off); [same_st|].
    destruct (Z.ltb_spec off 0); [same_st|].
    apply wc_sim; auto; apply put_bit_fits; auto; lia.
  - (* ClearBit *) rewrite run_ClearBit by assumption.
    destruct (Z.leb_spec (8 * zlen (content s)) off); [same_st|].
    destruct (Z.ltb_spec off 0); [same_st|].
    apply wc_sim; auto; apply put_bit_fits; auto; lia.
  - (* FlipBit *) rewrite run_FlipBit by assumption.
    destruct (Z.leb_spec (8 * zlen (content s)) off); [same_st|].
    destruct (Z.ltb_spec off 0); [same_st|].
    apply wc_sim; auto; apply put_bit_fits; auto; lia.
  - (* SetBits *) destruct Ho as [Hd Hn].
    destruct (Z.leb_spec (8 * zlen (content s)) off).
    { rewrite run_SetBits_start by (auto; lia). replace (off <? 0) with false by lia. same_st. }
    destruct (Z.ltb_spec off 0).
    { rewrite run_SetBits_start by (auto; lia). replace (off <? 0) with true by lia. same_st. }
    destruct (Z.leb_spec n 0).
    { rewrite run_SetBits_nonpos by (auto; lia). apply wc_sim; auto; apply put_bit_fits; auto; lia. }
    destruct (Z.ltb_spec (8 * zlen (content s)) (off + n)).
    { rewrite run_SetBits_overrun by (auto; unfold is_i64 in *; lia).
      destruct (put_bits_WF s off (field_bit data n) (Z.to_nat (8 * zlen (content s) - off))) as (W1 & C1 & Z1);
        auto; try lia.
      split. { rewrite abs_with_content by assumption. reflexivity. }
      apply good_with_content; auto. apply put_bits_bytes. now apply content_bytes. }
    rewrite run_SetBits by (auto; lia).
    destruct (put_bits_WF s off (field_bit data n) (Z.to_nat n)) as (W1 & C1 & Z1); auto; try lia.
    apply wc_sim; auto. apply put_bits_bytes. now apply content_bytes.
  - (* WriteBytes *) rewrite run_WriteBytes by assumption.
    pose proof (wf_slice_bytes_zlen _ _ Ho) as L. rewrite L.
    destruct (Z.ltb_spec (zlen (content s)) (off + s_len d)).
    { bcase; same_st. }
    destruct (Z.ltb_spec off 0); [same_st|].
    destruct (put_fits s off (slice_bytes (heap s) d)); auto; try lia.
    { apply wf_slice_bytes; auto. apply (wf_h s W). }
    now apply wc_sim.
  - (* WriteByte *) rewrite run_WriteByte by assumption.
    assert (V1 : Forall is_byte [v]) by (constructor; auto).
    assert (V2 : zlen [v] <= maxAlloc) by (rewrite MV; vm_compute; discriminate).
    assert (G : good s (alloc s [v])) by (apply good_alloc; auto).
    destruct (Z.ltb_spec (zlen (content s)) (off + 1)).
    { bcase; (split; [now rewrite abs_alloc|exact G]). }
    destruct (Z.ltb_spec off 0). { split; [now rewrite abs_alloc|exact G]. }
    destruct (put_fits s off [v]); auto; try (change (zlen [v]) with 1; lia).
    split. now rewrite abs_alloc_with_content by auto.
    apply good_alloc_with_content; auto.
  - (* ReadBytes *) rewrite run_ReadBytes_raw by assumption.
    destruct (off +! n >? zlen (content s)) eqn:E1; [same_st|].
    destruct (Z.ltb_spec off 0); [same_st|].
    unfold is_i64 in *.
    destruct (Z.leb_spec 0 n).
    + cbn [andb]. destruct (Z.leb_spec (off + n) (zlen (content s))).
      * rewrite add64_id in * by (unfold is_i64; lia).
        replace (off <=? off + n) with true by lia.
        split; [|now apply good_refl]. cbn [view_rv].
        replace (off + n - off) with n by lia.
        destruct (window_bytes s off n) as [_ ->]; auto.
        rewrite <- content_zlen by assumption. lia.
      * replace (off <=? off +! n) with false. same_st.
        unfold add64, wrap64 in *. lia.
    + cbn [andb]. replace (off <=? off +! n) with false. same_st.
      unfold add64. rewrite wrap64_id by (unfold is_i64; lia). lia.
  - (* ReadByte *) rewrite run_ReadByte by assumption. repeat bcase; same_st.
  - (* Write *) rewrite run_WriteT by assumption.
    destruct (Z.ltb_spec (zlen (content s)) (off + zlen d * tsize t)).
    { bcase; same_st. }
    destruct (Z.ltb_spec off 0); [same_st|].
    destruct (zlen d =? 0); [same_st|].
    destruct (put_fits s off (encode_all t d)); auto; try lia.
    { rewrite encode_all_zlen. lia. } { apply encode_all_bytes. }
    now apply wc_sim.
  - (* Read *) rewrite run_ReadT by assumption. repeat bcase; same_st.
Qed.

(** ** Next variants *)

Lemma add64_wrap x y : x +! (wrap64 y) = x +! y.
Proof.
  destruct (wrap64_cases y) as [k ->]. unfold add64, wrap64. f_equal.
  replace (x + (y + k * 2 ^ 64) + 2 ^ 63) with (x + y + 2 ^ 63 + k * 2 ^ 64) by ring.
  apply Z_mod_plus_full.
Qed.

(** The offset a [...Next] operation uses, and the state with that offset moved. *)
Definition cursor (s : St) (bit : bool) : Z := if bit then b_boff (bb s) else b_off (bb s).
Definition with_cursor (s : St) (bit : bool) (x : Z) : St := if bit then with_boff s x else with_off s x.

Ltac drun s := match goal with |- context [run ?p s] => destruct (run p s) as [?a ?s'|?e ?s'|?s'|] end.

(** Each [XNext] is [X] at the current offset, then an advance of that offset. *)
Theorem run_do_next o s :
  run (do_next o) s =
  match run (do_at (cursor s (bit_addressed o)) o) s with
  | Done v s' => Done v (with_cursor s' (bit_addressed o)
                   (cursor s' (bit_addressed o) +! advance_of s_len o))
  | Panicked e s' => Panicked e s'
  | Deadlock s' => Deadlock s'
  | Stuck => Stuck
  end.
Proof.
  destruct o as [ | n | | | | data n | d | v | n | | t d | t n];
    cbn [do_next do_at bit_addressed advance_of cursor with_cursor];
    rewrite ?WriteTNext_canon, ?ReadTNext_canon;
    unfold V3Buffer.ReadBitNext, V3Buffer.ReadBitsNext, V3Buffer.SetBitNext, V3Buffer.ClearBitNext,
      V3Buffer.FlipBitNext, V3Buffer.SetBitsNext, V3Buffer.WriteBytesNext, V3Buffer.WriteByteNext,
      V3Buffer.ReadBytesNext, V3Buffer.ReadByteNext, ret_int, ret_unit, ret_bytes, ret_nums;
    rewrite ?run_bind; cbn [run get].
  all: change (get_fld (bb s) FBoff) with (b_boff (bb s));
       change (get_fld (bb s) FOff) with (b_off (bb s)).
  all: try (rewrite ?run_bind;
    drun s; try reflexivity;
    rewrite ?run_bind, ?run_SeekBit, ?run_SeekByte; reflexivity).
  - (* WriteByte *)
    unfold V3Buffer.WriteByte. rewrite !run_lit_bytes, !run_bind.
    match goal with |- context [run ?p (alloc s [v])] => destruct (run p (alloc s [v])) as [a s'|e s'|s'|] end;
      try reflexivity.
  - (* ReadByte *)
    unfold V3Buffer.ReadByte. rewrite !run_bind.
    drun s; try reflexivity.
    rewrite !run_bind.
    match goal with |- context [run ?p s'] => destruct (run p s') as [a' s''|e s''|s''|] end; try reflexivity.
  - rewrite !run_bind.
    drun s; try reflexivity.
    rewrite ?run_bind, ?run_SeekBit, ?run_SeekByte. unfold mul64. rewrite add64_wrap. reflexivity.
  - rewrite !run_bind.
    drun s; try reflexivity.
    rewrite ?run_bind, ?run_SeekBit, ?run_SeekByte. unfold mul64. rewrite add64_wrap. reflexivity.
Qed.

Lemma cursor_i64 s b : WF s -> is_i64 (cursor s b).
Proof. intro W. destruct b. apply (wf_boff s W). apply (wf_off s W). Qed.

Lemma advance_abs s o : valid_opn s o -> advance_of zlen (abs_opn s o) = advance_of s_len o.
Proof. destruct o; cbn; auto. intro H. now apply wf_slice_bytes_zlen. Qed.
Lemma bit_addressed_abs s o : bit_addressed (abs_opn s o) = bit_addressed o.
Proof. destruct o; reflexivity. Qed.

Lemma view_rv_heap s s' v : heap s = heap s' -> view_rv s v = view_rv s' v.
Proof. intro H. destruct v; cbn; auto. now rewrite H. Qed.

Theorem do_next_sim s o :
  WF s -> valid_opn s o ->
  sim s (run (do_next o) s) (abs_next (abs_opn s o) (abs s)).
Proof.
  intros W Ho. rewrite run_do_next.
  pose proof (do_at_sim s (cursor s (bit_addressed o)) o W (cursor_i64 s _ W) Ho) as H.
  unfold abs_next. rewrite bit_addressed_abs, advance_abs by assumption.
  destruct (bit_addressed o); cbn [cursor with_cursor abs a_off a_boff] in *; fold (abs s) in *.
  - change (a_boff (abs s)) with (b_boff (bb s)).
    destruct (run (do_at (b_boff (bb s)) o) s) as [v s'|e s'|s'|]; cbn [sim] in *; auto.
    + destruct H as [-> G]. split.
      * reflexivity.
      * apply good_boff; auto. apply add64_range.
    + destruct H as [-> G]. now split.
  - change (a_off (abs s)) with (b_off (bb s)).
    destruct (run (do_at (b_off (bb s)) o) s) as [v s'|e s'|s'|]; cbn [sim] in *; auto.
    + destruct H as [-> G]. split.
      * reflexivity.
      * apply good_off; auto. apply add64_range.
    + destruct H as [-> G]. now split.
Qed.

(** ** All methods *)

Lemma zlen_0_nil {A} (l : list A) : zlen l = 0 -> l = [].
Proof. destruct l; auto. rewrite zlen_cons. pose proof (zlen_nonneg l). lia. Qed.

Lemma not8_sub x : is_byte x -> not8 x = 255 - x.
Proof.
  intros H. unfold is_byte in H.
  assert (E : forallb (fun n => not8 (Z.of_nat n) =? 255 - Z.of_nat n) (seq 0 256) = true) by (vm_compute; reflexivity).
  rewrite forallb_forall in E. specialize (E (Z.to_nat x)). rewrite Z2Nat.id in E by lia.
  apply Z.eqb_eq, E. apply in_seq. lia.
Qed.

Lemma map_not8 l : Forall is_byte l -> map not8 l = map (fun b => 255 - b) l.
Proof. intro H. apply map_ext_in. intros x Hx. apply not8_sub. rewrite Forall_forall in H. auto. Qed.

Lemma with_slice_good s sl :
  WF s -> wf_slice (heap s) sl ->
  s_blk sl = s_blk (b_buf (bb s)) -> s_off (b_buf (bb s)) <= s_off sl ->
  s_off sl + s_cap sl <= s_off (b_buf (bb s)) + s_cap (b_buf (bb s)) ->
  good s (with_slice s sl).
Proof.
  intros W Hsl H1 H2 H3. constructor; auto. now apply with_slice_WF. apply mem_frame_refl.
Qed.

Lemma grown_good s n c :
  WF s -> 0 <= n -> zlen (content s) + n <= c -> c <= maxAlloc -> good s (grown s n c).
Proof.
  intros W H1 H2 H3. constructor; auto. now apply grown_WF.
  apply mem_frame_alloc.
Qed.

Lemma all_sim s (f : Z -> Z) :
  WF s -> 1 <= zlen (content s) -> (forall x, is_byte x -> is_byte (f x)) ->
  sim s (Done RUnit (with_content s (map f (content s)))) (Ok RUnit (set_bytes (abs s) (map f (content s)))).
Proof.
  intros W H Hf. apply wc_sim; auto. now rewrite zlen_map.
  apply Forall_forall. intros x Hx. apply in_map_iff in Hx. destruct Hx as (y & <- & Hy).
  apply Hf. pose proof (content_bytes s W) as B. rewrite Forall_forall in B. auto.
Qed.

Theorem do_call_sim s c :
  WF s -> valid_call s c ->
  sim s (run (do_call c) s) (abs_call (view_call s c) (abs s)).
Proof.
  intros W Hc. pose proof (content_max s W) as HM. pose proof max_alloc_val as MV.
  pose proof (zlen_nonneg (content s)) as HN.
  destruct c as [off o | o | | | | off r | off r | off | off | | | n | n | n | | | | | | | ];
    cbn [do_call view_call abs_call valid_call] in *;
    change (a_bytes (abs s)) with (content s); change (a_spare (abs s)) with (spare s);
    change (a_off (abs s)) with (b_off (bb s)); change (a_boff (abs s)) with (b_boff (bb s));
    rewrite ?run_ret_unit, ?run_ret_int, ?run_ret_bytes, ?run_ret_nums.
  - destruct Hc. now apply do_at_sim.
  - now apply do_next_sim.
  - destruct (Z.eqb_spec (zlen (content s)) 0).
    + destruct (run_AllBits_empty s W (zlen_0_nil _ e)) as (-> & _ & _). same_st.
    + rewrite run_ClearAllBits by (auto; lia). apply all_sim; auto; try lia.
      unfold is_byte; intros; lia.
  - destruct (Z.eqb_spec (zlen (content s)) 0).
    + destruct (run_AllBits_empty s W (zlen_0_nil _ e)) as (_ & -> & _). same_st.
    + rewrite run_SetAllBits by (auto; lia). apply all_sim; auto; try lia.
      unfold is_byte; intros; lia.
  - destruct (Z.eqb_spec (zlen (content s)) 0).
    + destruct (run_AllBits_empty s W (zlen_0_nil _ e)) as (_ & _ & ->). same_st.
    + rewrite run_FlipAllBits by (auto; lia). rewrite map_not8 by (now apply content_bytes).
      apply all_sim; auto; try lia. unfold is_byte; intros; lia.
  - rewrite run_SeekBit. split; [reflexivity|]. apply good_boff. now apply good_refl.
    destruct r; auto. apply add64_range.
  - rewrite run_SeekByte. split; [reflexivity|]. apply good_off. now apply good_refl.
    destruct r; auto. apply add64_range.
  - unfold V3Buffer.AfterBit. destruct off; rewrite !run_bind; cbn [run get get_fld];
      rewrite bcap_is by assumption; same_st.
  - unfold V3Buffer.AfterByte. destruct off; rewrite !run_bind; cbn [run get get_fld];
      rewrite cap_is by assumption; same_st.
  - rewrite run_AlignBit. split; [reflexivity|]. apply good_boff. now apply good_refl. apply mul64_range.
  - rewrite run_AlignByte. split; [reflexivity|]. apply good_off. now apply good_refl.
    apply quo_i64. apply (wf_boff s W).
  - (* TruncateLeft *) rewrite run_TruncateLeft by assumption.
    destruct (Z.ltb_spec n 0); [same_st|].
    destruct (Z.leb_spec n (zlen (content s))).
    + replace (zlen (content s) <? n) with false by lia. split.
      * unfold abs, set_bytes; cbn [a_bytes a_spare a_off a_boff].
        rewrite content_trunc_left, spare_trunc_left by (auto; lia). reflexivity.
      * apply with_slice_good; auto. apply trunc_left_wf; auto; lia. all: cbn; lia.
    + replace (zlen (content s) <? n) with true by lia. same_st.
  - (* TruncateRight *) rewrite run_TruncateRight by assumption.
    pose proof (spare_zlen s W) as SP. pose proof (zlen_nonneg (spare s)).
    destruct (Z.ltb_spec n 0); [same_st|].
    destruct (Z.leb_spec n (zlen (content s))).
    + replace (zlen (content s) <? n) with false by lia. split.
      * unfold abs; cbn [a_bytes a_spare a_off a_boff].
        rewrite content_resize_shrink by (auto; lia). rewrite spare_resize by (auto; lia).
        rewrite sub_mid by lia. replace (zlen (content s) - (zlen (content s) - n)) with n by lia.
        rewrite (sub_all (spare s)) by lia. reflexivity.
      * apply with_slice_good; auto. apply resize_wf; auto; lia. all: cbn; lia.
    + replace (zlen (content s) <? n) with true by lia. same_st.
  - (* Grow *) rewrite run_Grow by assumption.
    pose proof (spare_zlen s W) as SP. pose proof (zlen_nonneg (spare s)).
    destruct (Z.ltb_spec n 0); [same_st|]. rewrite <- SP.
    destruct (Z.leb_spec n (zlen (spare s))).
    + split.
      * unfold abs; cbn [a_bytes a_spare a_off a_boff].
        rewrite content_resize_grow by (auto; lia). rewrite spare_resize by (auto; lia).
        f_equal. f_equal.
        replace (content s ++ spare s) with ((content s ++ sub (spare s) 0 n) ++ sub (spare s) n (zlen (spare s) - n)).
        2:{ rewrite <- app_assoc. f_equal. rewrite <- (Z.add_0_l n) at 2. rewrite <- sub_app_split by lia.
            apply sub_all. lia. }
        symmetry. apply sub_of_app.
        -- rewrite zlen_app, sub_length by lia. lia.
        -- rewrite sub_length by lia. lia.
      * apply with_slice_good; auto. apply resize_wf; auto; lia. all: cbn; lia.
    + assert (Ecap : s_cap (b_buf (bb s)) = zlen (content s) + zlen (spare s)) by lia. rewrite Ecap.
      destruct (Z.leb_spec (2 * (zlen (content s) + zlen (spare s) + n)) maxAlloc); [|same_st].
      split.
      * unfold abs; cbn [a_bytes a_spare a_off a_boff].
        rewrite content_grown, spare_grown by (auto; lia). f_equal. f_equal. f_equal. lia.
      * apply grown_good; auto; lia.
  - (* Refresh *)
    assert (E : run V3Buffer.Refresh s = Done tt s).
    { rewrite <- (set_bb_id s) at 1.
      replace (bb s) with (upd_buf (bb s) (b_buf (bb s))) at 1 by (destruct (bb s); reflexivity).
      rewrite run_Refresh by (apply W). f_equal. unfold with_slice.
      rewrite <- (wf_cap s W), (wf_cap s W) at 1. rewrite <- (wf_bcap s W).
      rewrite <- (wf_cap s W). destruct s as [h b m o]; destruct b; reflexivity. }
    rewrite E. same_st.
  - (* Reset *) rewrite run_Reset by assumption.
    pose proof (spare_zlen s W) as SP. pose proof (zlen_nonneg (spare s)).
    split.
    + rewrite abs_with_off, abs_with_boff. unfold abs, set_off, set_boff; cbn [a_bytes a_spare a_off a_boff].
      rewrite content_resize_shrink by (auto; lia). rewrite spare_resize by (auto; lia).
      f_equal. f_equal. symmetry. apply sub_all. rewrite zlen_app. lia.
    + apply good_off; [|unfold is_i64; lia]. apply good_boff; [|unfold is_i64; lia].
      apply with_slice_good; auto. apply resize_wf; auto; lia. all: cbn; lia.
  - same_st.
  - cbn. rewrite cap_is by assumption. same_st.
  - cbn. rewrite bcap_is by assumption. same_st.
  - same_st.
  - same_st.
Qed.
