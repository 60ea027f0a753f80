(** * Sim2: the transcribed v1 and v2 methods against the abstract machine of Abs2. *)
From Coq Require Import ZArith List Bool Lia ZifyBool.
From Verif Require Import GoSem Errors Spec GoLemmas BitLemmas CodecLemmas Typed V3BitLemmas V3ByteLemmas
  TypedCanon TypedLemmas TypedReadLemmas Calls Abs Frame Sim LockLemmas OldCalls V2Lemmas V2Agree
  V2Safe V1Lemmas V1Calls ConcSpec Abs2.
From Verif Require V3Buffer V2Buffer V2BufferTyped V1Buffer.
Import ListNotations.
Open Scope Z_scope.

(** ** What the machine sees *)

Definition view_source (s : St) (d : slice) : source :=
  mkSource (slice_bytes (heap s) d)
    (if Nat.eqb (s_blk d) (s_blk (b_buf (bb s))) then Some (s_off d - s_off (b_buf (bb s))) else None).
Definition view_old_op (s : St) (o : op2 slice) : op2 source :=
  match o with
  | PWriteBytes d => PWriteBytes (view_source s d)
  | PReadBit => PReadBit | PReadBits n => PReadBits n | PSetBit d => PSetBit d
  | PSetBits d n => PSetBits d n | PFlipBit => PFlipBit | PWriteByte v => PWriteByte v
  | PReadBytes n => PReadBytes n | PReadByte => PReadByte | PWrite t d => PWrite t d | PRead t n => PRead t n
  end.
Definition view_old (s : St) (c : call2 slice) : call2 source :=
  match c with
  | At2 off o => At2 off (view_old_op s o) | Next2 o => Next2 (view_old_op s o)
  | KClearAllBits => KClearAllBits | KSetAllBits => KSetAllBits | KFlipAllBits => KFlipAllBits
  | KSeekBit o r => KSeekBit o r | KSeek o r => KSeek o r | KAfterBit o => KAfterBit o | KAfter o => KAfter o
  | KAlignBit => KAlignBit | KAlignByte => KAlignByte | KGrow n => KGrow n | KRefresh => KRefresh
  | KReset => KReset | KBytes => KBytes | KCapacity => KCapacity | KBitCapacity => KBitCapacity
  | KOffset => KOffset | KBitOffset => KBitOffset
  end.

(** What a call leaves alone: the caller's variables; memory outside the backing
    region of the buffer.  The region may shrink or be replaced by a new one. *)
Record kept (s s' : St) : Prop := mkKept {
  k_wf : WF s';
  k_outs : outs s' = outs s;
  k_mem : mem_frame (s_blk (b_buf (bb s))) (s_off (b_buf (bb s)))
            (s_off (b_buf (bb s)) + s_cap (b_buf (bb s))) (heap s) (heap s');
  k_reg : (s_blk (b_buf (bb s')) = s_blk (b_buf (bb s)) /\
           s_off (b_buf (bb s)) <= s_off (b_buf (bb s')) /\
           s_off (b_buf (bb s')) + s_cap (b_buf (bb s')) <= s_off (b_buf (bb s)) + s_cap (b_buf (bb s))) \/
          (length (heap s) <= s_blk (b_buf (bb s')))%nat }.

Lemma kept_good s s' : WF s -> good s s' -> kept s s'.
Proof.
  intros W [A B C D E]. constructor; auto. pose proof (wf_lencap s W).
  eapply mem_frame_widen; [| |exact D]; lia.
Qed.
Lemma kept_refl s : WF s -> kept s s.
Proof. intro W. apply kept_good; auto. now apply good_refl. Qed.
Lemma kept_set_mu s s' m : kept s s' -> kept s (set_mu s' m).
Proof. intros [A B C D]. constructor; auto. now apply set_mu_WF. Qed.
Lemma kept_cursor s s' b x : kept s s' -> is_i64 x -> kept s (with_cursor s' b x).
Proof. intros [A B C D] H. constructor; auto. now apply with_cursor_WF. all: destruct b; assumption. Qed.
Lemma kept_becomes s l s' : WF s -> WF s' -> becomes s l s' -> kept s s'.
Proof. intros W W' B. apply kept_good; auto. eapply good_becomes; eauto. Qed.

(** One run against one step of the machine. *)
Definition agrees (s : St) (r : res (rv slice)) (x : reply * abuf * bool) : Prop :=
  match r, x with
  | Done v s', (Replied w, a, m) => w = view_rv s' v /\ a = abs s' /\ m = mu s' /\ kept s s'
  | Panicked e s', (Threw e', a, m) => e' = e /\ a = abs s' /\ m = mu s' /\ kept s s'
  | Deadlock s', (Blocked, a, m) => a = abs s' /\ m = mu s' /\ kept s s'
  | _, _ => False
  end.

(** ** A live buffer *)

Definition seen_as (s : St) (r : res (rv slice)) (o : outcome) : Prop :=
  match r with
  | Done v s' => o = Ok (view_rv s' v) (abs s') /\ kept s s'
  | Panicked e s' => o = Fail e (abs s') /\ kept s s'
  | Deadlock _ | Stuck => False
  end.

Lemma seen_sim s r o : WF s -> sim s r o -> seen_as s r o.
Proof.
  intros W. destruct r as [v s'|e s'|s'|]; cbn; auto; intros [E G]; split; auto; now apply kept_good.
Qed.

Lemma becomes_self s : becomes s (content s) s.
Proof. repeat split; auto. Qed.
Lemma abs_set_mu s m : abs (set_mu s m) = abs s.
Proof. reflexivity. Qed.

Lemma seen_store s off d (p : prog unit) s1 :
  WF s -> WF s1 -> becomes s (content s) s1 -> abs s1 = abs s ->
  (forall l, zlen l = zlen (content s) -> becomes s l (with_content s1 l)) ->
  is_i64 off -> Forall is_byte d ->
  run p s =
    (if zlen (content s) <? off + zlen d
     then (if off + zlen d <? 2 ^ 63 then Panicked BufferOverwriteError s1
           else Panicked (RuntimeError IndexOutOfRange) (set_mu s1 true))
     else if off <? 0 then Panicked BufferUnderwriteError s1
     else if zlen d =? 0 then Panicked (RuntimeError IndexOutOfRange) (set_mu s1 true)
     else Done tt (with_content s1 (put (content s) off d))) ->
  seen_as s (run (ret_unit p) s) (seq_store off d (abs s)).
Proof.
  intros W W1 B1 A BC Ho Bd R. unfold ret_unit. rewrite run_bind, R. unfold seq_store. cbn [a_bytes abs].
  assert (C : content s1 = content s) by (now injection A).
  assert (K : kept s s1) by (eapply kept_becomes; eauto).
  destruct (Z.ltb_spec (zlen (content s)) (off + zlen d)).
  - destruct (_ <? _); cbn [seen_as].
    + rewrite A. auto.
    + rewrite abs_set_mu, A. split; auto. now apply kept_set_mu.
  - destruct (Z.ltb_spec off 0); cbn [seen_as].
    { rewrite A. auto. }
    destruct (Z.eqb_spec (zlen d) 0); cbn [seen_as].
    { rewrite abs_set_mu, A. split; auto. now apply kept_set_mu. }
    cbn [run view_rv].
    assert (Z0 : zlen (put (content s) off d) = zlen (content s)) by (apply put_length; lia).
    assert (Z1 : zlen (put (content s) off d) = zlen (content s1)) by (rewrite C; exact Z0).
    assert (B2 : Forall is_byte (put (content s) off d)) by (apply Forall_put; auto; now apply content_bytes).
    cbn [seen_as view_rv]. rewrite abs_with_content by auto. rewrite A. split; auto.
    apply (kept_becomes s (put (content s) off d)); auto. now apply with_content_WF.
Qed.

Lemma copied_view s off d : copied off (view_source s d) = smear (lag s off d) (slice_bytes (heap s) d).
Proof.
  unfold copied, view_source, lag; cbn [src_bytes src_pos]. destruct (Nat.eqb _ _); auto. f_equal. lia.
Qed.

Theorem v2_at_seen s off o : WF s -> mu s = false -> is_i64 off -> valid_op2 s o ->
  seen_as s (run (do2_at off o) s) (old_at V2 off (view_old_op s o) (abs s)).
Proof.
  intros W M Ho V.
  assert (A : forall o3, op3 o = Some o3 -> plain_op s off o -> writes_op o = false -> valid_opn s o3 ->
     seen_as s (run (do2_at off o) s) (abs_at off (abs_opn s o3) (abs s))).
  { intros o3 E P Wr V3. rewrite (v2_at_agrees s off _ o3) by auto. rewrite Wr, as_v2_false. apply seen_sim; auto.
    now apply (do_at_sim s off o3). }
  destruct o as [ | n | data | data n | | d | v | n | | t d | t n]; cbn [view_old_op old_at plain_op2].
  - now apply (A OReadBit).
  - now apply (A (OReadBits n)).
  - cbn [seq_at]. destruct (Z.eqb_spec data 0) as [->|N0]; [|destruct (Z.eqb_spec data 1) as [->|N1]].
    + now apply (A OClearBit).
    + now apply (A OSetBit).
    + cbn [do2_at]. unfold ret_unit. rewrite run_bind, v2_SetBit_bad by auto. cbn [a_bytes abs].
      destruct (_ <=? _); [|destruct (_ <? _)]; cbn; (split; [reflexivity|]); now apply kept_refl.
  - now apply (A (OSetBits data n)).
  - now apply (A OFlipBit).
  - cbn [seq_at do2_at]. rewrite copied_view. apply (seen_store s off _ _ s); auto.
    + now apply becomes_self.
    + intros. now apply with_content_becomes.
    + apply smear_bytes, wf_slice_bytes; auto. apply (wf_h s W).
    + rewrite v2_WriteBytes by auto. rewrite zlen_smear, wf_slice_bytes_zlen by auto. reflexivity.
  - cbn [seq_at do2_at].
    assert (S1 : Forall is_byte [v]) by (constructor; auto).
    assert (S2 : zlen [v] <= maxAlloc) by (rewrite max_alloc_val; now vm_compute).
    apply (seen_store s off _ _ (alloc s [v])); auto.
    + now apply alloc_WF.
    + now apply alloc_becomes.
    + now apply abs_alloc.
    + intros. now apply alloc_with_content_becomes.
    + change (zlen [v]) with 1. now apply v2_WriteByte.
  - now apply (A (OReadBytes n)).
  - now apply (A OReadByte).
  - cbn [seq_at do2_at]. apply (seen_store s off _ _ s); auto.
    + now apply becomes_self.
    + intros. now apply with_content_becomes.
    + apply encode_all_bytes.
    + rewrite v2_WriteT by auto. rewrite encode_all_zlen.
      replace (zlen d * tsize (fmt t) =? 0) with (zlen d =? 0); auto.
      pose proof (tsize_pos (fmt t)). lia.
  - now apply (A (ORead (fmt t) n)).
Qed.

Theorem v1_at_seen s off o : WF s -> mu s = false -> is_i64 off -> valid_op2 s o ->
  seen_as s (run (do1_at off o) s) (old_at V1 off (view_old_op s o) (abs s)).
Proof.
  intros W M Ho V. pose proof (v2_at_seen s off o W M Ho V) as S.
  destruct o as [ | n | data | data n | | d | v | n | | t d | t n]; try exact S;
    cbn [view_old_op old_at plain_op2 valid_op2] in *.
  - cbn [do1_at do2_at] in *. unfold ret_int in *. rewrite run_bind in *. rewrite v1_ReadBits by auto.
    destruct (_ <=? _); auto. split; auto. now apply kept_refl.
  - cbn [do1_at do2_at] in *. unfold ret_unit in *. rewrite run_bind in *. rewrite v1_SetBits by tauto.
    destruct (_ <=? _); auto. split; auto. now apply kept_refl.
  - cbn [seq_at do1_at]. pose proof (scratch_small t d V) as Sm.
    assert (A : abs (scratch t d s) = abs s).
    { unfold abs, scratch. rewrite content_allocs by auto. f_equal. pose proof (wf_blk s W).
      unfold spare, allocs; cbn [heap set_heap bb]. now rewrite app_nth1. }
    apply (seen_store s off _ _ (scratch t d s)); auto.
    + now apply scratch_WF.
    + unfold scratch. split. now apply content_allocs. do 3 (split; [reflexivity|]). apply mem_frame_app.
    + intros. now apply allocs_with_content_becomes.
    + apply encode_all_bytes.
    + rewrite v1_WriteComplex by auto. cbv zeta. rewrite encode_all_zlen.
      replace (zlen d * tsize (fmt t) =? 0) with (zlen d =? 0); auto.
      pose proof (tsize_pos (fmt t)). lia.
  - cbn [do1_at a_bytes a_spare abs]. fold (abs s). unfold ret_idata. rewrite run_bind, v1_ReadComplex, run_ReadBytes_raw by auto.
    rewrite zlen_app.
    pose proof (content_max s W) as CM. rewrite max_alloc_val in CM. pose proof (zlen_nonneg (content s)).
    destruct (off +! n >? zlen (content s)) eqn:E1. { split; auto; now apply kept_refl. }
    destruct (Z.ltb_spec off 0). { split; auto; now apply kept_refl. }
    replace (off <=? off +! n) with ((0 <=? n) && (off + n <=? zlen (content s))).
    2:{ unfold is_i64 in *. unfold add64, wrap64 in *.
        destruct (Z.ltb_spec (off + n) (2 ^ 63)).
        - rewrite Z.mod_small in * by lia. lia.
        - replace (off + n + 2 ^ 63) with (off + n - 2 ^ 63 + 1 * 2 ^ 64) in * by lia.
          rewrite Z_mod_plus_full, Z.mod_small in * by lia. lia. }
    destruct ((0 <=? n) && _); cbn [negb]. 2: { split; auto; now apply kept_refl. }
    destruct (_ <? _). { split; auto; now apply kept_refl. }
    destruct (_ <=? _). 2: { split; auto; now apply kept_refl. }
    rewrite nums_of_idata. split; auto. now apply kept_refl.
Qed.

Lemma view_advance s o : valid_op2 s o ->
  advance_of2 (fun d => zlen (src_bytes d)) (view_old_op s o) = advance_of2 s_len o.
Proof. destruct o; auto. intro V. cbn. now apply wf_slice_bytes_zlen. Qed.
Lemma view_bit s o : bit_addressed2 (view_old_op s o) = bit_addressed2 o.
Proof. destruct o; reflexivity. Qed.

Lemma next_seen v s o (p q : prog (rv slice)) :
  WF s -> valid_op2 s o ->
  seen_as s (run q s) (old_at v (cursor s (bit_addressed2 o)) (view_old_op s o) (abs s)) ->
  lock_ok (writes_op o) (run q s) ->
  run p s =
    match run q s with
    | Done v s' => if mu s' then Deadlock s'
                   else Done v (with_cursor s' (bit_addressed2 o)
                          (cursor s' (bit_addressed2 o) +! advance_of2 s_len o))
    | Panicked e s' => Panicked e s'
    | Deadlock s' => Deadlock s'
    | Stuck => Stuck
    end ->
  seen_as s (run p s) (old_next v (view_old_op s o) (abs s)).
Proof.
  intros W V S L E. rewrite E. unfold old_next. rewrite view_bit, view_advance by auto.
  destruct (run q s) as [r s'|e s'|s'|]; cbn [seen_as lock_ok] in *; try contradiction.
  - destruct L as [_ L]. rewrite L. destruct S as [S K].
    destruct (bit_addressed2 o); unfold cursor, with_cursor in *; cbn [a_off a_boff abs] in *; fold (abs s) in *;
      rewrite S; (split; [reflexivity|]).
    + apply (kept_cursor s s' true); auto. apply wrap64_range.
    + apply (kept_cursor s s' false); auto. apply wrap64_range.
  - destruct S as [S K]. destruct (bit_addressed2 o); unfold cursor in S; cbn [a_off a_boff abs]; fold (abs s);
      rewrite S; auto.
Qed.

Lemma grow_seen pol n s : WF s -> mu s = false -> is_i64 n ->
  seen_as s (run (ret_unit (V2Buffer.Grow pol n)) s) (old_grow pol n (abs s)).
Proof.
  intros W M Hn. rewrite run_ret_unit, v2_Grow by auto. unfold old_grow. cbn [a_bytes a_spare a_off a_boff abs]. fold (abs s).
  pose proof (zlen_nonneg (content s)) as N0. pose proof (wf_cap_max s W) as CM. pose proof (content_zlen s W) as CL.
  pose proof (spare_zlen s W) as SP. pose proof (wf_lencap s W) as LC. pose proof (zlen_nonneg (spare s)) as S0.
  destruct (Z.ltb_spec n 0). { cbn. split; auto. now apply kept_set_mu, kept_refl. }
  destruct (Z.ltb_spec maxAlloc (zlen (content s) + n)).
  { cbn [orb]. destruct (Z.ltb_spec maxAlloc n). { cbn. split; auto. now apply kept_set_mu, kept_refl. }
    replace (zlen (content s) + n <=? maxAlloc) with false by lia. cbn [seen_as].
    rewrite abs_set_mu, abs_alloc by auto. split; auto. apply kept_set_mu, (kept_becomes s (content s)); auto.
    - apply alloc_WF; auto. apply Forall_zeros. rewrite zlen_zeros; lia.
    - now apply alloc_becomes. }
  replace (maxAlloc <? n) with false by lia. replace (zlen (content s) + n <=? maxAlloc) with true by lia.
  cbn [orb seen_as view_rv].
  destruct (v2_grown_wf pol s n W ltac:(lia) ltac:(lia)) as [W2 C2].
  assert (Wz : WF (alloc s (zeros n))).
  { apply alloc_WF; auto. apply Forall_zeros. rewrite zlen_zeros; lia. }
  assert (Cz : content (alloc s (zeros n)) = content s) by now apply content_alloc.
  assert (Sz : spare (alloc s (zeros n)) = spare s) by now apply spare_alloc.
  split.
  - f_equal. unfold abs. rewrite C2. unfold v2_grown in *. replace (s_cap (b_buf (bb s))) with (zlen (content s) + zlen (spare s)) by lia.
    replace (zlen (content s) + zlen (spare s) - zlen (content s)) with (zlen (spare s)) by lia.
    replace (s_cap (b_buf (bb s))) with (zlen (content s) + zlen (spare s)) in C2 by lia.
    replace (zlen (content s) + zlen (spare s) - zlen (content s)) with (zlen (spare s)) in C2 by lia.
    destruct (Z.leb_spec n (zlen (spare s))).
    + f_equal; try reflexivity. unfold grown_in_place.
      set (t := with_slice (alloc s (zeros n)) (resize (b_buf (bb s)) (zlen (content s) + n))).
      assert (Wt : WF t).
      { apply with_slice_WF; auto. change (b_buf (bb s)) with (b_buf (bb (alloc s (zeros n)))).
        apply resize_wf; auto. change (bb (alloc s (zeros n))) with (bb s). lia. }
      assert (Et : content t = content s ++ sub (spare s) 0 n).
      { unfold t. rewrite <- Cz. change (b_buf (bb s)) with (b_buf (bb (alloc s (zeros n)))). rewrite content_resize_grow; auto.
        now rewrite Sz. rewrite Sz; lia. }
      rewrite spare_with_content; auto.
      2:{ rewrite Et, !zlen_app, zlen_zeros, sub_length by lia. reflexivity. }
      unfold t. change (b_buf (bb s)) with (b_buf (bb (alloc s (zeros n)))). rewrite spare_resize; auto.
      2:{ change (bb (alloc s (zeros n))) with (bb s). lia. }
      rewrite Cz, Sz. change (bb (alloc s (zeros n))) with (bb s).
      replace (s_cap (b_buf (bb s)) - (zlen (content s) + n)) with (zlen (spare s) - n) by lia.
      replace (content s ++ spare s) with ((content s ++ sub (spare s) 0 n) ++ sub (spare s) n (zlen (spare s) - n)).
      2:{ rewrite <- app_assoc. f_equal. rewrite <- (Z.add_0_l n) at 2. rewrite <- sub_app_split by lia.
          apply sub_all. lia. }
      symmetry. apply sub_of_app. rewrite zlen_app, sub_length by lia. lia. rewrite sub_length by lia. lia.
    + f_equal; try reflexivity. rewrite spare_grown; auto.
      * rewrite Cz. f_equal. lia.
      * rewrite Cz. unfold new_cap. lia.
  - constructor; auto.
    + unfold v2_grown. destruct (_ <=? _); reflexivity.
    + unfold v2_grown. destruct (Z.leb_spec n (s_cap (b_buf (bb s)) - zlen (content s))).
      * unfold grown_in_place.
        set (t := with_slice (alloc s (zeros n)) (resize (b_buf (bb s)) (zlen (content s) + n))).
        assert (Wt : WF t).
        { apply with_slice_WF; auto. change (b_buf (bb s)) with (b_buf (bb (alloc s (zeros n)))).
          apply resize_wf; auto. change (bb (alloc s (zeros n))) with (bb s). lia. }
        assert (Et : content t = content s ++ sub (spare s) 0 n).
        { unfold t. rewrite <- Cz. change (b_buf (bb s)) with (b_buf (bb (alloc s (zeros n)))). rewrite content_resize_grow; auto.
          now rewrite Sz. rewrite Sz; lia. }
        assert (Lt : zlen (content s ++ zeros n) = zlen (content t)).
        { rewrite Et, !zlen_app, zlen_zeros, sub_length by lia. reflexivity. }
        pose proof (mem_frame_with_content t (content s ++ zeros n) Wt Lt) as F.
        change (heap t) with (heap s ++ [zeros n]) in F. change (s_blk (b_buf (bb t))) with (s_blk (b_buf (bb s))) in F.
        change (s_off (b_buf (bb t))) with (s_off (b_buf (bb s))) in F.
        change (s_len (b_buf (bb t))) with (zlen (content s) + n) in F.
        eapply mem_frame_trans. apply (mem_frame_alloc _ _ _ _ (zeros n)).
        eapply mem_frame_widen; [| |exact F]; lia.
      * unfold grown. cbn [heap with_slice set_bb alloc set_heap]. rewrite <- app_assoc. apply mem_frame_app.
    + unfold v2_grown. destruct (_ <=? _).
      * left. cbn. lia.
      * right. cbn. rewrite app_length. lia.
Qed.

Lemma reset_seen s : WF s -> mu s = false ->
  seen_as s (run (ret_unit V2Buffer.Reset) s) (Ok RUnit (mkA [] [] 0 0)).
Proof.
  intros W M. rewrite run_ret_unit, v2_Reset by auto. cbn [seen_as view_rv]. split.
  - unfold abs, content, spare, slice_bytes, reset2. cbn. reflexivity.
  - constructor.
    + now apply reset2_WF.
    + reflexivity.
    + apply mem_frame_alloc.
    + right. cbn. lia.
Qed.

(** All calls on a live buffer. *)
Theorem v2_call_seen pol s c : WF s -> mu s = false -> valid_call2 s c ->
  exists o, old_call V2 pol (view_old s c) (abs s) = Some o /\ seen_as s (run (do2_call pol c) s) o.
Proof.
  intros W M V.
  assert (A : forall c3, call3 c = Some c3 -> plain_call s c -> undeferred c = false -> valid_call s c3 ->
     seen_as s (run (do2_call pol c) s) (abs_call (view_call s c3) (abs s))).
  { intros c3 E P Wr V3. rewrite (v2_call_agrees pol s c c3) by auto. rewrite Wr, as_v2_false. apply seen_sim; auto.
    now apply (do_call_sim s c3). }
  destruct c; cbn [view_old old_call]; (eexists; split; [reflexivity|]); cbn [valid_call2] in V.
  all: try (match goal with |- seen_as _ (run (do2_call _ ?c) _) _ =>
         let c3 := eval cbn in (call3 c) in match c3 with Some ?c3 => exact (A c3 eq_refl I eq_refl V) end end).
  - destruct V. now apply v2_at_seen.
  - apply (next_seen V2 s o (do2_next o) (do2_at (cursor s (bit_addressed2 o)) o)); auto.
    + apply v2_at_seen; auto. now apply cursor_i64.
    + apply v2_at_safe; auto. now apply cursor_i64.
    + apply run_do2_next.
  - now apply grow_seen.
  - now apply reset_seen.
Qed.

Lemma abs_empty_all s f : zlen (content s) = 0 -> set_bytes (abs s) (map f (content s)) = abs s.
Proof. intro H. unfold set_bytes, abs; cbn [a_bytes a_spare a_off a_boff]. now rewrite (zlen_0_nil _ H). Qed.

Theorem v1_call_seen pol s c p : WF s -> mu s = false -> valid_call2 s c -> do1_call pol c = Some p ->
  exists o, old_call V1 pol (view_old s c) (abs s) = Some o /\ seen_as s (run p s) o.
Proof.
  intros W M V E. destruct (v2_call_seen pol s c W M V) as (o2 & E2 & S2).
  destruct c; cbn [do1_call] in E; injection E as <- || discriminate; cbn [view_old old_call] in *;
    (eexists; split; [reflexivity|]); injection E2 as <-; cbn [valid_call2] in V; try exact S2.
  - destruct V. now apply v1_at_seen.
  - apply (next_seen V1 s o (do1_next o) (do1_at (cursor s (bit_addressed2 o)) o)); auto.
    + apply v1_at_seen; auto. now apply cursor_i64.
    + apply v1_at_safe; auto. now apply cursor_i64.
    + apply run_do1_next.
  - cbn [do2_call] in S2. unfold ret_unit in *. rewrite run_bind in *. rewrite v1_ClearAllBits by auto.
    cbn [a_bytes abs] in *. fold (abs s) in *. destruct (Z.eqb_spec (zlen (content s)) 0); auto.
    rewrite abs_empty_all by auto. split; auto. now apply kept_refl.
  - cbn [do2_call] in S2. unfold ret_unit in *. rewrite run_bind in *. rewrite v1_SetAllBits by auto.
    cbn [a_bytes abs] in *. fold (abs s) in *. destruct (Z.eqb_spec (zlen (content s)) 0); auto.
    rewrite abs_empty_all by auto. split; auto. now apply kept_refl.
  - cbn [do2_call] in S2. unfold ret_unit in *. rewrite run_bind in *. rewrite v1_FlipAllBits by auto.
    cbn [a_bytes abs] in *. fold (abs s) in *. destruct (Z.eqb_spec (zlen (content s)) 0); auto.
    rewrite abs_empty_all by auto. split; auto. now apply kept_refl.
Qed.

(** ** A dead buffer *)

(** A run that raises [e], or blocks if there is no [e], and leaves all as it was. *)
Definition ends {A} (s : St) (r : res A) (x : option err) : Prop :=
  match r, x with
  | Panicked e' s', Some e => e' = e /\ abs s' = abs s /\ mu s' = true /\ kept s s'
  | Deadlock s', None => abs s' = abs s /\ mu s' = true /\ kept s s'
  | _, _ => False
  end.

Section Dead.
Variable s : St.
Hypothesis W : WF s.
Hypothesis M : mu s = true.

Lemma ends_bind {A B} (p : prog A) (f : A -> prog B) x : ends s (run p s) x -> ends s (run (bind p f) s) x.
Proof. rewrite run_bind. destruct (run p s), x; cbn; auto; contradiction. Qed.
Lemma ends_locked {A} (p : prog A) : ends s (run (locked p) s) None.
Proof. rewrite run_locked_deadlock by auto. repeat split; auto. all: now apply kept_refl. Qed.
Lemma ends_lock {A} (p : prog A) : ends s (run (lock ;; p) s) None.
Proof. rewrite run_lock_deadlock by auto. repeat split; auto. all: now apply kept_refl. Qed.
Lemma ends_raise e : ends s (@Panicked (rv slice) e s) (Some e).
Proof. repeat split; auto. all: now apply kept_refl. Qed.

Definition check (off : Z) (over under : err) (high : bool) : option err :=
  if high then Some over else if off <? 0 then Some under else None.

Lemma ends_bit {A} off e1 e2 (k : prog A) : ends s (run k s) None ->
  ends s (run (bind (get FBcap) (fun bcap => bind (panic_if (off >? bcap -! 1) e1)
         (fun _ => bind (panic_if (off <? 0) e2) (fun _ => k)))) s)
    (check off e1 e2 (8 * zlen (content s) <=? off)).
Proof.
  intro H. rewrite check_bit by auto. unfold check. destruct (_ <=? _). { repeat split; auto; now apply kept_refl. }
  destruct (_ <? _); auto. repeat split; auto; now apply kept_refl.
Qed.
Lemma ends_range {A} off n e1 e2 (k : prog A) x : ends s (run k s) x ->
  ends s (run (bind (get FCap) (fun cap => bind (panic_if (off +! n >? cap) e1)
         (fun _ => bind (panic_if (off <? 0) e2) (fun _ => k)))) s)
    (match check off e1 e2 (off +! n >? zlen (content s)) with Some e => Some e | None => x end).
Proof.
  intro H. rewrite (check_range s off n _ _ _ _ W eq_refl). unfold check. destruct (_ >? _). { repeat split; auto; now apply kept_refl. }
  destruct (_ <? _); auto. repeat split; auto; now apply kept_refl.
Qed.
Lemma ends_range0 {A} off n e1 e2 (k : prog A) : ends s (run k s) None ->
  ends s (run (bind (get FCap) (fun cap => bind (panic_if (off +! n >? cap) e1)
         (fun _ => bind (panic_if (off <? 0) e2) (fun _ => k)))) s)
    (check off e1 e2 (off +! n >? zlen (content s))).
Proof. intro H. pose proof (ends_range off n e1 e2 k None H) as E. destruct (check _ _ _ _); exact E. Qed.

Lemma ends_goto {S} n (b : Z -> S -> prog S) a x : ends s (run (b 0 a) s) x -> ends s (run (goto_loop n b a) s) x.
Proof. intro H. unfold goto_loop. cbn [dw]. now apply ends_bind. Qed.

Lemma ends_read off n : ends s (run (V2Buffer.read off n) s) (check off BufferOverreadError BufferUnderreadError (off +! n >? zlen (content s))).
Proof. apply ends_range0, ends_locked. Qed.
Lemma ends_write off d : ends s (run (V2Buffer.write off d) s) (check off BufferOverwriteError BufferUnderwriteError (off +! s_len d >? zlen (content s))).
Proof. apply ends_range0, ends_lock. Qed.
Lemma ends_readbit off : ends s (run (V2Buffer.readbit off) s) (check off BufferOverreadError BufferUnderreadError (8 * zlen (content s) <=? off)).
Proof. apply ends_bit, ends_locked. Qed.
Lemma ends_setbit off d : ends s (run (V2Buffer.setbit off d) s) (check off BufferOverwriteError BufferUnderwriteError (8 * zlen (content s) <=? off)).
Proof. apply ends_bit, ends_locked. Qed.
Lemma ends_flipbit off : ends s (run (V2Buffer.flipbit off) s) (check off BufferOverwriteError BufferUnderwriteError (8 * zlen (content s) <=? off)).
Proof. apply ends_bit, ends_locked. Qed.

End Dead.

(** A run after allocations. *)
Lemma ends_after {A} s s1 (r : res A) x : WF s -> becomes s (content s) s1 -> abs s1 = abs s ->
  ends s1 r x -> ends s r x.
Proof.
  intros W (C & B & _ & O & F) E.
  assert (K : forall s', kept s1 s' -> kept s s').
  { intros s' [K1 K2 K3 K4]. pose proof (wf_lencap s W). rewrite B in *. constructor; auto; try congruence.
    - eapply mem_frame_trans; [|exact K3]. eapply mem_frame_widen; [| |exact F]; lia.
    - destruct K4 as [K4|K4]; [left; exact K4|right]. destruct F as [F _]. lia. }
  destruct r, x; cbn; auto; rewrite E; intuition.
Qed.

Theorem v2_at_dead s off o : WF s -> mu s = true -> is_i64 off -> valid_op2 s o ->
  ends s (run (do2_at off o) s) (early_at V2 off (view_old_op s o) (abs s)).
Proof.
  intros W M Ho V.
  destruct o as [ | n | data | data n | | d | v | n | | t d | t n]; cbn [do2_at view_old_op early_at valid_op2] in *;
    cbn [a_bytes abs src_bytes view_source]; unfold ret_int, ret_unit, ret_bytes, ret_nums; apply ends_bind.
  - now apply ends_readbit.
  - apply ends_goto, ends_bind. rewrite add64_id by (rewrite Z.add_0_r; exact Ho). rewrite Z.add_0_r. now apply ends_readbit.
  - now apply ends_setbit.
  - apply ends_goto. rewrite add64_id by (rewrite Z.add_0_r; exact Ho). rewrite Z.add_0_r. now apply ends_setbit.
  - now apply ends_flipbit.
  - rewrite wf_slice_bytes_zlen by auto. now apply ends_write.
  - unfold V2Buffer.WriteByte. rewrite run_lit_bytes.
    assert (S1 : Forall is_byte [v]) by (constructor; auto).
    assert (S2 : zlen [v] <= maxAlloc) by (rewrite max_alloc_val; now vm_compute).
    apply (ends_after s (alloc s [v])); auto. now apply alloc_becomes. now apply abs_alloc.
    rewrite <- (content_alloc s [v] W). apply ends_write; auto. now apply alloc_WF.
  - now apply ends_read.
  - unfold V2Buffer.ReadByte. apply ends_bind. now apply ends_read.
  - rewrite WriteU_canon. unfold wf_data in V. pose proof (tsize_pos (fmt t)). pose proof (zlen_nonneg d).
    rewrite max_alloc_val in V. rewrite mul64_id by (unfold is_i64; nia). apply ends_range0; auto. now apply ends_lock.
  - rewrite ReadU_canon. apply ends_range; auto. unfold make_elems.
    pose proof (tsize_pos (fmt t)).
    destruct ((0 <=? n) && (n * tsize (fmt t) <=? maxAlloc)) eqn:E.
    + replace ((n <? 0) || (maxAlloc <? n * tsize (fmt t))) with false by lia. cbn [bind]. now apply ends_locked.
    + replace ((n <? 0) || (maxAlloc <? n * tsize (fmt t))) with true by lia. cbn [bind run]. repeat split; auto; now apply kept_refl.
Qed.

Theorem v1_at_dead s off o : WF s -> mu s = true -> is_i64 off -> valid_op2 s o -> idle V1 (view_old_op s o) = false ->
  ends s (run (do1_at off o) s) (early_at V1 off (view_old_op s o) (abs s)).
Proof.
  intros W M Ho V Id. pose proof (v2_at_dead s off o W M Ho V) as S.
  destruct o as [ | n | data | data n | | d | v | n | | t d | t n]; try exact S; cbn [valid_op2 view_old_op idle] in *.
  - cbn [do1_at do2_at] in *. unfold ret_int in *. rewrite run_bind in *. rewrite v1_ReadBits, Id by auto. exact S.
  - cbn [do1_at do2_at] in *. unfold ret_unit in *. rewrite run_bind in *. rewrite v1_SetBits, Id by tauto. exact S.
  - cbn [do1_at early_at a_bytes abs]. unfold ret_unit. apply ends_bind.
    unfold V1Buffer.WriteComplex, V1Buffer.writeComplex. rewrite run_bind, run_complex_bytes by auto.
    assert (A : abs (scratch t d s) = abs s).
    { unfold abs, scratch. rewrite content_allocs by auto. f_equal. pose proof (wf_blk s W).
      unfold spare, allocs; cbn [heap set_heap bb]. now rewrite app_nth1. }
    apply (ends_after s (scratch t d s)); auto.
    { unfold scratch. split. now apply content_allocs. do 3 (split; [reflexivity|]). apply mem_frame_app. }
    assert (C : content (scratch t d s) = content s) by (now injection A). rewrite <- C.
    apply ends_write; auto. now apply scratch_WF.
  - cbn [do1_at early_at a_bytes abs]. unfold ret_idata. apply ends_bind. rewrite readComplex_canon. apply ends_bind.
    now apply ends_read.
Qed.

Lemma ends_agrees s r x a : ends s r x -> a = abs s ->
  agrees s r (match x with Some e => Threw e | None => Blocked end, a, true).
Proof. intros E ->. destruct r, x; cbn in *; intuition (try congruence). Qed.

Lemma next_dead s o (p q : prog (rv slice)) x : ends s (run q s) x ->
  run p s =
    match run q s with
    | Done v s' => if mu s' then Deadlock s'
                   else Done v (with_cursor s' (bit_addressed2 o)
                          (cursor s' (bit_addressed2 o) +! advance_of2 s_len o))
    | Panicked e s' => Panicked e s'
    | Deadlock s' => Deadlock s'
    | Stuck => Stuck
    end -> ends s (run p s) x.
Proof. intros E ->. destruct (run q s), x; cbn in *; auto; contradiction. Qed.

Lemma stops_undeferred s c : stops (view_old s c) = undeferred c.
Proof. destruct c as [off o|o| | | | | | | | | | | | | | | | | ]; try reflexivity; destruct o; reflexivity. Qed.
Lemma query_locks s c : query (view_old s c) = negb (locks c).
Proof. destruct c; reflexivity. Qed.

(** ** One call, live or dead *)

Definition old_do (v : version) (pol : Z -> Z -> Z) (c : call2 slice) : option (prog (rv slice)) :=
  match v with V1 => do1_call pol c | V2 => Some (do2_call pol c) end.

Lemma old_live v pol s c p : WF s -> mu s = false -> valid_call2 s c -> old_do v pol c = Some p ->
  exists o, old_call v pol (view_old s c) (abs s) = Some o /\ seen_as s (run p s) o /\ lock_ok (undeferred c) (run p s).
Proof.
  intros W M V E. destruct v; cbn [old_do] in E.
  - destruct (v1_call_seen pol s c p W M V E) as (o & H1 & H2). pose proof (v1_call_safe pol s c p W M V E). eauto.
  - injection E as <-. destruct (v2_call_seen pol s c W M V) as (o & H1 & H2). pose proof (v2_call_safe pol s c W M V). eauto.
Qed.

Lemma old_at_dead v s off o p : WF s -> mu s = true -> is_i64 off -> valid_op2 s o ->
  idle v (view_old_op s o) = false ->
  p = (match v with V1 => do1_at off o | V2 => do2_at off o end) ->
  ends s (run p s) (early_at v off (view_old_op s o) (abs s)).
Proof. intros W M Ho V Id ->. destruct v. now apply v1_at_dead. now apply v2_at_dead. Qed.

(** A v1 bit call with a count below one, positional. *)
Lemma idle_at s off o : valid_op2 s o -> idle V1 (view_old_op s o) = true ->
  exists r, run (do1_at off o) s = Done r s /\ old_at V1 off (view_old_op s o) (abs s) = Ok (view_rv s r) (abs s).
Proof.
  intros V Id. destruct o as [ | n | data | data n | | d | v | n | | t d | t n]; cbn [view_old_op idle valid_op2] in *; try discriminate.
  - cbn [do1_at old_at]. unfold ret_int. rewrite run_bind, v1_ReadBits, Id by auto. cbn [run]. eauto.
  - cbn [do1_at old_at]. unfold ret_unit. rewrite run_bind, v1_SetBits, Id by tauto. cbn [run]. eauto.
Qed.

Theorem old_step_agrees v pol s c p : WF s -> valid_call2 s c -> old_do v pol c = Some p ->
  exists x, old_step v pol (view_old s c) (abs s) (mu s) = Some x /\ agrees s (run p s) x.
Proof.
  intros W V E. destruct (mu s) eqn:M.
  2:{ unfold old_step. cbn [negb orb]. destruct (old_live v pol s c p W M V E) as (o & -> & S & L).
      destruct (run p s) as [r s'|e s'|s'|]; cbn [seen_as lock_ok] in *; try contradiction.
      - destruct S as [-> K]. eexists. split; [reflexivity|]. cbn [agrees]. destruct L as [_ ->]. auto.
      - destruct S as [-> K]. eexists. split; [reflexivity|]. cbn [agrees]. split; [auto|]. split; [auto|]. split; [|exact K].
        rewrite stops_undeferred. destruct e; destruct L as [_ ->]. now rewrite andb_false_r. now rewrite andb_true_r. }
  unfold old_step. cbn [negb orb]. rewrite query_locks. destruct (locks c) eqn:Lc; cbn [negb].
  2:{ destruct c; try discriminate Lc; cbn [view_old old_call].
      all: eexists; (split; [reflexivity|]).
      all: destruct v; cbn [old_do do1_call do2_call] in E; injection E as <-.
      all: unfold ret_int, ret_bytes; cbn.
      all: repeat match goal with |- context [match ?x with Some _ => _ | None => _ end] => destruct x end; cbn.
      all: rewrite ?(cap_is s W), ?(bcap_is s W); repeat split; auto; try (now apply kept_refl). }
  assert (DL : forall (q : prog (rv slice)), ends s (run q s) None -> agrees s (run q s) (Blocked, abs s, true)).
  { intros q H. exact (ends_agrees s _ None _ H eq_refl). }
  destruct c; try discriminate Lc; cbn [view_old].
  1:{ (* At2 *) destruct V as [Ho V]. destruct (idle v (view_old_op s o)) eqn:Id.
      - destruct v; [|discriminate Id]. cbn [old_do do1_call] in E. injection E as <-.
        destruct (idle_at s off o V Id) as (r & R & A). cbn [old_call]. rewrite A, R. eexists. split; [reflexivity|].
        cbn. repeat split; auto; now apply kept_refl.
      - eexists. split. 2:{ refine (ends_agrees s _ _ _ (old_at_dead v s off o p W M Ho V Id _) eq_refl).
          destruct v; cbn [old_do do1_call do2_call] in E; now injection E as <-. }
        destruct (early_at v off (view_old_op s o) (abs s)); reflexivity. }
  1:{ (* Next2 *) assert (Hc : is_i64 (cursor s (bit_addressed2 o))) by now apply cursor_i64.
      destruct (idle v (view_old_op s o)) eqn:Id.
      - destruct v; [|discriminate Id]. cbn [old_do do1_call] in E. injection E as <-.
        destruct (idle_at s (cursor s (bit_addressed2 o)) o V Id) as (r & R & A).
        eexists. split; [reflexivity|]. rewrite run_do1_next, R, M. cbn. repeat split; auto; now apply kept_refl.
      - rewrite view_bit.
        replace (if bit_addressed2 o then a_boff (abs s) else a_off (abs s)) with (cursor s (bit_addressed2 o))
          by (destruct (bit_addressed2 o); reflexivity).
        eexists. split. 2:{ refine (ends_agrees s _ _ _ _ eq_refl).
          destruct v; cbn [old_do do1_call do2_call] in E; injection E as <-.
          + eapply next_dead; [|apply run_do1_next]. exact (old_at_dead V1 s _ o _ W M Hc V Id eq_refl).
          + eapply next_dead; [|apply run_do2_next]. exact (old_at_dead V2 s _ o _ W M Hc V Id eq_refl). }
        destruct (early_at v _ (view_old_op s o) (abs s)); reflexivity. }
  all: destruct v; cbn [old_do do1_call do2_call] in E; (injection E as <- || discriminate E);
    (eexists; split; [reflexivity|]); apply DL; unfold ret_unit; apply ends_bind;
    first [now apply ends_locked | now apply ends_lock].
Qed.
