(** * AllocLemmas: what calls on a v3 [Buffer] add to memory. *)
From Coq Require Import ZArith List Bool Lia Arith ZifyBool.
From Verif Require Import GoSem Errors Spec GoLemmas Typed V3ByteLemmas TypedReadLemmas TypedCanon Calls Abs Frame Sim History MiniAbs MiniLemmas MiniSim MiniHistory AllocSpec.
From Verif Require V3Buffer V3Mini.
Import ListNotations.
Open Scope Z_scope.
Open Scope list_scope.

(** ** Programs that allocate nothing and keep the slice header *)

Fixpoint still {A} (p : prog A) : Prop :=
  match p with
  | Ret _ | Panic _ | OutOfFuel => True
  | GetBuf k => forall s, still (k s)
  | SetF _ _ k | Store _ _ _ k | Move _ _ _ _ _ k | SetOuts _ k => still k
  | GetF _ k | Load _ _ k => forall v, still (k v)
  | GetOuts k => forall v, still (k v)
  | SetBuf _ _ | Alloc _ _ | Lock _ | Unlock _ => False
  end.
Lemma still_bind {A B} (p : prog A) (f : A -> prog B) : still p -> (forall a, still (f a)) -> still (bind p f).
Proof. intros H F. induction p; cbn in *; auto; contradiction. Qed.
Lemma still_goto {S} n (b : Z -> S -> prog S) a : (forall i a, still (b i a)) -> still (goto_loop n b a).
Proof.
  intro H. unfold goto_loop. generalize (Datatypes.S (Z.to_nat n)), 0, a. intro f.
  induction f as [|f IH]; intros i x; cbn [dw]; [exact I|]. apply still_bind; auto. intro y. destruct (_ <? _); [apply IH|exact I].
Qed.

Definition same_room (s s' : St) : Prop := blocks s' = blocks s /\ b_buf (bb s') = b_buf (bb s).
Lemma same_room_refl s : same_room s s.
Proof. split; reflexivity. Qed.
Lemma same_room_trans s1 s2 s3 : same_room s1 s2 -> same_room s2 s3 -> same_room s1 s3.
Proof. intros [A B] [C D]. split; congruence. Qed.

Definition ends {A} (P : St -> Prop) (r : res A) : Prop :=
  match r with Done _ s | Panicked _ s => P s | Deadlock _ | Stuck => True end.

Lemma blocks_put (h : heap_t) b a : (b < length h)%nat -> zlen a = zlen (nth b h []) ->
  map zlen (put h (Z.of_nat b) [a]) = map zlen h.
Proof.
  intros H1 H2. apply (nth_ext _ _ (zlen (@nil Z)) (zlen (@nil Z))); [now rewrite !map_length, length_put_heap|].
  intros n _. rewrite !map_nth, nth_put_heap by auto. destruct (Nat.eqb_spec n b); subst; auto.
Qed.
Lemma blocks_write h b i d h' : heap_write h b i d = Some h' -> map zlen h' = map zlen h.
Proof.
  intro H. assert (C : (b < length h)%nat /\ 0 <= i /\ i + zlen d <= zlen (nth b h [])).
  { unfold heap_write in H. destruct (nth_error h b) as [a|] eqn:E; [|discriminate].
    assert (L : (b < length h)%nat) by (apply nth_error_Some; congruence).
    rewrite (nth_error_nth _ _ [] E). destruct (_ && _) eqn:C; [|discriminate]. repeat split; auto; lia. }
  destruct C as (C1 & C2 & C3). rewrite heap_write_ok in H by auto. injection H as <-.
  apply blocks_put; auto. apply put_length; lia.
Qed.
Lemma blocks_alloc s l : blocks (alloc s l) = blocks s ++ [zlen l].
Proof. unfold blocks, alloc. cbn [heap set_heap]. now rewrite map_app. Qed.

Lemma run_still {A} (p : prog A) : still p -> forall s0 s, same_room s0 s -> ends (same_room s0) (run p s).
Proof.
  induction p; cbn [still run ends]; intros Q s0 s1 R; try contradiction; auto.
  - apply IHp; auto. destruct R as [R1 R2]. split; auto. destruct f; exact R2.
  - destruct (heap_read _ _ _ _) as [[|x [|? ?]]|]; cbn [ends]; auto.
  - destruct (heap_write _ _ _ _) as [h|] eqn:E; cbn [ends]; auto. apply IHp; auto.
    destruct R as [R1 R2]. split; auto. rewrite <- R1. exact (blocks_write _ _ _ _ _ E).
  - destruct (heap_read _ _ _ _) as [d|]; cbn [ends]; auto.
    destruct (heap_write _ _ _ _) as [h|] eqn:E; cbn [ends]; auto. apply IHp; auto.
    destruct R as [R1 R2]. split; auto. rewrite <- R1. exact (blocks_write _ _ _ _ _ E).
Qed.

Ltac rest := repeat first
  [ match goal with
    | |- True => exact I
    | |- forall _, _ => intro
    | |- still (Ret _) => exact I
    | |- still (Panic _) => exact I
    | |- still (goto_loop _ _ _) => apply still_goto
    | |- still (bind _ _) => apply still_bind
    | |- context [if ?c then _ else _] => destruct c
    end
  | progress unfold panic_if, get, set, get_buf | progress cbn [still bind] ].
Lemma still_buf_get i : still (buf_get i).
Proof. unfold buf_get, slice_get. rest. Qed.
Lemma still_buf_set i v : still (buf_set i v).
Proof. unfold buf_set, slice_set. rest. Qed.
Lemma still_ReadBit off : still (V3Buffer.ReadBit off).
Proof. unfold V3Buffer.ReadBit. rest; apply still_buf_get. Qed.
Lemma still_SetBit off : still (V3Buffer.SetBit off).
Proof. unfold V3Buffer.SetBit. rest; first [apply still_buf_get|apply still_buf_set]. Qed.
Lemma still_ClearBit off : still (V3Buffer.ClearBit off).
Proof. unfold V3Buffer.ClearBit. rest; first [apply still_buf_get|apply still_buf_set]. Qed.
Lemma still_FlipBit off : still (V3Buffer.FlipBit off).
Proof. unfold V3Buffer.FlipBit. rest; first [apply still_buf_get|apply still_buf_set]. Qed.
Lemma still_ReadBits off n : still (V3Buffer.ReadBits off n).
Proof. unfold V3Buffer.ReadBits. rest; apply still_ReadBit. Qed.
Lemma still_SetBits off d n : still (V3Buffer.SetBits off d n).
Proof. unfold V3Buffer.SetBits. rest; first [apply still_SetBit|apply still_ClearBit]. Qed.
Lemma still_reslice s lo hi : still (reslice s lo hi).
Proof. unfold reslice. rest. Qed.
Lemma still_WriteBytes off d : still (V3Buffer.WriteBytes off d).
Proof. unfold V3Buffer.WriteBytes, copy. rest; apply still_reslice. Qed.
Lemma still_ReadBytes off n : still (V3Buffer.ReadBytes off n).
Proof. unfold V3Buffer.ReadBytes. rest; apply still_reslice. Qed.
Lemma still_ReadByte off : still (V3Buffer.ReadByte off).
Proof. unfold V3Buffer.ReadByte, slice_get. rest; apply still_ReadBytes. Qed.
Lemma still_elem l i : still (elem l i).
Proof. unfold elem. rest. Qed.
Lemma still_stores bits w off i data l : still (stores bits w off i data l).
Proof.
  induction l as [|[k sh] l IH]; cbn [stores]; [exact I|]. destruct l; apply still_bind; auto using still_elem; intro;
    [apply still_buf_set|apply still_bind; auto using still_buf_set].
Qed.
Lemma still_WriteT ty off d : still (WriteT ty off d).
Proof. rewrite WriteT_canon, MiniWriteT_canon. rest. apply still_stores. Qed.
Lemma still_loads {A} w off i ks (k : list Z -> prog A) : (forall l, still (k l)) -> forall acc, still (loads w off i ks acc k).
Proof. intro H. induction ks as [|x ks IH]; intro acc; cbn [loads]; auto. apply still_bind; auto using still_buf_get. Qed.
Lemma still_ReadT ty off n : still (ReadT ty off n).
Proof. rewrite ReadT_canon. unfold make_elems. rest. unfold rbody. apply still_loads. intro. unfold set_elem. rest. Qed.
Lemma still_SeekByte n r : still (V3Buffer.SeekByte n r).
Proof. unfold V3Buffer.SeekByte. rest. Qed.
Lemma still_SeekBit n r : still (V3Buffer.SeekBit n r).
Proof. unfold V3Buffer.SeekBit. rest. Qed.
#[local] Hint Resolve still_buf_get still_buf_set still_ReadBit still_SetBit still_ClearBit still_FlipBit still_ReadBits still_SetBits
  still_reslice still_WriteBytes still_ReadBytes still_ReadByte still_WriteT still_ReadT still_SeekByte still_SeekBit : still.


Definition fixed (c : call slice) : Prop :=
  match c with
  | CTruncateLeft _ | CTruncateRight _ | CGrow _ | CReset | CRefresh
  | At _ (OWriteByte _) | Next (OWriteByte _) => False
  | _ => True
  end.
Lemma still_call c : fixed c -> still (do_call c).
Proof.
  intro F. destruct c as [off o|o| | | |off r|off r|off|off| | |n|n|n| | | | | | |]; try contradiction F; cbn [do_call].
  - destruct o; try contradiction F; cbn [do_at]; unfold ret_unit, ret_int, ret_bytes, ret_nums;
      solve [apply still_bind; [auto with still|intro; exact I]].
  - destruct o; try contradiction F; cbn [do_next]; unfold ret_unit, ret_int, ret_bytes, ret_nums; rewrite ?WriteTNext_canon, ?ReadTNext_canon;
      try unfold V3Buffer.ReadBitNext; try unfold V3Buffer.ReadBitsNext;
      try unfold V3Buffer.SetBitNext; try unfold V3Buffer.ClearBitNext; try unfold V3Buffer.FlipBitNext; try unfold V3Buffer.SetBitsNext;
      try unfold V3Buffer.WriteBytesNext; try unfold V3Buffer.ReadBytesNext; try unfold V3Buffer.ReadByteNext; try unfold slice_get;
      solve [rest; auto with still].
  - unfold ret_unit. apply still_bind; [|intro; exact I]. unfold V3Buffer.ClearAllBits. rest; auto with still.
  - unfold ret_unit. apply still_bind; [|intro; exact I]. unfold V3Buffer.SetAllBits. rest; auto with still.
  - unfold ret_unit. apply still_bind; [|intro; exact I]. unfold V3Buffer.FlipAllBits. rest; auto with still.
  - unfold ret_unit. rest; auto with still.
  - unfold ret_unit. rest; auto with still.
  - unfold ret_int. apply still_bind; [|intro; exact I]. unfold V3Buffer.AfterBit. destruct off; rest.
  - unfold ret_int. apply still_bind; [|intro; exact I]. unfold V3Buffer.AfterByte. destruct off; rest.
  - cbn. auto.
  - cbn. auto.
  - cbn. auto.
  - cbn. auto.
  - cbn. auto.
  - cbn. auto.
  - cbn. auto.
Qed.

(** ** One event *)

(** The room of the buffer and its length after an event, by the kind of event. *)
Definition room_step (e : event) (s s' : St) : Prop :=
  match e with
  | ECall (CGrow n) =>
      if (n <? 0) || (maxAlloc <? 2 * (room s + n)) && (room s - used s <? n) then room s' = room s /\ used s' = used s
      else if n <=? room s - used s then room s' = room s /\ used s' = used s + n
      else room s' = 2 * (room s + n) /\ used s' = used s + n
  | ECall (CTruncateLeft n) => used s' <= used s /\ room s' - used s' = room s - used s /\ room s' <= room s
  | ECall (CTruncateRight _) | ECall CReset => used s' <= used s /\ room s' = room s
  | _ => room s' = room s /\ used s' = used s
  end.

Lemma blocks_with_slice s sl : blocks (with_slice s sl) = blocks s.
Proof. reflexivity. Qed.

Lemma event_room e s a s' : WF s -> valid_event s e -> exec1 e s = Some (a, s') ->
  blocks s' = blocks s ++ grows s e ++ makes e /\ room_step e s s'.
Proof.
  intros W V E.
  assert (F : forall c, fixed c -> exec1 (ECall c) s = Some (a, s') -> same_room s s').
  { intros c Fc Ec. pose proof (run_still _ (still_call c Fc) s s (same_room_refl s)) as R. cbn [exec1] in Ec.
    destruct (run (do_call c) s); inversion Ec; subst; exact R. }
  assert (G : same_room s s' -> blocks s' = blocks s ++ [] ++ [] /\ (room s' = room s /\ used s' = used s)).
  { intros [R1 R2]. unfold room, used. rewrite R2, R1, !app_nil_r. auto. }
  assert (B : forall (k : slice -> prog (rv slice)) v, (forall d, still (k d)) ->
     match run (d <- lit_bytes [v] ;; k d) s with
      | Done v s' => Some ([Returned (view_rv s' v)], s')
      | Panicked er s' => Some ([Raised er], s')
      | Deadlock _ | Stuck => None
      end = Some (a, s') -> blocks s' = blocks s ++ [] ++ [1] /\ (room s' = room s /\ used s' = used s)).
  { intros k v K H. unfold lit_bytes in H. cbn [bind run] in H.
    match type of H with context [run (k ?d) ?t] => pose proof (run_still _ (K d) t t (same_room_refl t)) as R; destruct (run (k d) t) end;
      inversion H; subst; cbn [ends] in R; destruct R as [R1 R2]; unfold room, used; rewrite R1, R2;
      (split; [exact (blocks_alloc s [v])|auto]). }
  destruct e as [c|b i v|l].
  - destruct c as [off o|o| | | |off r|off r|off|off| | |n|n|n| | | | | | |];
      try (apply G; eapply F; [|exact E]; exact I); cbn [room_step grows makes].
    + destruct o; try (apply G; eapply F; [|exact E]; exact I).
      refine (B (fun d => ret_unit (V3Buffer.WriteBytes off d)) _ _ E). unfold ret_unit. rest; auto with still.
    + destruct o; try (apply G; eapply F; [|exact E]; exact I).
      refine (B (fun d => ret_unit (V3Buffer.WriteBytes (get_fld (bb s) FOff) d ;; V3Buffer.SeekByte 1 true)) _ _ E).
      unfold ret_unit. rest; auto with still.
    + cbn [exec1 do_call] in E. unfold ret_unit in E. rewrite run_bind, run_TruncateLeft in E by auto.
      pose proof (content_zlen s W). unfold room, used.
      destruct (Z.ltb_spec n 0); [|destruct (Z.leb_spec n (zlen (content s)))]; inversion E; subst; rewrite ?blocks_with_slice, ?app_nil_r;
        (split; [reflexivity|]); cbn; lia.
    + cbn [exec1 do_call] in E. unfold ret_unit in E. rewrite run_bind, run_TruncateRight in E by auto.
      pose proof (content_zlen s W). unfold room, used.
      destruct (Z.ltb_spec n 0); [|destruct (Z.leb_spec n (zlen (content s)))]; inversion E; subst; rewrite ?blocks_with_slice, ?app_nil_r;
        (split; [reflexivity|]); cbn; lia.
    + cbn [exec1 do_call] in E. unfold ret_unit in E. rewrite run_bind, run_Grow in E by auto.
      pose proof (content_zlen s W). pose proof (wf_lencap s W). pose proof (wf_len0 s W). fold (room s) in *. unfold used in *. rewrite H in E.
      destruct (Z.ltb_spec n 0); [|destruct (Z.leb_spec n (room s - s_len (b_buf (bb s)))); [|destruct (Z.leb_spec (2 * (room s + n)) maxAlloc)]];
        inversion E; subst; clear E.
      * replace (0 <=? n) with false by lia. cbn [andb orb]. now rewrite !app_nil_r.
      * replace ((0 <=? n) && _ && _) with false by lia. replace (false || _) with false by lia. rewrite !app_nil_r. split; [reflexivity|].
        cbn. auto.
      * replace ((0 <=? n) && _ && _) with true by lia. replace (false || _) with false by lia. 
        unfold grown. rewrite blocks_with_slice, blocks_alloc, app_nil_r. split; [|cbn; lia].
        do 2 f_equal. rewrite zlen_app, zlen_zeros by lia. lia.
      * replace ((0 <=? n) && _ && _) with false by lia. replace (false || _) with true by lia. now rewrite !app_nil_r.
    + cbn [exec1 do_call] in E. unfold ret_unit, V3Buffer.Refresh in E. cbn in E. inversion E; subst. apply G. split; reflexivity.
    + cbn [exec1 do_call] in E. unfold ret_unit in E. rewrite run_bind, run_Reset in E by auto. inversion E; subst.
      rewrite !app_nil_r. split; [reflexivity|]. pose proof (wf_len0 s W). unfold room, used. cbn. lia.
  - cbn [exec1] in E. destruct (heap_write _ _ _ _) as [h|] eqn:Eh; inversion E; subst. apply G. split; [|reflexivity].
    exact (blocks_write _ _ _ _ _ Eh).
  - inversion E; subst. cbn [grows makes room_step]. split; [apply blocks_alloc|]. split; reflexivity.
Qed.

(** ** Histories *)

Lemma total_app l m : total (l ++ m) = total l + total m.
Proof. unfold total. induction l as [|x l IH]; cbn [app fold_right]; lia. Qed.

Lemma room_used s : WF s -> 0 <= used s <= room s.
Proof. intro W. split; [apply (wf_len0 s W)|apply (wf_lencap s W)]. Qed.

(** What is saved up for the next array. *)
Definition owed (s : St) : Z := 2 * Z.max 0 (2 * used s - room s).

Lemma event_paid e s a s' : WF s -> valid_event s e -> exec1 e s = Some (a, s') ->
  memory s' + owed s' <= memory s + total (makes e) + owed s + 6 * asks e.
Proof.
  intros W V E. destruct (event_room e s a s' W V E) as [B R]. pose proof (room_used s W) as U.
  unfold memory. rewrite B, !total_app. unfold owed.
  destruct e as [c|b i v|l]; cbn [room_step grows asks makes] in *; [|cbn; lia|cbn; lia].
  destruct c; cbn [room_step grows asks makes] in *; try (destruct o; cbn; lia); try (cbn; lia).
  destruct (Z.ltb_spec n 0), (Z.ltb_spec (room s - used s) n), (Z.leb_spec n (room s - used s)), (Z.ltb_spec maxAlloc (2 * (room s + n))),
    (Z.leb_spec (2 * (room s + n)) maxAlloc), (Z.leb_spec 0 n); cbn [andb orb] in *; try lia; cbn [total fold_right]; lia.
Qed.

Lemma history_paid es : forall s a s', WF s -> valid_events es s -> exec es s = Some (a, s') ->
  memory s' + owed s' <= memory s + total (made es) + owed s + 6 * asked es.
Proof.
  induction es as [|e es IH]; intros s a s' W V E; cbn [exec valid_events] in *.
  - inversion E; subst. cbn. lia.
  - destruct V as [V1 V2]. destruct (exec1_refines e s W V1) as (a1 & s1 & E1 & W1 & _). rewrite E1 in *.
    destruct (exec es s1) as [[a2 s2]|] eqn:E2; [|discriminate]. inversion E; subst.
    specialize (IH s1 a2 s' W1 V2 E2). pose proof (event_paid e s a1 s1 W V1 E1).
    change (made (e :: es)) with (makes e ++ made es). rewrite total_app.
    change (asked (e :: es)) with (asks e + asked es). lia.
Qed.

Lemma history_doubles es : forall s a s', WF s -> valid_events es s -> Forall keeps_left es -> exec es s = Some (a, s') ->
  exists k, (length (blocks s') = length (blocks s) + length (made es) + k)%nat /\ 2 ^ Z.of_nat k * (room s + 1) <= room s' + 1.
Proof.
  induction es as [|e es IH]; intros s a s' W V K E; cbn [exec valid_events] in *.
  - inversion E; subst. exists 0%nat. cbn [made flat_map length]. change (2 ^ Z.of_nat 0) with 1. lia.
  - destruct V as [V1 V2]. destruct (exec1_refines e s W V1) as (a1 & s1 & E1 & W1 & _). rewrite E1 in *.
    inversion K as [|? ? K1 K2]; subst.
    destruct (exec es s1) as [[a2 s2]|] eqn:E2; [|discriminate]. inversion E; subst.
    destruct (IH s1 a2 s' W1 V2 K2 E2) as (k & L & P). destruct (event_room e s a1 s1 W V1 E1) as [B R].
    pose proof (room_used s W) as U.
    change (made (e :: es)) with (makes e ++ made es). rewrite B, !app_length in *.
    assert (D : (length (grows s e) <= 1)%nat /\ 2 ^ Z.of_nat (length (grows s e)) * (room s + 1) <= room s1 + 1).
    { destruct e as [c|b i v|l]; cbn [room_step grows keeps_left] in *; [|cbn; lia|cbn; lia].
      destruct c; cbn [room_step grows keeps_left] in *; try contradiction; try (destruct o; cbn; lia); try (cbn; lia).
      destruct (Z.ltb_spec n 0), (Z.ltb_spec (room s - used s) n), (Z.leb_spec n (room s - used s)), (Z.ltb_spec maxAlloc (2 * (room s + n))),
        (Z.leb_spec (2 * (room s + n)) maxAlloc), (Z.leb_spec 0 n); cbn [andb orb length] in *; try lia. }
    exists (length (grows s e) + k)%nat. split; [lia|].
    rewrite Nat2Z.inj_add, Z.pow_add_r by lia. destruct D as [_ D].
    etransitivity; [|exact P]. rewrite <- Z.mul_assoc, (Z.mul_comm (2 ^ Z.of_nat k)), Z.mul_assoc, (Z.mul_comm _ (2 ^ Z.of_nat k)).
    apply Z.mul_le_mono_nonneg_l; [apply Z.pow_nonneg; lia|exact D].
Qed.

(** ** MiniBuffer *)

Lemma still_mini_bit off : still (V3Mini.ReadBit off).
Proof. unfold V3Mini.ReadBit. rest; auto with still. Qed.
Lemma still_mini_set off : still (V3Mini.SetBit off).
Proof. unfold V3Mini.SetBit. rest; auto with still. Qed.
Lemma still_mini_clear off : still (V3Mini.ClearBit off).
Proof. unfold V3Mini.ClearBit. rest; auto with still. Qed.
Lemma still_mini_flip off : still (V3Mini.FlipBit off).
Proof. unfold V3Mini.FlipBit. rest; auto with still. Qed.
Lemma still_mini_bits off n : still (V3Mini.ReadBits off n).
Proof. unfold V3Mini.ReadBits. rest; auto using still_mini_bit. Qed.
Lemma still_mini_setbits off d n : still (V3Mini.SetBits off d n).
Proof. unfold V3Mini.SetBits. rest; auto using still_mini_set, still_mini_clear. Qed.
Lemma still_mini_write off d : still (V3Mini.WriteBytes off d).
Proof. unfold V3Mini.WriteBytes, copy. rest; auto with still. Qed.
Lemma still_mini_read off n : still (V3Mini.ReadBytes off n).
Proof. unfold V3Mini.ReadBytes. rest; auto with still. Qed.
Lemma still_mini_WriteT t off d : still (MiniWriteT t off d).
Proof. rewrite MiniWriteT_canon. rest. apply still_stores. Qed.
Lemma still_mini_ReadT t off n : still (MiniReadT t off n).
Proof. rewrite MiniReadT_canon. rest. unfold mrbody. apply still_loads. intro. unfold set_elem. rest. Qed.
Lemma still_mini_seek off r : still (V3Mini.SeekByte off r).
Proof. unfold V3Mini.SeekByte. rest. Qed.
Lemma still_mini_seekbit off r : still (V3Mini.SeekBit off r).
Proof. unfold V3Mini.SeekBit. rest. Qed.
#[local] Hint Resolve still_mini_bit still_mini_set still_mini_clear still_mini_flip still_mini_bits still_mini_setbits
  still_mini_write still_mini_read still_mini_WriteT still_mini_ReadT still_mini_seek still_mini_seekbit : still.

Definition mini_fixed (c : call slice) : Prop :=
  match c with CTruncateLeft _ | CTruncateRight _ | CGrow _ | CReset => False | _ => True end.
Lemma still_mini_call c : mini_fixed c -> still (mini_call c).
Proof.
  intro F. destruct c as [off o|o| | | |off r|off r|off|off| | |n|n|n| | | | | | |]; try contradiction F; cbn [mini_call];
    unfold ret_unit, ret_int, ret_bytes, ret_nums, V3Mini.AfterBit, V3Mini.AfterByte, V3Mini.AlignBit, V3Mini.AlignByte, V3Mini.Refresh,
      V3Mini.Bytes, V3Mini.ByteCapacity, V3Mini.BitCapacity, V3Mini.ByteOffset, V3Mini.BitOffset,
      V3Mini.ClearAllBits, V3Mini.SetAllBits, V3Mini.FlipAllBits; try solve [try destruct off; rest; auto with still].
  - destruct o; cbn [mini_at]; unfold ret_unit, ret_int, ret_bytes, ret_nums, out_int, out_nums; solve [rest; auto with still].
  - destruct o; cbn [mini_next]; unfold ret_unit, ret_int, ret_bytes, ret_nums, out_int, out_nums;
      rewrite ?MiniWriteTNext_canon, ?MiniReadTNext_canon; unfold
      V3Mini.ReadBitNext, V3Mini.ReadBitsNext, V3Mini.SetBitNext, V3Mini.ClearBitNext, V3Mini.FlipBitNext, V3Mini.SetBitsNext,
      V3Mini.WriteBytesNext, V3Mini.ReadBytesNext; solve [rest; auto with still].
Qed.

Definition mini_room_step (e : mevent) (s s' : St) : Prop :=
  match e with
  | MCall (CGrow n) _ =>
      if n <=? room s - used s then room s' = room s /\ used s' <= Z.max (used s) (used s + n)
      else if 2 * (room s + n) <=? maxAlloc then room s' = 2 * (room s + n) /\ used s' = used s + n
      else room s' = room s /\ used s' = used s
  | MCall (CTruncateLeft n) _ => used s' <= used s /\ room s' - used s' = room s - used s /\ room s' <= room s
  | MCall (CTruncateRight n) _ => room s' = room s /\ used s' <= Z.max (used s) (used s - n)
  | MCall CReset _ => used s' <= used s /\ room s' = room s
  | _ => room s' = room s /\ used s' = used s
  end.

Lemma mini_event_room e s a s' : WF s -> valid_mevent s e -> mexec1 e s = Some (a, s') ->
  blocks s' = blocks s ++ mini_grows s e ++ mini_makes e /\ mini_room_step e s s'.
Proof.
  intros W V E.
  assert (F : forall c out, mini_fixed c -> mexec1 (MCall c out) s = Some (a, s') -> same_room s s').
  { intros c out Fc Ec. pose proof (run_still _ (still_mini_call c Fc) s (set_outs s out) (same_room_refl s)) as R. cbn [mexec1] in Ec.
    destruct (run (mini_call c) _); inversion Ec; subst; exact R. }
  assert (G : same_room s s' -> blocks s' = blocks s ++ [] ++ [] /\ (room s' = room s /\ used s' = used s)).
  { intros [R1 R2]. unfold room, used. rewrite R2, R1, !app_nil_r. auto. }
  destruct e as [c out|b i v|l].
  - pose proof (set_outs_WF s out W) as W'. pose proof (content_zlen s W) as CZ. change (content s) with (content (set_outs s out)) in CZ.
    pose proof (wf_lencap s W). pose proof (wf_len0 s W). destruct V as (_ & V & _).
    destruct c as [off o|o| | | |off r|off r|off|off| | |n|n|n| | | | | | |];
      try (apply G; eapply F; [|exact E]; exact I); cbn [mini_room_step mini_grows mini_makes]; cbn [mexec1 mini_call] in E; unfold ret_unit in E.
    + rewrite run_bind, mini_TruncateLeft in E by auto. unfold room, used.
      destruct ((0 <=? n) && _) eqn:C; inversion E; subst; rewrite !app_nil_r; (split; [reflexivity|]); cbn; lia.
    + rewrite run_bind, mini_TruncateRight in E by auto. unfold room, used.
      destruct ((0 <=? _) && _) eqn:C; inversion E; subst; rewrite !app_nil_r; (split; [reflexivity|]); cbn [with_slice set_bb bb b_buf resize s_cap s_len set_outs]; lia.
    + rewrite run_bind, mini_Grow in E by auto. rewrite CZ in E. change (b_buf (bb (set_outs s out))) with (b_buf (bb s)) in E.
      fold (room s) (used s) in *.
      destruct (Z.leb_spec n (room s - used s)).
      * replace (room s - used s <? n) with false by lia. cbn [andb].
        destruct (Z.leb_spec 0 (used s + n)); inversion E; subst; rewrite !app_nil_r; (split; [reflexivity|]); unfold room, used; cbn [with_slice set_bb bb b_buf resize s_cap s_len set_outs]; fold (room s) (used s); lia.
      * replace (room s - used s <? n) with true by lia. cbn [andb].
        destruct (Z.leb_spec (2 * (room s + n)) maxAlloc); inversion E; subst.
        -- unfold grown. rewrite blocks_with_slice, blocks_alloc, app_nil_r. split.
           ++ change (blocks (set_outs s out)) with (blocks s). do 2 f_equal. rewrite zlen_app, zlen_zeros by lia. lia.
           ++ unfold room, used; cbn [with_slice set_bb bb b_buf s_cap s_len]. rewrite CZ. auto.
        -- rewrite !app_nil_r. split; [reflexivity|]. split; reflexivity.
    + change V3Mini.Reset with V3Buffer.Reset in E. rewrite run_bind, run_Reset in E by auto. inversion E; subst.
      rewrite !app_nil_r. split; [reflexivity|]. unfold room, used. cbn. lia.
  - cbn [mexec1] in E. destruct (heap_write _ _ _ _) as [h|] eqn:Eh; inversion E; subst. apply G. split; [|reflexivity].
    exact (blocks_write _ _ _ _ _ Eh).
  - inversion E; subst. cbn [mini_grows mini_makes mini_room_step]. split; [apply blocks_alloc|]. split; reflexivity.
Qed.

Lemma mini_event_paid e s a s' : WF s -> valid_mevent s e -> mexec1 e s = Some (a, s') ->
  memory s' + owed s' <= memory s + total (mini_makes e) + owed s + 6 * mini_asks e.
Proof.
  intros W V E. destruct (mini_event_room e s a s' W V E) as [B R]. pose proof (room_used s W) as U.
  unfold memory. rewrite B, !total_app. unfold owed.
  destruct e as [c out|b i v|l]; cbn [mini_room_step mini_grows mini_asks mini_makes] in *; [|cbn; lia|cbn; lia].
  destruct c; cbn [mini_room_step mini_grows mini_asks mini_makes] in *; try (destruct o; cbn; lia); try (cbn [total fold_right]; lia).
  destruct (Z.leb_spec n (room s - used s)), (Z.ltb_spec (room s - used s) n), (Z.leb_spec (2 * (room s + n)) maxAlloc);
    cbn [andb orb] in *; try lia; cbn [total fold_right]; lia.
Qed.

Lemma mini_history_paid es : forall s a s', WF s -> valid_mevents es s -> mexec es s = Some (a, s') ->
  memory s' + owed s' <= memory s + total (mini_made es) + owed s + 6 * mini_asked es.
Proof.
  induction es as [|e es IH]; intros s a s' W V E; cbn [mexec valid_mevents] in *.
  - inversion E; subst. cbn. lia.
  - destruct V as [V1 V2]. destruct (mexec1_refines e s W V1) as (a1 & s1 & E1 & W1 & _). rewrite E1 in *.
    destruct (mexec es s1) as [[a2 s2]|] eqn:E2; [|discriminate]. inversion E; subst.
    specialize (IH s1 a2 s' W1 V2 E2). pose proof (mini_event_paid e s a1 s1 W V1 E1).
    change (mini_made (e :: es)) with (mini_makes e ++ mini_made es). rewrite total_app.
    change (mini_asked (e :: es)) with (mini_asks e + mini_asked es). lia.
Qed.

Lemma mini_history_doubles es : forall s a s', WF s -> valid_mevents es s -> Forall mini_keeps_left es -> mexec es s = Some (a, s') ->
  exists k, (length (blocks s') = length (blocks s) + length (mini_made es) + k)%nat /\ 2 ^ Z.of_nat k * (room s + 1) <= room s' + 1.
Proof.
  induction es as [|e es IH]; intros s a s' W V K E; cbn [mexec valid_mevents] in *.
  - inversion E; subst. exists 0%nat. cbn [mini_made flat_map length]. change (2 ^ Z.of_nat 0) with 1. lia.
  - destruct V as [V1 V2]. destruct (mexec1_refines e s W V1) as (a1 & s1 & E1 & W1 & _). rewrite E1 in *.
    inversion K as [|? ? K1 K2]; subst.
    destruct (mexec es s1) as [[a2 s2]|] eqn:E2; [|discriminate]. inversion E; subst.
    destruct (IH s1 a2 s' W1 V2 K2 E2) as (k & L & P). destruct (mini_event_room e s a1 s1 W V1 E1) as [B R].
    pose proof (room_used s W) as U.
    change (mini_made (e :: es)) with (mini_makes e ++ mini_made es). rewrite B, !app_length in *.
    assert (D : 2 ^ Z.of_nat (length (mini_grows s e)) * (room s + 1) <= room s1 + 1).
    { destruct e as [c out|b i v|l]; cbn [mini_room_step mini_grows mini_keeps_left] in *; [|cbn; lia|cbn; lia].
      destruct c; cbn [mini_room_step mini_grows mini_keeps_left] in *; try contradiction; try (destruct o; cbn; lia); try (cbn; lia).
      destruct (Z.leb_spec n (room s - used s)), (Z.ltb_spec (room s - used s) n), (Z.leb_spec (2 * (room s + n)) maxAlloc);
        cbn [andb orb length] in *; try lia. }
    exists (length (mini_grows s e) + k)%nat. split; [lia|].
    rewrite Nat2Z.inj_add, Z.pow_add_r by lia.
    etransitivity; [|exact P]. rewrite <- Z.mul_assoc, (Z.mul_comm (2 ^ Z.of_nat k)), Z.mul_assoc, (Z.mul_comm _ (2 ^ Z.of_nat k)).
    apply Z.mul_le_mono_nonneg_l; [apply Z.pow_nonneg; lia|exact D].
Qed.
