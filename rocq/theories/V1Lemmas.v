(** * V1Lemmas: the v1 [Buffer] methods evaluated on well-formed, unlocked states. *)
From Coq Require Import ZArith List Bool Lia ZifyBool.
From Verif Require Import GoSem Errors Spec GoLemmas BitLemmas CodecLemmas Typed V3BitLemmas V3ByteLemmas
  TypedCanon TypedLemmas TypedReadLemmas Calls Abs Frame Sim LockLemmas OldCalls V2Lemmas V2Agree V2Safe.
From Verif Require GoBinary V3Buffer V2Buffer V1Buffer V1Mini V2Mini.
Import ListNotations.
Open Scope Z_scope.

(** ** What v1 and v2 have in common, word for word *)

Lemma v1_ReadBit : V1Buffer.ReadBit = V2Buffer.ReadBit. Proof. reflexivity. Qed.
Lemma v1_SetBit : V1Buffer.SetBit = V2Buffer.SetBit. Proof. reflexivity. Qed.
Lemma v1_FlipBit : V1Buffer.FlipBit = V2Buffer.FlipBit. Proof. reflexivity. Qed.
Lemma v1_WriteBytes : V1Buffer.WriteBytes = V2Buffer.WriteBytes. Proof. reflexivity. Qed.
Lemma v1_WriteByte : V1Buffer.WriteByte = V2Buffer.WriteByte. Proof. reflexivity. Qed.
Lemma v1_ReadBytes : V1Buffer.ReadBytes = V2Buffer.ReadBytes. Proof. reflexivity. Qed.
Lemma v1_ReadByte : V1Buffer.ReadByte = V2Buffer.ReadByte. Proof. reflexivity. Qed.
Lemma v1_Seek : V1Buffer.Seek = V2Buffer.Seek. Proof. reflexivity. Qed.
Lemma v1_SeekBit : V1Buffer.SeekBit = V2Buffer.SeekBit. Proof. reflexivity. Qed.
Lemma v1_After : V1Buffer.After = V2Buffer.After. Proof. reflexivity. Qed.
Lemma v1_AfterBit : V1Buffer.AfterBit = V2Buffer.AfterBit. Proof. reflexivity. Qed.
Lemma v1_AlignBit : V1Buffer.AlignBit = V2Buffer.AlignBit. Proof. reflexivity. Qed.
Lemma v1_AlignByte : V1Buffer.AlignByte = V2Buffer.AlignByte. Proof. reflexivity. Qed.
Lemma v1_Refresh : V1Buffer.Refresh = V2Buffer.Refresh. Proof. reflexivity. Qed.
Lemma v1_Grow : V1Buffer.Grow = V2Buffer.Grow. Proof. reflexivity. Qed.
Lemma v1_NewBuffer : V1Buffer.NewBuffer = V2Buffer.NewBuffer. Proof. reflexivity. Qed.

(** ** Loops that may run zero times *)

Lemma v1_ReadBits off n s : is_i64 n ->
  run (V1Buffer.ReadBits off n) s = if n <=? 0 then Done 0 s else run (V2Buffer.ReadBits off n) s.
Proof.
  intro Hn. unfold V1Buffer.ReadBits, V1Buffer.readbits. destruct (Z.leb_spec n 0).
  - now apply for_loop_none.
  - unfold is_i64 in Hn. rewrite for_loop_goto by lia. reflexivity.
Qed.
Lemma v1_SetBits off data n s : is_i64 n ->
  run (V1Buffer.SetBits off data n) s = if n <=? 0 then Done tt s else run (V2Buffer.SetBits off data n) s.
Proof.
  intro Hn. unfold V1Buffer.SetBits, V1Buffer.setbits. destruct (Z.leb_spec n 0).
  - now apply for_loop_none.
  - unfold is_i64 in Hn. rewrite for_loop_goto by lia. reflexivity.
Qed.

Lemma run_locked_ext {A} (p q : prog A) s : lockfree p -> lockfree q -> mu s = false ->
  run p s = run q s -> run (locked p) s = run (locked q) s.
Proof. intros. now rewrite !run_locked. Qed.

Lemma v1_all (b : Z -> unit -> prog unit) s :
  WF s -> mu s = false -> (forall i a, lockfree (b i a)) ->
  run (locked (bind get_buf (fun sl => for_loop (s_len sl) b tt))) s =
  if zlen (content s) =? 0 then Done tt s
  else run (locked (bind get_buf (fun sl => goto_loop (s_len sl) b tt))) s.
Proof.
  intros W M L. rewrite !run_locked; auto.
  2: { apply lockfree_bind; [exact (fun _ => I)|intro; now apply lockfree_goto_loop]. }
  2: { apply lockfree_bind; [exact (fun _ => I)|intro; now apply lockfree_for_loop]. }
  cbn [get_buf bind run]. rewrite content_zlen by auto.
  pose proof (wf_len0 s W). pose proof (content_zlen s W) as CL. pose proof (content_max s W) as CM.
  rewrite max_alloc_val in CM.
  destruct (Z.eqb_spec (s_len (b_buf (bb s))) 0) as [E|E].
  - rewrite E. now apply for_loop_none.
  - apply for_loop_goto. lia.
Qed.
Lemma v1_ClearAllBits s : WF s -> mu s = false ->
  run V1Buffer.ClearAllBits s = if zlen (content s) =? 0 then Done tt s else run V2Buffer.ClearAllBits s.
Proof. intros. apply v1_all; auto. intros; lockfree_tac. Qed.
Lemma v1_SetAllBits s : WF s -> mu s = false ->
  run V1Buffer.SetAllBits s = if zlen (content s) =? 0 then Done tt s else run V2Buffer.SetAllBits s.
Proof. intros. apply v1_all; auto. intros; lockfree_tac. Qed.
Lemma v1_FlipAllBits s : WF s -> mu s = false ->
  run V1Buffer.FlipAllBits s = if zlen (content s) =? 0 then Done tt s else run V2Buffer.FlipAllBits s.
Proof. intros. apply v1_all; auto. intros; lockfree_tac. Qed.

(** ** WriteComplex *)

(** The dynamic value and byte order of a format. *)
Definition idata_of (t : uty) (l : list Z) : V1Buffer.idata :=
  match t with
  | NU16LE | NU16BE => V1Buffer.IU16 l | NU32LE | NU32BE => V1Buffer.IU32 l | NU64LE | NU64BE => V1Buffer.IU64 l
  end.
Definition order_of (t : uty) : endian :=
  match t with NU16LE | NU32LE | NU64LE => LE | NU16BE | NU32BE | NU64BE => BE end.

Definition puts (t : uty) (v : Z) : list Z :=
  match t with
  | NU16LE => GoBinary.put16 LE v | NU16BE => GoBinary.put16 BE v
  | NU32LE => GoBinary.put32 LE v | NU32BE => GoBinary.put32 BE v
  | NU64LE => GoBinary.put64 LE v | NU64BE => GoBinary.put64 BE v
  end.
Lemma puts_encode t v : puts t v = encode (fmt t) v.
Proof. rewrite <- svals_encode. destruct t; reflexivity. Qed.

Lemma run_slice_get s d i : wf_slice (heap s) d -> 0 <= i < s_len d ->
  run (slice_get d i) s = Done (byte_at (slice_bytes (heap s) d) i) s.
Proof.
  intros F Hi. unfold wf_slice in F. unfold slice_get. replace ((0 <=? i) && (i <? s_len d)) with true by lia.
  cbn [run]. rewrite heap_read_ok by lia. rewrite sub_one by lia. f_equal.
  unfold slice_bytes. rewrite byte_at_sub by lia. reflexivity.
Qed.

Definition digits (w : Z) : list Z := map Z.of_nat (seq 0 (Z.to_nat w)).
Lemma complex_bytes_canon t l :
  V1Buffer.complex_bytes (idata_of t l) (tsize (fmt t)) (order_of t) =
  (data <- make_bytes (tsize (fmt t) *! zlen l) (tsize (fmt t) *! zlen l) ;;
   V1Buffer.put_loop (tsize (fmt t)) (digits (tsize (fmt t)))
     (fun b v => GoBinary.store_all b 0 (puts t v)) data l ;;
   Ret data).
Proof. destruct t; reflexivity. Qed.

(** Several allocations. *)
Definition allocs (s : St) (ls : list (list Z)) : St := set_heap s (heap s ++ ls).
Lemma allocs_cons s a ls : allocs s (a :: ls) = allocs (alloc s a) ls.
Proof. unfold allocs, alloc; cbn [heap set_heap]. rewrite <- app_assoc. reflexivity. Qed.
Lemma allocs_snoc s a ls : allocs s (ls ++ [a]) = alloc (allocs s ls) a.
Proof. unfold allocs, alloc; cbn [heap set_heap]. rewrite app_assoc. reflexivity. Qed.
Lemma allocs_nil s : allocs s [] = s.
Proof. unfold allocs. rewrite app_nil_r. destruct s; reflexivity. Qed.
Definition small_bytes (l : list Z) : Prop := Forall is_byte l /\ zlen l <= maxAlloc.
Lemma allocs_WF ls : forall s, WF s -> Forall small_bytes ls -> WF (allocs s ls).
Proof.
  induction ls as [|a ls IH]; intros s W F. now rewrite allocs_nil.
  inversion F as [|? ? [H1 H2] F']; subst. rewrite allocs_cons. apply IH; auto. now apply alloc_WF.
Qed.
Lemma content_allocs s ls : WF s -> content (allocs s ls) = content s.
Proof.
  intro W. pose proof (wf_blk s W). unfold content, allocs, slice_bytes; cbn [heap set_heap bb].
  now rewrite app_nth1.
Qed.
Lemma allocs_with_content_becomes ls : forall s l, WF s -> Forall small_bytes ls -> zlen l = zlen (content s) ->
  becomes s l (with_content (allocs s ls) l).
Proof.
  induction ls as [|a ls IH]; intros s l W F L.
  - rewrite allocs_nil. now apply with_content_becomes.
  - inversion F as [|? ? [H1 H2] F']; subst. rewrite allocs_cons.
    apply (becomes_trans s (content s) (alloc s a)). now apply alloc_becomes.
    apply IH; auto. now apply alloc_WF. now rewrite content_alloc.
Qed.

(** Loads and stores in a block of its own. *)
Definition block (n : nat) (L : Z) : slice := mkSlice n 0 L L.
Definition fresh (s : St) (L : Z) : slice := block (length (heap s)) L.
Lemma put_mid (h : heap_t) a a' r : put (h ++ a :: r) (Z.of_nat (length h)) [a'] = h ++ a' :: r.
Proof.
  unfold put. rewrite Nat2Z.id, firstn_app, firstn_all, Nat.sub_diag, firstn_O, app_nil_r.
  simpl length. rewrite skipn_app, skipn_all2 by lia.
  replace (length h + 1 - length h)%nat with 1%nat by lia. reflexivity.
Qed.
Lemma slice_set_block s h a r L j x : zlen a = L -> 0 <= j < L ->
  run (slice_set (block (length h) L) j x) (set_heap s (h ++ a :: r)) = Done tt (set_heap s (h ++ put a j [x] :: r)).
Proof.
  intros HL Hj. unfold slice_set, block; cbn [s_len s_blk s_off].
  replace ((0 <=? j) && (j <? L)) with true by lia. cbn [run]. cbn [heap set_heap].
  assert (N : nth (length h) (h ++ a :: r) [] = a) by (rewrite app_nth2, Nat.sub_diag by lia; reflexivity).
  rewrite heap_write_ok; rewrite ?N; rewrite ?app_length; simpl length; change (zlen [x]) with 1; try lia.
  rewrite put_mid, Z.add_0_l. reflexivity.
Qed.
Lemma slice_get_block s h a r L j : zlen a = L -> 0 <= j < L ->
  run (slice_get (block (length h) L) j) (set_heap s (h ++ a :: r)) = Done (byte_at a j) (set_heap s (h ++ a :: r)).
Proof.
  intros HL Hj. 
  assert (N : nth (length h) (h ++ a :: r) [] = a) by (rewrite app_nth2, Nat.sub_diag by lia; reflexivity).
  rewrite run_slice_get.
  - f_equal. unfold slice_bytes, block; cbn [s_blk s_off s_len heap set_heap]. rewrite N. rewrite sub_all by lia. reflexivity.
  - unfold wf_slice, block; cbn [s_blk s_off s_len s_cap heap set_heap]. rewrite N, app_length. simpl length. lia.
  - cbn [block s_len]. lia.
Qed.
Lemma store_all_block s h r L xs : forall k a,
  zlen a = L -> 0 <= k -> k + zlen xs <= L ->
  run (GoBinary.store_all (block (length h) L) k xs) (set_heap s (h ++ a :: r)) = Done tt (set_heap s (h ++ put a k xs :: r)).
Proof.
  induction xs as [|x xs IH]; intros k a HL Hk Hs; cbn [GoBinary.store_all].
  - cbn [run]. now rewrite put_nil.
  - rewrite zlen_cons in *. pose proof (zlen_nonneg xs). rewrite run_bind, slice_set_block by lia.
    assert (Lp : zlen (put a k [x]) = L) by (rewrite put_length; auto; change (zlen [x]) with 1; lia).
    rewrite IH by lia. do 4 f_equal. change (x :: xs) with ([x] ++ xs). rewrite <- put_put_adj by (change (zlen [x]) with 1; lia).
    reflexivity.
Qed.
(** [data] is the block after [h], [tdata] the last one. *)
Lemma copy_digits_block s h r d w i n : forall k a,
  zlen d = w -> Z.of_nat k + Z.of_nat n = w -> w <= 8 -> 0 <= i * w <= 2 ^ 60 -> (i + 1) * w <= zlen a ->
  run (V1Buffer.copy_digits (block (length h) (zlen a)) (block (length (h ++ a :: r)) w) w i (map Z.of_nat (seq k n)))
      (set_heap s (h ++ a :: r ++ [d])) =
  Done tt (set_heap s (h ++ put a (Z.of_nat k + i * w) (sub d (Z.of_nat k) (Z.of_nat n)) :: r ++ [d])).
Proof.
  induction n as [|n IH]; intros k a Hd Hk Hw Hi Ha; cbn [seq map V1Buffer.copy_digits].
  - cbn [run]. replace (sub d (Z.of_nat k) (Z.of_nat 0)) with (@nil Z) by reflexivity. now rewrite put_nil.
  - rewrite mul64_id by (unfold is_i64; lia). rewrite add64_id by (unfold is_i64; lia).
    rewrite run_bind.
    replace (h ++ a :: r ++ [d]) with ((h ++ a :: r) ++ [d]) by (rewrite <- app_assoc; reflexivity).
    rewrite slice_get_block by lia.
    replace ((h ++ a :: r) ++ [d]) with (h ++ a :: r ++ [d]) by (rewrite <- app_assoc; reflexivity).
    rewrite run_bind, slice_set_block by lia.
    set (a1 := put a (Z.of_nat k + i * w) [byte_at d (Z.of_nat k)]).
    assert (L1 : zlen a1 = zlen a) by (apply put_length; change (zlen [byte_at d (Z.of_nat k)]) with 1; lia).
    rewrite <- L1. replace (length (h ++ a :: r)) with (length (h ++ a1 :: r)) by (rewrite !app_length; reflexivity).
    rewrite IH by lia. unfold a1. do 4 f_equal.
    replace (sub d (Z.of_nat k) (Z.of_nat (S n))) with ([byte_at d (Z.of_nat k)] ++ sub d (Z.of_nat (S k)) (Z.of_nat n)).
    + rewrite <- put_put_adj by (change (zlen [byte_at d (Z.of_nat k)]) with 1; rewrite ?sub_length; lia).
      change (zlen [byte_at d (Z.of_nat k)]) with 1. f_equal. lia.
    + replace (Z.of_nat (S n)) with (1 + Z.of_nat n) by lia.
      rewrite sub_app_split by lia. rewrite sub_one by lia. do 2 f_equal. lia.
Qed.

Lemma firstn_succ (l : list Z) i : 0 <= i < zlen l -> firstn (Z.to_nat (i + 1)) l = firstn (Z.to_nat i) l ++ [nth (Z.to_nat i) l 0].
Proof.
  intros H. replace (Z.to_nat (i + 1)) with (S (Z.to_nat i)) by lia. unfold zlen in H.
  assert (L : (Z.to_nat i < length l)%nat) by lia. revert L. clear H. generalize (Z.to_nat i) as n.
  induction l as [|x l IH]; intros n L; cbn [length] in L. lia. destruct n as [|n]. reflexivity.
  cbn [firstn nth app]. f_equal. apply IH. lia.
Qed.

(** The heap after the temporaries of WriteComplex: the encoding of the whole data,
    then that of each element. *)
Definition scratch (t : uty) (l : list Z) (s : St) : St :=
  allocs s (encode_all (fmt t) l :: map (encode (fmt t)) l).

(** The byte slice WriteComplex builds. *)
Theorem run_complex_bytes t l s : wf_data (tsize (fmt t)) l ->
  run (V1Buffer.complex_bytes (idata_of t l) (tsize (fmt t)) (order_of t)) s =
  Done (fresh s (zlen l * tsize (fmt t))) (scratch t l s).
Proof.
  intro Hd. pose proof (tsize_pos (fmt t)) as TP. pose proof (zlen_nonneg l) as Ln.
  assert (T8 : tsize (fmt t) <= 8) by lia.
  unfold wf_data in Hd. pose proof max_alloc_val as MV. rewrite complex_bytes_canon.
  set (w := tsize (fmt t)) in *.
  assert (0 <= zlen l * w) by (apply Z.mul_nonneg_nonneg; lia).
  rewrite mul64_id by (unfold is_i64; lia). replace (w * zlen l) with (zlen l * w) by ring.
  set (N := zlen l * w) in *. unfold make_bytes.
  replace ((0 <=? N) && (N <=? N) && (N <=? maxAlloc)) with true by lia.
  cbn [bind run]. change (mkSlice (length (heap s)) 0 N N) with (fresh s N).
  change (set_heap s (heap s ++ [zeros N])) with (allocs s [zeros N]).
  rewrite run_bind. unfold V1Buffer.put_loop.
  assert (Z0 : zlen (zeros N) = N) by (apply zlen_zeros; lia).
  destruct (Z.eq_dec (zlen l) 0) as [E|E].
  - rewrite for_loop_none by lia. destruct l as [|x l']. 2: { unfold zlen in E; simpl in E; lia. }
    unfold N. reflexivity.
  - rewrite for_loop_goto by lia.
    set (body := fun (i : Z) (_ : unit) => tdata <- lit_bytes (map (fun _ => 0) (digits w)) ;; d <- elem l i ;;
      GoBinary.store_all tdata 0 (puts t d) ;; V1Buffer.copy_digits (fresh s N) tdata w i (digits w)).
    destruct (goto_loop_inv (fun i (_ : unit) s' => s' = allocs s
        (put (zeros N) 0 (encode_all (fmt t) (firstn (Z.to_nat i) l)) :: map (encode (fmt t)) (firstn (Z.to_nat i) l)))
      body (zlen l) tt (allocs s [zeros N])) as ([] & s' & R & I).
    + lia.
    + intros i [] s1 Hi ->. exists tt. eexists.
      assert (0 <= i * w) by (apply Z.mul_nonneg_nonneg; lia).
      assert ((i + 1) * w <= N) by (unfold N; apply Z.mul_le_mono_nonneg_r; lia).
      assert (Ew : (i + 1) * w = i * w + w) by ring.
      set (pre := firstn (Z.to_nat i) l).
      assert (Le : zlen (encode_all (fmt t) pre) = i * w).
      { unfold pre. rewrite encode_all_zlen, firstn_zlen by lia. reflexivity. }
      set (a := put (zeros N) 0 (encode_all (fmt t) pre)).
      assert (La : zlen a = N) by (unfold a; rewrite put_length; lia).
      set (r := map (encode (fmt t)) pre).
      unfold body. rewrite run_lit_bytes. unfold alloc, allocs; cbn [heap set_heap].
      set (z0 := map (fun _ : Z => 0) (digits w)).
      assert (Lz : zlen z0 = w).
      { unfold z0, digits, zlen. rewrite !map_length, seq_length. lia. }
      rewrite Lz. change (mkSlice (length (heap s ++ a :: r)) 0 w w) with (block (length (heap s ++ a :: r)) w).
      rewrite elem_ok by lia. rewrite run_bind. set (v := nth (Z.to_nat i) l 0). rewrite puts_encode.
      change (set_heap (set_heap s (heap s ++ a :: r)) ((heap s ++ a :: r) ++ [z0]))
        with (set_heap s ((heap s ++ a :: r) ++ [z0])).
      rewrite store_all_block by (rewrite ?encode_zlen; fold w; lia).
      assert (Pz : put z0 0 (encode (fmt t) v) = encode (fmt t) v).
      { assert (LE : zlen (encode (fmt t) v) = w) by apply encode_zlen. unfold put. change (Z.to_nat 0) with O. cbn [firstn app].
        rewrite skipn_all2 by (unfold zlen in *; simpl; lia). apply app_nil_r. }
      rewrite Pz.
      replace ((heap s ++ a :: r) ++ [encode (fmt t) v]) with (heap s ++ a :: r ++ [encode (fmt t) v])
        by (rewrite <- app_assoc; reflexivity).
      unfold fresh, digits. rewrite <- La at 1.
      rewrite copy_digits_block by (rewrite ?encode_zlen; fold w; lia).
      split; [reflexivity|]. unfold allocs. f_equal. f_equal.
      change (Z.of_nat 0) with 0. rewrite Z2Nat.id by lia.
      assert (LE : zlen (encode (fmt t) v) = w) by apply encode_zlen.
      rewrite (sub_all _ w) by (rewrite encode_zlen; fold w; lia).
      rewrite encode_all_firstn_S by lia. f_equal.
      * fold v. fold pre. rewrite <- put_put_adj by lia. rewrite Le. f_equal.
      * unfold v. rewrite (firstn_succ l i) by lia. rewrite map_app. reflexivity.
    + change (Z.to_nat 0) with O. cbn [firstn encode_all flat_map map]. now rewrite put_nil.
    + rewrite R. cbn [run]. f_equal. rewrite I. unfold scratch.
      replace (Z.max 1 (zlen l)) with (zlen l) by lia.
      rewrite (firstn_all2 l) by (unfold zlen; lia).
      rewrite put_zeros by (rewrite encode_all_zlen; fold w N; lia).
      rewrite encode_all_zlen. fold w N. rewrite Z.sub_diag. cbn [zeros]. now rewrite app_nil_r.
Qed.

Lemma scratch_small t l : wf_data (tsize (fmt t)) l -> Forall small_bytes (encode_all (fmt t) l :: map (encode (fmt t)) l).
Proof.
  intros Hd. unfold wf_data in Hd. pose proof max_alloc_val. constructor.
  - split. apply encode_all_bytes. rewrite encode_all_zlen. exact Hd.
  - apply Forall_forall. intros x Hx. apply in_map_iff in Hx as (v & <- & _). split. apply encode_bytes.
    rewrite encode_zlen. pose proof (tsize_pos (fmt t)). lia.
Qed.
Lemma scratch_WF t l s : WF s -> wf_data (tsize (fmt t)) l -> WF (scratch t l s).
Proof. intros. apply allocs_WF; auto. now apply scratch_small. Qed.

(** v1 WriteComplex stores the encoding that v3 stores, through temporaries. *)
Theorem v1_WriteComplex t s off l :
  WF s -> mu s = false -> is_i64 off -> wf_data (tsize (fmt t)) l ->
  run (V1Buffer.WriteComplex off (idata_of t l) (tsize (fmt t)) (order_of t)) s =
  let s1 := scratch t l s in
  if zlen (content s) <? off + zlen l * tsize (fmt t)
  then (if off + zlen l * tsize (fmt t) <? 2 ^ 63 then Panicked BufferOverwriteError s1
        else Panicked index_err (set_mu s1 true))
  else if off <? 0 then Panicked BufferUnderwriteError s1
  else if zlen l =? 0 then Panicked index_err (set_mu s1 true)
  else Done tt (with_content s1 (put (content s) off (encode_all (fmt t) l))).
Proof.
  intros W M Ho Hd. unfold V1Buffer.WriteComplex, V1Buffer.writeComplex.
  rewrite run_bind, run_complex_bytes by auto. cbv zeta.
  assert (EZ : zlen (encode_all (fmt t) l) = zlen l * tsize (fmt t)) by apply encode_all_zlen.
  pose proof (tsize_pos (fmt t)) as TP. pose proof (zlen_nonneg l).
  assert (W1 : WF (scratch t l s)) by now apply scratch_WF.
  assert (F : wf_slice (heap (scratch t l s)) (fresh s (zlen l * tsize (fmt t))) /\
              slice_bytes (heap (scratch t l s)) (fresh s (zlen l * tsize (fmt t))) = encode_all (fmt t) l).
  { unfold scratch, allocs, fresh, block, wf_slice, slice_bytes; cbn [heap set_heap s_blk s_off s_len s_cap].
    rewrite app_length, app_nth2, Nat.sub_diag by lia. cbn [nth length]. rewrite EZ.
    split. nia. rewrite <- EZ. apply sub_all. lia. }
  destruct F as [F1 F2].
  change (V1Buffer.write off) with (V2Buffer.WriteBytes off). rewrite v2_WriteBytes by auto.
  rewrite F2. assert (C1 : content (scratch t l s) = content s) by now apply content_allocs. rewrite C1.
  cbn [fresh block s_len]. rewrite smear_clean.
  - replace (zlen l * tsize (fmt t) =? 0) with (zlen l =? 0) by nia. reflexivity.
  - left. unfold lag. cbn [fresh block s_blk]. pose proof (wf_blk s W). change (bb (scratch t l s)) with (bb s).
    destruct (Nat.eqb_spec (length (heap s)) (s_blk (b_buf (bb s)))); auto. lia.
Qed.

(** Size 1: the argument is the byte slice itself. *)
Theorem v1_WriteComplex_bytes off d e : 
  V1Buffer.WriteComplex off (V1Buffer.IBytes d) 1 e = V1Buffer.WriteBytes off d.
Proof. reflexivity. Qed.

(** ** ReadComplex *)


Definition uints (t : uty) (sl : slice) : prog Z :=
  match t with
  | NU16LE => GoBinary.uint16 LE sl | NU16BE => GoBinary.uint16 BE sl
  | NU32LE => GoBinary.uint32 LE sl | NU32BE => GoBinary.uint32 BE sl
  | NU64LE => GoBinary.uint64 LE sl | NU64BE => GoBinary.uint64 BE sl
  end.

Lemma run_uints t s sl : wf_heap (heap s) -> wf_slice (heap s) sl -> s_len sl = tsize (fmt t) ->
  run (uints t sl) s = Done (decode (fmt t) (slice_bytes (heap s) sl)) s.
Proof.
  intros WH F L.
  assert (Hb : Forall is_byte (slice_bytes (heap s) sl)) by now apply wf_slice_bytes.
  pose proof (wf_slice_bytes_zlen _ _ F) as HL. rewrite L in HL.
  pose proof (rlayout_bytes (fmt t) (slice_bytes (heap s) sl) 0 ltac:(lia) ltac:(lia)) as RL.
  rewrite (sub_all (slice_bytes (heap s) sl)) in RL by lia.
  assert (HR : Forall is_byte (map (fun k => byte_at (slice_bytes (heap s) sl) (0 + k)) (rlayout (fmt t)))).
  { rewrite RL. destruct (ty_endian _); auto. now apply Forall_rev. }
  assert (D1 : comb0 (is_signed (fmt t)) (bits_of (fmt t)) (map (fun k => byte_at (slice_bytes (heap s) sl) (0 + k)) (rlayout (fmt t)))
     = decode (fmt t) (slice_bytes (heap s) sl)).
  { rewrite comb0_decode; auto. rewrite RL. destruct (ty_endian _); rewrite ?rev_involutive; auto.
    rewrite RL. destruct (ty_endian _); rewrite ?zlen_rev; auto. }
  rewrite <- D1. clear D1 HR RL.
  assert (G : forall (A : Type) i (k : Z -> prog A), 0 <= i < tsize (fmt t) ->
     run (bind (slice_get sl i) k) s = run (k (byte_at (slice_bytes (heap s) sl) i)) s).
  { intros A i k Hi. rewrite run_bind, run_slice_get by (auto; lia). reflexivity. }
  destruct t; cbn [uints]; unfold GoBinary.uint16, GoBinary.uint32, GoBinary.uint64;
    repeat (rewrite G by (vm_compute; split; [discriminate|reflexivity])); reflexivity.
Qed.

Definition nums_of (t : uty) (x : V1Buffer.idata) : option (list Z) :=
  match t, x with
  | (NU16LE | NU16BE), V1Buffer.IU16 l => Some l
  | (NU32LE | NU32BE), V1Buffer.IU32 l => Some l
  | (NU64LE | NU64BE), V1Buffer.IU64 l => Some l
  | _, _ => None
  end.

Lemma readComplex_canon t off n :
  V1Buffer.ReadComplex off n (tsize (fmt t)) (order_of t) =
  (data <- V1Buffer.read off n ;;
   l <- V1Buffer.decode_loop (tsize (fmt t)) (uints t) data n ;; Ret (idata_of t l)).
Proof. destruct t; reflexivity. Qed.

(** All bytes reachable from the buffer: its content and the spare capacity. *)
Lemma region_sub s off n :
  WF s -> 0 <= off -> 0 <= n -> off + n <= s_cap (b_buf (bb s)) ->
  sub (nth (s_blk (b_buf (bb s))) (heap s) []) (s_off (b_buf (bb s)) + off) n = sub (content s ++ spare s) off n.
Proof.
  intros W Ho Hn Hl. rewrite <- array_split by auto. pose proof (wf_off0 s W). rewrite sub_sub by lia. reflexivity.
Qed.

Lemma run_decode_loop t s off n :
  WF s -> 0 <= off -> 0 <= n -> off + n <= s_cap (b_buf (bb s)) ->
  run (V1Buffer.decode_loop (tsize (fmt t)) (uints t) (window (b_buf (bb s)) off n) n) s =
  if maxAlloc <? n * tsize (fmt t) then Panicked make_err s
  else if off + n * tsize (fmt t) <=? zlen (content s ++ spare s)
  then Done (decode_all (fmt t) (content s ++ spare s) off (Z.to_nat n)) s
  else Panicked slice_err s.
Proof.
  intros W Ho Hn Hl. pose proof (tsize_pos (fmt t)) as TP. pose proof max_alloc_val as MV.
  set (w := tsize (fmt t)) in *. set (b := b_buf (bb s)) in *.
  assert (RZ : zlen (content s ++ spare s) = s_cap b).
  { rewrite zlen_app, spare_zlen, content_zlen by auto. unfold b. lia. }
  pose proof (wf_cap_max s W) as CM. pose proof (wf_blk s W) as Hb. pose proof (wf_off0 s W) as O0.
  pose proof (wf_in s W) as IN. pose proof (wf_lencap s W) as LC. pose proof (content_zlen s W) as CL. fold b in CM, Hb, O0, IN, LC, CL.
  unfold V1Buffer.decode_loop. unfold w. rewrite make_elems_run. fold w.
  replace (n <? 0) with false by lia. cbn [orb]. fold w. destruct (Z.ltb_spec maxAlloc (n * w)) as [|HM]; auto.
  rewrite RZ.
  assert (ST : forall i acc, 0 <= i < n ->
     run (s0 <- reslice (window b off n) (i *! w) ((i +! 1) *! w) ;; x <- uints t s0 ;; set_elem acc i x) s =
     if off + (i + 1) * w <=? s_cap b
     then run (set_elem acc i (decode (fmt t) (sub (content s ++ spare s) (off + i * w) w))) s
     else Panicked slice_err s).
  { intros i acc Hi.
    assert (0 <= i * w) by (apply Z.mul_nonneg_nonneg; lia).
    assert ((i + 1) * w <= n * w) by (apply Z.mul_le_mono_nonneg_r; lia).
    assert (Ew : (i + 1) * w = i * w + w) by ring.
    rewrite (add64_id i 1) by (unfold is_i64; lia).
    rewrite (mul64_id i w) by (unfold is_i64; lia). rewrite (mul64_id (i + 1) w) by (unfold is_i64; lia).
    unfold reslice, window; cbn [s_cap s_blk s_off].
    destruct (Z.leb_spec (off + (i + 1) * w) (s_cap b)).
    - replace ((0 <=? i * w) && (i * w <=? (i + 1) * w) && ((i + 1) * w <=? s_cap b - off)) with true by lia.
      cbn [bind run]. rewrite run_bind. rewrite run_uints.
      + unfold slice_bytes; cbn [s_blk s_off s_len].
        replace ((i + 1) * w - i * w) with w by lia.
        replace (s_off b + off + i * w) with (s_off b + (off + i * w)) by lia.
        unfold b. rewrite region_sub by (auto; fold b; lia). reflexivity.
      + apply (wf_h s W).
      + unfold wf_slice; cbn [s_blk s_off s_len s_cap]. lia.
      + cbn [s_len]. fold w. lia.
    - replace ((0 <=? i * w) && (i * w <=? (i + 1) * w) && ((i + 1) * w <=? s_cap b - off)) with false by lia.
      reflexivity. }
  destruct (Z.eq_dec n 0) as [->|Nz].
  { rewrite for_loop_none by lia. replace (off + 0 * w <=? s_cap b) with true by lia. reflexivity. }
  rewrite for_loop_goto by lia.
  set (body := fun i a => s0 <- reslice (window b off n) (i *! w) ((i +! 1) *! w) ;; x <- uints t s0 ;; set_elem a i x).
  assert (ZL : zlen (zeros n) = n) by (apply zlen_zeros; lia).
  set (R := content s ++ spare s) in *.
  set (inv := fun i (out : list Z) s' => s' = s /\ out = put (zeros n) 0 (decode_all (fmt t) R off (Z.to_nat i))).
  assert (SI : forall i acc s1, 0 <= i < n -> off + (i + 1) * w <= s_cap b -> inv i acc s1 ->
     exists acc' s', run (body i acc) s1 = Done acc' s' /\ inv (i + 1) acc' s').
  { intros i acc s1 Hi Hc [-> ->]. unfold body. rewrite ST by auto. replace (off + (i + 1) * w <=? s_cap b) with true by lia.
    assert (LD : zlen (decode_all (fmt t) R off (Z.to_nat i)) = i) by (unfold zlen; rewrite decode_all_length; lia).
    rewrite set_elem_ok by (rewrite put_length; lia).
    eexists. eexists. split. reflexivity. split; auto.
    rewrite decode_all_S by lia. apply put_put_snoc; lia. }
  destruct (Z.leb_spec (off + n * w) (s_cap b)) as [F|F].
  - destruct (goto_loop_inv inv body n (zeros n) s) as (out & s' & RR & -> & I).
    + lia.
    + intros i acc s1 Hi Iv. apply SI; auto. lia.
      assert ((i + 1) * w <= n * w) by (apply Z.mul_le_mono_nonneg_r; lia). lia.
    + split; auto.
    + rewrite RR, I. f_equal. replace (Z.max 1 n) with n by lia.
      assert (LD : zlen (decode_all (fmt t) R off (Z.to_nat n)) = n) by (unfold zlen; rewrite decode_all_length; lia).
      rewrite put_zeros by lia. rewrite LD, Z.sub_diag. apply app_nil_r.
  - assert (Hm : 0 <= (s_cap b - off) / w < n).
    { split. apply Z.div_pos; lia. apply Z.div_lt_upper_bound; lia. }
    destruct (goto_loop_panic inv body n ((s_cap b - off) / w) slice_err (fun s' => s' = s) (zeros n) s) as (s' & RR & I).
    + lia.
    + lia.
    + intros i acc s1 Hi Iv. apply SI; auto. lia.
      assert ((i + 1) * w <= (s_cap b - off) / w * w) by (apply Z.mul_le_mono_nonneg_r; lia).
      assert ((s_cap b - off) / w * w <= s_cap b - off) by (rewrite Z.mul_comm; apply Z.mul_div_le; lia). lia.
    + intros acc s1 [-> ->]. exists s. split; auto. unfold body. rewrite ST by lia.
      assert (s_cap b - off < ((s_cap b - off) / w + 1) * w).
      { pose proof (Z.mul_succ_div_gt (s_cap b - off) w). lia. }
      replace (off + ((s_cap b - off) / w + 1) * w <=? s_cap b) with false by lia. reflexivity.
    + split; auto.
    + rewrite RR, I. reflexivity.
Qed.

(** v1 ReadComplex: the range check is for [n] bytes, the loop needs [n] elements. *)
Theorem v1_ReadComplex t s off n :
  WF s -> mu s = false -> is_i64 off -> is_i64 n ->
  run (V1Buffer.ReadComplex off n (tsize (fmt t)) (order_of t)) s =
  match run (V3Buffer.ReadBytes off n) s with
  | Done _ _ =>
      if maxAlloc <? n * tsize (fmt t) then Panicked make_err s
      else if off + n * tsize (fmt t) <=? zlen (content s ++ spare s)
      then Done (idata_of t (decode_all (fmt t) (content s ++ spare s) off (Z.to_nat n))) s
      else Panicked slice_err s
  | Panicked e s' => Panicked e s'
  | Deadlock s' => Deadlock s'
  | Stuck => Stuck
  end.
Proof.
  intros W M Ho Hn. rewrite readComplex_canon, run_bind.
  change (V1Buffer.read off n) with (V2Buffer.ReadBytes off n). rewrite v2_ReadBytes by auto.
  pose proof (run_ReadBytes_raw s off n W) as R. pose proof (content_max s W) as CM. rewrite max_alloc_val in CM.
  pose proof (zlen_nonneg (content s)).
  destruct (off +! n >? zlen (content s)) eqn:E1. { now rewrite R. }
  destruct (Z.ltb_spec off 0). { now rewrite R. }
  destruct (Z.leb_spec off (off +! n)); [|now rewrite R].
  rewrite R. assert (Hw : off +! n = off + n /\ 0 <= n).
  { unfold add64, wrap64, is_i64 in *. destruct (Z_lt_dec n 0); lia. }
  destruct Hw as [Ew Hn0]. rewrite Ew in *. replace (off + n - off) with n by lia.
  pose proof (content_zlen s W). pose proof (wf_lencap s W).
  rewrite run_bind, run_decode_loop by (auto; lia).
  destruct (_ <? _); auto. destruct (_ <=? _); auto.
Qed.

Theorem v1_ReadComplex_bytes off n e s : mu s = false ->
  run (V1Buffer.ReadComplex off n 1 e) s =
  match run (V3Buffer.ReadBytes off n) s with
  | Done d s' => Done (V1Buffer.IBytes d) s'
  | Panicked e s' => Panicked e s'
  | Deadlock s' => Deadlock s'
  | Stuck => Stuck
  end.
Proof.
  intro M. change (V1Buffer.ReadComplex off n 1 e) with (d <- V2Buffer.ReadBytes off n ;; Ret (V1Buffer.IBytes d)).
  rewrite run_bind, v2_ReadBytes by auto. destruct (run _ s); auto.
Qed.

(** Any other size. *)
Definition valid_size (z : Z) : bool := (z =? 1) || (z =? 2) || (z =? 4) || (z =? 8).
Theorem v1_WriteComplex_size off x z e s : valid_size z = false ->
  run (V1Buffer.WriteComplex off x z e) s = Panicked BufferInvalidIntegerSizeError s.
Proof.
  unfold valid_size. intro H. unfold V1Buffer.WriteComplex, V1Buffer.writeComplex, V1Buffer.complex_bytes,
    V1Buffer.Unsigned8, V1Buffer.Unsigned16, V1Buffer.Unsigned32, V1Buffer.Unsigned64.
  replace (z =? 1) with false by lia. replace (z =? 2) with false by lia.
  replace (z =? 4) with false by lia. replace (z =? 8) with false by lia. reflexivity.
Qed.
Theorem v1_ReadComplex_size off n z e s : mu s = false -> valid_size z = false ->
  run (V1Buffer.ReadComplex off n z e) s =
  match run (V3Buffer.ReadBytes off n) s with
  | Done d s' => Panicked BufferInvalidIntegerSizeError s'
  | Panicked e s' => Panicked e s'
  | Deadlock s' => Deadlock s'
  | Stuck => Stuck
  end.
Proof.
  unfold valid_size. intros M H. unfold V1Buffer.ReadComplex, V1Buffer.readComplex,
    V1Buffer.Unsigned8, V1Buffer.Unsigned16, V1Buffer.Unsigned32, V1Buffer.Unsigned64.
  change (V1Buffer.read off n) with (V2Buffer.ReadBytes off n).
  rewrite run_bind, v2_ReadBytes by auto. destruct (run _ s); auto.
  replace (z =? 1) with false by lia. replace (z =? 2) with false by lia.
  replace (z =? 4) with false by lia. replace (z =? 8) with false by lia. reflexivity.
Qed.

(** A dynamic type that is not the one of the size. *)
Definition right_type (z : Z) (x : V1Buffer.idata) : bool :=
  match x with
  | V1Buffer.IBytes _ => z =? 1 | V1Buffer.IU16 _ => z =? 2
  | V1Buffer.IU32 _ => z =? 4 | V1Buffer.IU64 _ => z =? 8 | V1Buffer.IOther => false
  end.
Theorem v1_WriteComplex_type off x z e s : valid_size z = true -> right_type z x = false ->
  run (V1Buffer.WriteComplex off x z e) s = Panicked (RuntimeError TypeAssertion) s.
Proof.
  unfold valid_size. intros H T.
  assert (z = 1 \/ z = 2 \/ z = 4 \/ z = 8) as [-> | [-> | [-> | ->]]] by lia;
    destruct x; cbn in T; try discriminate; reflexivity.
Qed.
