(** * V3ByteLemmas: the byte methods of v3 evaluated on well-formed states. *)
From Coq Require Import ZArith List Bool Lia ZifyBool.
From Verif Require Import GoSem Errors Spec GoLemmas BitLemmas V3BitLemmas.
From Verif Require V3Buffer V3Mini.
Import ListNotations.
Open Scope Z_scope.

Notation slice_err := (RuntimeError SliceOutOfRange).
Notation index_err := (RuntimeError IndexOutOfRange).
Notation make_err := (RuntimeError MakeLenOutOfRange).

(** ** Slices in memory *)

Lemma wf_slice_bytes_zlen h d : wf_slice h d -> zlen (slice_bytes h d) = s_len d.
Proof.
  intros (Hb & Ho & Hl & Hc). unfold slice_bytes. apply sub_length; lia.
Qed.

Lemma wf_slice_bytes h d : wf_heap h -> wf_slice h d -> Forall is_byte (slice_bytes h d).
Proof.
  intros Hh (Hb & _). unfold slice_bytes. apply Forall_sub.
  unfold wf_heap in Hh. rewrite Forall_forall in Hh. apply Hh. apply nth_In. auto.
Qed.

Lemma wf_slice_cap_max h d : wf_heap h -> wf_slice h d -> 0 <= s_len d <= s_cap d /\ s_cap d <= maxAlloc.
Proof.
  intros Hh (Hb & Ho & Hl & Hc). split; auto.
  unfold wf_heap in Hh. rewrite Forall_forall in Hh.
  destruct (Hh (nth (s_blk d) h [])) as [_ H]. apply nth_In; auto. lia.
Qed.

Lemma nth_alloc_old (h : heap_t) l b : (b < length h)%nat -> nth b (h ++ [l]) [] = nth b h [].
Proof. intro. apply app_nth1. auto. Qed.
Lemma nth_alloc_new (h : heap_t) l : nth (length h) (h ++ [l]) [] = l.
Proof. rewrite app_nth2 by lia. rewrite Nat.sub_diag. reflexivity. Qed.

Lemma wf_slice_alloc h l d : wf_slice h d -> wf_slice (h ++ [l]) d.
Proof.
  intros (Hb & Ho & Hl & Hc). unfold wf_slice. rewrite app_length, nth_alloc_old by auto.
  repeat split; auto; lia.
Qed.

Lemma slice_bytes_alloc h l d : wf_slice h d -> slice_bytes (h ++ [l]) d = slice_bytes h d.
Proof. intros (Hb & _). unfold slice_bytes. rewrite nth_alloc_old by auto. auto. Qed.

Lemma wf_heap_alloc h l : wf_heap h -> Forall is_byte l -> zlen l <= maxAlloc -> wf_heap (h ++ [l]).
Proof. intros. unfold wf_heap. apply Forall_app. split; auto. Qed.

Lemma alloc_WF s l : WF s -> Forall is_byte l -> zlen l <= maxAlloc -> WF (alloc s l).
Proof.
  intros W H1 H2. destruct W. constructor; auto.
  - apply wf_heap_alloc; auto.
  - apply wf_slice_alloc; auto.
Qed.

Lemma content_alloc s l : WF s -> content (alloc s l) = content s.
Proof. intro W. unfold content, alloc; simpl. apply slice_bytes_alloc. apply W. Qed.

(** ** copy *)

Lemma run_copy_into s off d :
  WF s -> wf_slice (heap s) d -> 0 <= off <= zlen (content s) ->
  run (bind (reslice (b_buf (bb s)) off (s_len (b_buf (bb s)))) (fun dst => copy dst d)) s =
  Done tt (with_content s (put (content s) off
      (sub (slice_bytes (heap s) d) 0 (Z.min (zlen (content s) - off) (s_len d))))).
Proof.
  intros W Hd Ho.
  pose proof (content_zlen s W) as CL. pose proof (wf_blk s W). pose proof (wf_off0 s W).
  pose proof (wf_in s W). pose proof (wf_lencap s W). pose proof (wf_len0 s W).
  set (b := b_buf (bb s)) in *.
  unfold reslice. replace ((0 <=? off) && (off <=? s_len b) && (s_len b <=? s_cap b)) with true by lia.
  simpl.
  destruct Hd as (Hb & Hdo & Hl & Hc).
  rewrite heap_read_ok by (auto; lia).
  assert (SL : zlen (sub (nth (s_blk d) (heap s) []) (s_off d) (Z.min (s_len b - off) (s_len d)))
               = Z.min (s_len b - off) (s_len d)) by (apply sub_length; lia).
  rewrite heap_write_ok by (auto; lia).
  f_equal. unfold with_content. fold b. f_equal. f_equal. f_equal.
  unfold content, slice_bytes. fold b.
  rewrite sub_length by lia. rewrite sub_sub by lia. rewrite Z.add_0_r.
  rewrite put_window; try lia. reflexivity.
Qed.

(** ** WriteBytes *)

Lemma mini_WriteBytes s off d :
  WF s -> wf_slice (heap s) d ->
  run (V3Mini.WriteBytes off d) s =
  if (0 <=? off) && (off <=? zlen (content s)) then
    Done tt (with_content s (put (content s) off
      (sub (slice_bytes (heap s) d) 0 (Z.min (zlen (content s) - off) (s_len d)))))
  else Panicked slice_err s.
Proof.
  intros W Hd. unfold V3Mini.WriteBytes. cbn [get_buf bind run].
  destruct ((0 <=? off) && (off <=? zlen (content s))) eqn:E.
  - apply run_copy_into; auto. lia.
  - rewrite content_zlen in E by auto. pose proof (wf_lencap s W).
    unfold reslice. replace ((0 <=? off) && _ && _) with false by lia. reflexivity.
Qed.

Lemma check_range {A} s off n W0 (e1 e2 : err) (k : prog A) :
  WF s -> W0 = off +! n ->
  run (bind (get FCap) (fun cap => bind (panic_if (W0 >? cap) e1)
         (fun _ => bind (panic_if (off <? 0) e2) (fun _ => k)))) s =
  if off +! n >? zlen (content s) then Panicked e1 s
  else if off <? 0 then Panicked e2 s else run k s.
Proof.
  intros W ->. cbn [get bind run get_fld]. rewrite cap_is by auto.
  rewrite run_panic_if_bind. destruct (off +! n >? zlen (content s)); auto.
  rewrite run_panic_if_bind. destruct (off <? 0); auto.
Qed.

(** With the bound computed in int64: *)
Lemma run_WriteBytes_raw s off d :
  WF s -> wf_slice (heap s) d -> is_i64 off ->
  run (V3Buffer.WriteBytes off d) s =
  if off +! s_len d >? zlen (content s) then Panicked BufferOverwriteError s
  else if off <? 0 then Panicked BufferUnderwriteError s
  else if off + s_len d <=? zlen (content s) then
    Done tt (with_content s (put (content s) off (slice_bytes (heap s) d)))
  else Panicked slice_err s.
Proof.
  intros W Hd Ho. unfold V3Buffer.WriteBytes.
  rewrite (check_range s off (s_len d) _ _ _ _ W eq_refl).
  pose proof (wf_slice_cap_max _ _ (wf_h s W) Hd) as Hm. rewrite max_alloc_val in Hm.
  pose proof (content_max s W) as M. rewrite max_alloc_val in M.
  destruct (off +! s_len d >? zlen (content s)) eqn:E1; auto.
  destruct (Z.ltb_spec off 0); auto.
  change (run (V3Mini.WriteBytes off d) s = 
    if off + s_len d <=? zlen (content s) then
    Done tt (with_content s (put (content s) off (slice_bytes (heap s) d)))
    else Panicked slice_err s).
  rewrite mini_WriteBytes by auto.
  destruct (Z.leb_spec (off + s_len d) (zlen (content s))).
  - replace ((0 <=? off) && (off <=? zlen (content s))) with true by lia.
    do 3 f_equal. rewrite Z.min_r by lia. apply sub_all. rewrite wf_slice_bytes_zlen by auto. lia.
  - replace ((0 <=? off) && (off <=? zlen (content s))) with false. auto.
    unfold add64, wrap64, is_i64 in *. lia.
Qed.

(** With exact bounds: *)
Lemma run_WriteBytes s off d :
  WF s -> wf_slice (heap s) d -> is_i64 off ->
  run (V3Buffer.WriteBytes off d) s =
  if zlen (content s) <? off + s_len d
  then (if off + s_len d <? 2 ^ 63 then Panicked BufferOverwriteError s else Panicked slice_err s)
  else if off <? 0 then Panicked BufferUnderwriteError s
  else Done tt (with_content s (put (content s) off (slice_bytes (heap s) d))).
Proof.
  intros W Hd Ho. rewrite run_WriteBytes_raw by auto.
  pose proof (wf_slice_cap_max _ _ (wf_h s W) Hd) as Hm. rewrite max_alloc_val in Hm.
  pose proof (content_max s W) as M. rewrite max_alloc_val in M.
  pose proof (zlen_nonneg (content s)).
  unfold add64, wrap64, is_i64 in *.
  destruct (Z.ltb_spec (zlen (content s)) (off + s_len d)).
  - destruct (Z.ltb_spec (off + s_len d) (2 ^ 63)).
    + replace (_ >? _) with true by lia. auto.
    + replace (_ >? _) with false by lia. replace (off <? 0) with false by lia.
      replace (_ <=? _) with false by lia. auto.
  - replace (_ >? _) with false by lia. destruct (off <? 0); auto.
    replace (_ <=? _) with true by lia. auto.
Qed.

Lemma run_lit_bytes {A} s l (k : slice -> prog A) :
  run (bind (lit_bytes l) k) s = run (k (mkSlice (length (heap s)) 0 (zlen l) (zlen l))) (alloc s l).
Proof. reflexivity. Qed.

Lemma lit_wf s l :
  wf_slice (heap (alloc s l)) (mkSlice (length (heap s)) 0 (zlen l) (zlen l)) /\
  slice_bytes (heap (alloc s l)) (mkSlice (length (heap s)) 0 (zlen l) (zlen l)) = l.
Proof.
  pose proof (zlen_nonneg l).
  unfold alloc, wf_slice, slice_bytes; simpl. rewrite app_length, nth_alloc_new; simpl.
  repeat split; try lia. apply sub_all. lia.
Qed.

Lemma run_WriteByte s off v :
  WF s -> is_i64 off -> is_byte v ->
  run (V3Buffer.WriteByte off v) s =
  if zlen (content s) <? off + 1
  then (if off + 1 <? 2 ^ 63 then Panicked BufferOverwriteError (alloc s [v]) else Panicked slice_err (alloc s [v]))
  else if off <? 0 then Panicked BufferUnderwriteError (alloc s [v])
  else Done tt (with_content (alloc s [v]) (put (content s) off [v])).
Proof.
  intros W Ho Hv. unfold V3Buffer.WriteByte. rewrite run_lit_bytes.
  destruct (lit_wf s [v]) as [H1 H2].
  assert (W' : WF (alloc s [v])).
  { apply alloc_WF; auto. unfold zlen; simpl. rewrite max_alloc_val. lia. }
  rewrite run_WriteBytes by auto. rewrite content_alloc by auto. rewrite H2.
  change (s_len _) with (zlen [v]). change (zlen [v]) with 1. reflexivity.
Qed.

(** ** ReadBytes *)

(** The slice a read returns. *)
Definition window (b : slice) (off n : Z) : slice :=
  mkSlice (s_blk b) (s_off b + off) n (s_cap b - off).

Lemma mini_ReadBytes s off n :
  WF s ->
  run (V3Mini.ReadBytes off n) s =
  if (0 <=? off) && (off <=? off +! n) && (off +! n <=? s_cap (b_buf (bb s)))
  then Done (window (b_buf (bb s)) off (off +! n - off)) s
  else Panicked slice_err s.
Proof.
  intros W. unfold V3Mini.ReadBytes. cbn [get_buf bind run]. unfold reslice.
  destruct (_ && _); auto.
Qed.

Lemma run_ReadBytes_raw s off n :
  WF s ->
  run (V3Buffer.ReadBytes off n) s =
  if off +! n >? zlen (content s) then Panicked BufferOverreadError s
  else if off <? 0 then Panicked BufferUnderreadError s
  else if off <=? off +! n then Done (window (b_buf (bb s)) off (off +! n - off)) s
  else Panicked slice_err s.
Proof.
  intros W. unfold V3Buffer.ReadBytes.
  rewrite (check_range s off n _ _ _ _ W eq_refl).
  destruct (off +! n >? zlen (content s)) eqn:E1; auto.
  destruct (Z.ltb_spec off 0); auto.
  cbn [get_buf bind run]. unfold reslice.
  pose proof (content_zlen s W). pose proof (wf_lencap s W).
  destruct (Z.leb_spec off (off +! n)).
  - replace ((0 <=? off) && _ && _) with true by lia. reflexivity.
  - replace ((0 <=? off) && _ && _) with false by lia. reflexivity.
Qed.

Lemma run_ReadBytes_ok s off n :
  WF s -> 0 <= off -> 0 <= n -> off + n <= zlen (content s) ->
  run (V3Buffer.ReadBytes off n) s = Done (window (b_buf (bb s)) off n) s.
Proof.
  intros W Ho Hn Hl. pose proof (content_max s W) as M. rewrite max_alloc_val in M.
  rewrite run_ReadBytes_raw by auto. rewrite add64_id by (unfold is_i64; lia).
  replace (off + n >? zlen (content s)) with false by lia.
  replace (off <? 0) with false by lia. replace (off <=? off + n) with true by lia.
  do 2 f_equal. lia.
Qed.

Lemma window_bytes s off n :
  WF s -> 0 <= off -> 0 <= n -> off + n <= s_len (b_buf (bb s)) ->
  wf_slice (heap s) (window (b_buf (bb s)) off n) /\
  slice_bytes (heap s) (window (b_buf (bb s)) off n) = sub (content s) off n.
Proof.
  intros W Ho Hn Hl. pose proof (wf_blk s W). pose proof (wf_off0 s W).
  pose proof (wf_in s W). pose proof (wf_lencap s W). pose proof (wf_len0 s W).
  split.
  - unfold wf_slice, window; simpl. repeat split; auto; lia.
  - unfold content, slice_bytes, window; simpl. rewrite sub_sub by lia. reflexivity.
Qed.

Lemma run_slice_get_window s off n i :
  WF s -> 0 <= off -> 0 <= i < n -> off + n <= zlen (content s) ->
  run (slice_get (window (b_buf (bb s)) off n) i) s = Done (byte_at (content s) (off + i)) s.
Proof.
  intros W Ho Hi Hl. pose proof (wf_blk s W). pose proof (wf_off0 s W).
  pose proof (content_zlen s W).
  pose proof (wf_in s W). pose proof (wf_lencap s W). pose proof (wf_len0 s W).
  unfold slice_get, window; simpl. replace ((0 <=? i) && (i <? n)) with true by lia. simpl.
  rewrite heap_read_ok by (auto; lia). rewrite sub_one by lia. f_equal.
  unfold content, slice_bytes. rewrite byte_at_sub by lia. f_equal. lia.
Qed.

Lemma run_ReadByte s off :
  WF s -> is_i64 off ->
  run (V3Buffer.ReadByte off) s =
  if zlen (content s) <? off + 1
  then (if off + 1 <? 2 ^ 63 then Panicked BufferOverreadError s else Panicked slice_err s)
  else if off <? 0 then Panicked BufferUnderreadError s
  else Done (byte_at (content s) off) s.
Proof.
  intros W Ho. unfold V3Buffer.ReadByte. rewrite run_bind.
  pose proof (content_max s W) as M. rewrite max_alloc_val in M.
  pose proof (zlen_nonneg (content s)).
  destruct (Z.ltb_spec (zlen (content s)) (off + 1)) as [H1|H1].
  - rewrite run_ReadBytes_raw by auto. unfold add64, wrap64, is_i64 in *.
    destruct (Z.ltb_spec (off + 1) (2 ^ 63)).
    + replace (_ >? _) with true by lia. auto.
    + replace (_ >? _) with false by lia. replace (off <? 0) with false by lia.
      replace (_ <=? _) with false by lia. auto.
  - destruct (Z.ltb_spec off 0).
    + rewrite run_ReadBytes_raw by auto. unfold add64, wrap64, is_i64 in *.
      replace (_ >? _) with false by lia. replace (off <? 0) with true by lia. auto.
    + rewrite run_ReadBytes_ok by (auto; lia).
      rewrite run_slice_get_window by (auto; lia). rewrite Z.add_0_r. auto.
Qed.

(** ** Seek, align, after *)

Lemma run_SeekByte s off r :
  run (V3Buffer.SeekByte off r) s =
  Done tt (with_off s (if r then b_off (bb s) +! off else off)).
Proof. destruct r; reflexivity. Qed.
Lemma run_SeekBit s off r :
  run (V3Buffer.SeekBit off r) s =
  Done tt (with_boff s (if r then b_boff (bb s) +! off else off)).
Proof. destruct r; reflexivity. Qed.

Lemma with_off_WF s x : WF s -> is_i64 x -> WF (with_off s x).
Proof. intros W H. destruct W. constructor; auto. Qed.
Lemma with_boff_WF s x : WF s -> is_i64 x -> WF (with_boff s x).
Proof. intros W H. destruct W. constructor; auto. Qed.

Lemma run_AlignBit s : run V3Buffer.AlignBit s = Done tt (with_boff s (b_off (bb s) *! 8)).
Proof. reflexivity. Qed.
Lemma run_AlignByte s : run V3Buffer.AlignByte s = Done tt (with_off s (quo (b_boff (bb s)) 8)).
Proof. reflexivity. Qed.

Lemma quo_i64 x : is_i64 x -> is_i64 (quo x 8).
Proof. unfold is_i64, quo. intro. pose proof (Z.quot_rem' x 8). pose proof (Z.rem_bound_abs x 8). lia. Qed.

(** ** Truncate, Grow, Reset *)

Lemma with_slice_WF s sl :
  WF s -> wf_slice (heap s) sl -> WF (with_slice s sl).
Proof. intros W H. destruct W. constructor; auto. Qed.

Lemma run_Refresh s sl :
  wf_heap (heap s) -> wf_slice (heap s) sl ->
  run V3Buffer.Refresh (set_bb s (upd_buf (bb s) sl)) = Done tt (with_slice s sl).
Proof.
  intros Hh Hs. pose proof (wf_slice_cap_max _ _ Hh Hs) as M. rewrite max_alloc_val in M.
  unfold V3Buffer.Refresh. simpl. rewrite mul64_id by (unfold is_i64; lia).
  unfold with_slice, set_bb, upd_fld, upd_buf; simpl. do 3 f_equal. lia.
Qed.

Definition trunc_left (b : slice) (n : Z) : slice :=
  mkSlice (s_blk b) (s_off b + n) (s_len b - n) (s_cap b - n).
Definition resize (b : slice) (n : Z) : slice := mkSlice (s_blk b) (s_off b) n (s_cap b).

Lemma run_TruncateLeft s n :
  WF s ->
  run (V3Buffer.TruncateLeft n) s =
  if n <? 0 then Panicked BufferInvalidByteCountError s
  else if n <=? zlen (content s) then Done tt (with_slice s (trunc_left (b_buf (bb s)) n))
  else Panicked slice_err s.
Proof.
  intro W. unfold V3Buffer.TruncateLeft. rewrite run_panic_if_bind.
  destruct (Z.ltb_spec n 0); auto.
  cbn [get_buf get bind run get_fld]. rewrite cap_is, content_zlen by auto.
  pose proof (wf_lencap s W). pose proof (wf_len0 s W).
  unfold reslice. destruct (Z.leb_spec n (s_len (b_buf (bb s)))).
  - replace ((0 <=? n) && _ && _) with true by lia.
    cbn [bind run set_buf]. rewrite run_Refresh. reflexivity. apply W.
    pose proof (wf_blk s W). pose proof (wf_off0 s W). pose proof (wf_in s W).
    unfold wf_slice; simpl. repeat split; auto; lia.
  - replace ((0 <=? n) && _ && _) with false by lia. reflexivity.
Qed.

Lemma run_TruncateRight s n :
  WF s -> is_i64 n ->
  run (V3Buffer.TruncateRight n) s =
  if n <? 0 then Panicked BufferInvalidByteCountError s
  else if n <=? zlen (content s) then Done tt (with_slice s (resize (b_buf (bb s)) (zlen (content s) - n)))
  else Panicked slice_err s.
Proof.
  intros W Hi. unfold V3Buffer.TruncateRight. rewrite run_panic_if_bind.
  destruct (Z.ltb_spec n 0); auto.
  cbn [get_buf get bind run get_fld]. rewrite cap_is by auto.
  pose proof (wf_lencap s W). pose proof (wf_len0 s W). pose proof (content_zlen s W) as CL.
  pose proof (content_max s W) as M. rewrite max_alloc_val in M.
  rewrite sub64_id by (unfold is_i64 in *; lia).
  unfold reslice. destruct (Z.leb_spec n (zlen (content s))).
  - replace ((0 <=? 0) && _ && _) with true by lia.
    cbn [bind run set_buf]. rewrite run_Refresh.
    + unfold resize. do 3 f_equal; lia.
    + apply W.
    + pose proof (wf_blk s W). pose proof (wf_off0 s W). pose proof (wf_in s W).
      unfold wf_slice; simpl. repeat split; auto; lia.
  - replace ((0 <=? 0) && _ && _) with false by lia. reflexivity.
Qed.

(** The state after a reallocating Grow: fresh array of [c] bytes. *)
Definition grown (s : St) (n c : Z) : St :=
  with_slice (alloc s (content s ++ zeros (c - zlen (content s))))
             (mkSlice (length (heap s)) 0 (zlen (content s) + n) c).

Lemma put_alloc_new (h : heap_t) a a' :
  put (h ++ [a]) (Z.of_nat (length h)) [a'] = h ++ [a'].
Proof.
  unfold put. rewrite Nat2Z.id, firstn_app, firstn_all, Nat.sub_diag, firstn_O, app_nil_r.
  rewrite skipn_all2 by (rewrite app_length; simpl; lia). reflexivity.
Qed.

Lemma put_zeros d c : zlen d <= c -> put (zeros c) 0 d = d ++ zeros (c - zlen d).
Proof.
  intro H. unfold put. simpl. f_equal. unfold zeros, zlen in *.
  change (Z.to_nat 0) with O. simpl.
  replace (Z.to_nat c) with (length d + Z.to_nat (c - Z.of_nat (length d)))%nat by lia.
  rewrite repeat_app, skipn_app, skipn_all2 by (rewrite repeat_length; lia).
  rewrite repeat_length, Nat.sub_diag. reflexivity.
Qed.

Lemma mini_Grow s n :
  WF s -> is_i64 n ->
  run (V3Mini.Grow n) s =
  if n <=? s_cap (b_buf (bb s)) - zlen (content s) then
    if 0 <=? zlen (content s) + n then
      Done tt (with_slice s (resize (b_buf (bb s)) (zlen (content s) + n)))
    else Panicked slice_err s
  else if 2 * (s_cap (b_buf (bb s)) + n) <=? maxAlloc then
    Done tt (grown s n (2 * (s_cap (b_buf (bb s)) + n)))
  else Panicked make_err s.
Proof.
  intros W Hi. unfold V3Mini.Grow.
  cbn [get_buf get bind run get_fld]. rewrite cap_is by auto.
  pose proof (wf_lencap s W). pose proof (wf_len0 s W). pose proof (content_zlen s W) as CL.
  pose proof (content_max s W) as M. pose proof (wf_cap_max s W) as M2. rewrite max_alloc_val in M, M2.
  pose proof (wf_blk s W) as Hb. pose proof (wf_off0 s W). pose proof (wf_in s W).
  set (b := b_buf (bb s)) in *.
  rewrite (sub64_id (s_cap b)) by (unfold is_i64 in *; lia).
  destruct (Z.leb_spec n (s_cap b - zlen (content s))); cbn [bind run get_fld]; rewrite cap_is by auto; fold b.
  - rewrite add64_id by (unfold is_i64 in *; lia). unfold reslice.
    destruct (Z.leb_spec 0 (zlen (content s) + n)).
    + replace ((0 <=? 0) && _ && _) with true by lia.
      cbn [bind run set_buf].
      change V3Mini.Refresh with V3Buffer.Refresh.
      rewrite run_Refresh.
      * unfold resize. do 3 f_equal; lia.
      * apply W.
      * unfold wf_slice; simpl. repeat split; auto; lia.
    + replace ((0 <=? 0) && _ && _) with false by lia. reflexivity.
  - unfold make_bytes.
    destruct (Z.leb_spec (2 * (s_cap b + n)) maxAlloc) as [Hm|Hm].
    + rewrite max_alloc_val in Hm.
      rewrite !add64_id by (unfold is_i64 in *; lia).
      rewrite mul64_id by (unfold is_i64 in *; lia).
      rewrite max_alloc_val.
      replace (_ && _) with true by lia.
      cbn [bind run].
      rewrite (Z.mul_comm _ 2). set (c := 2 * (s_cap b + n)) in *.
      change (b_buf (bb (set_heap s (heap s ++ [zeros c])))) with b.
      unfold copy. cbn [bind run s_blk s_off s_len]. 
      rewrite Z.min_r by lia.
      assert (HN : nth (s_blk b) (heap (set_heap s (heap s ++ [zeros c]))) [] = nth (s_blk b) (heap s) []).
      { simpl. apply nth_alloc_old. auto. }
      rewrite heap_read_ok; rewrite ?HN; try lia.
      2: { simpl. rewrite app_length. lia. }
      change (sub (nth (s_blk b) (heap s) []) (s_off b) (s_len b)) with (content s).
      cbn [heap set_heap].
      rewrite heap_write_ok; rewrite ?nth_alloc_new; try lia.
      2: { rewrite app_length; simpl; lia. }
      2: { rewrite zlen_zeros by lia. lia. }
      rewrite put_alloc_new, put_zeros by lia.
      cbn [run set_buf bind]. change V3Mini.Refresh with V3Buffer.Refresh.
      unfold set_heap at 1. cbn [heap bb mu outs].
      match goal with |- run _ (set_bb ?x (upd_buf (bb _) ?sl)) = _ =>
        change (run V3Buffer.Refresh (set_bb x (upd_buf (bb x) sl)) = Done tt (grown s n c)) end.
      rewrite run_Refresh.
      * reflexivity.
      * cbn [heap set_heap]. apply wf_heap_alloc. apply W.
        apply Forall_app. split. apply content_bytes; auto. apply Forall_zeros.
        rewrite zlen_app, zlen_zeros by lia. rewrite max_alloc_val. lia.
      * unfold wf_slice; cbn [heap set_heap s_blk s_off s_len s_cap].
        rewrite nth_alloc_new, app_length, zlen_app, zlen_zeros by lia. simpl. repeat split; lia.
    + rewrite max_alloc_val in *.
      assert (E : (0 <=? zlen (content s) +! n) && (zlen (content s) +! n <=? (s_cap b +! n) *! 2) &&
                  ((s_cap b +! n) *! 2 <=? 281474976710656) = false).
      { unfold add64, mul64. unfold is_i64 in Hi.
        destruct (Z.lt_ge_cases (zlen (content s) + n) (2 ^ 63)).
        - rewrite (wrap64_id (zlen (content s) + n)) by (unfold is_i64; lia).
          destruct (Z.lt_ge_cases n (2 ^ 60)).
          + rewrite (wrap64_id (s_cap b + n)) by (unfold is_i64; lia).
            rewrite wrap64_id by (unfold is_i64; lia). lia.
          + pose proof (wrap64_range (wrap64 (s_cap b + n) * 2)). unfold is_i64 in *. lia.
        - replace (0 <=? wrap64 (zlen (content s) + n)) with false; auto.
          unfold wrap64. lia. }
      rewrite E. reflexivity.
Qed.

Lemma run_Grow s n :
  WF s -> is_i64 n ->
  run (V3Buffer.Grow n) s =
  if n <? 0 then Panicked BufferInvalidByteCountError s
  else if n <=? s_cap (b_buf (bb s)) - zlen (content s) then
      Done tt (with_slice s (resize (b_buf (bb s)) (zlen (content s) + n)))
  else if 2 * (s_cap (b_buf (bb s)) + n) <=? maxAlloc then
    Done tt (grown s n (2 * (s_cap (b_buf (bb s)) + n)))
  else Panicked make_err s.
Proof.
  intros W Hi. unfold V3Buffer.Grow. rewrite run_panic_if_bind.
  destruct (Z.ltb_spec n 0); auto.
  etransitivity; [apply (mini_Grow s n W Hi)|].
  pose proof (zlen_nonneg (content s)).
  replace (0 <=? zlen (content s) + n) with true by lia. reflexivity.
Qed.

Lemma run_Reset s :
  WF s ->
  run V3Buffer.Reset s = Done tt (with_off (with_boff (with_slice s (resize (b_buf (bb s)) 0)) 0) 0).
Proof.
  intro W. pose proof (wf_lencap s W). pose proof (wf_len0 s W).
  unfold V3Buffer.Reset. cbn [get_buf bind run]. unfold reslice.
  replace ((0 <=? 0) && _ && _) with true by lia.
  cbn [bind run set_buf set set_bb bb upd_buf upd_fld b_buf b_off b_cap b_boff b_bcap].
  unfold with_off, with_boff, with_slice, resize, set_bb, upd_fld; simpl.
  do 4 f_equal; lia.
Qed.

(** What these states show. *)
Lemma trunc_left_wf s n :
  WF s -> 0 <= n <= zlen (content s) -> wf_slice (heap s) (trunc_left (b_buf (bb s)) n).
Proof.
  intros W H. rewrite content_zlen in H by auto.
  pose proof (wf_blk s W). pose proof (wf_off0 s W). pose proof (wf_in s W). pose proof (wf_lencap s W).
  unfold wf_slice, trunc_left; simpl. repeat split; auto; lia.
Qed.

Lemma content_trunc_left s n :
  WF s -> 0 <= n <= zlen (content s) ->
  content (with_slice s (trunc_left (b_buf (bb s)) n)) = sub (content s) n (zlen (content s) - n).
Proof.
  intros W H. rewrite content_zlen by auto. rewrite content_zlen in H by auto.
  pose proof (wf_off0 s W). unfold content, slice_bytes; simpl. rewrite sub_sub by lia. reflexivity.
Qed.

Lemma resize_wf s n :
  WF s -> 0 <= n <= s_cap (b_buf (bb s)) -> wf_slice (heap s) (resize (b_buf (bb s)) n).
Proof.
  intros W H. pose proof (wf_blk s W). pose proof (wf_off0 s W). pose proof (wf_in s W). pose proof (wf_lencap s W).
  unfold wf_slice, resize; simpl. repeat split; auto; lia.
Qed.

Lemma content_resize_shrink s n :
  WF s -> 0 <= n <= zlen (content s) ->
  content (with_slice s (resize (b_buf (bb s)) n)) = sub (content s) 0 n.
Proof.
  intros W H. rewrite content_zlen in H by auto.
  pose proof (wf_off0 s W). unfold content, slice_bytes; simpl. rewrite sub_sub by lia.
  rewrite Z.add_0_r. reflexivity.
Qed.

Lemma spare_zlen s : WF s -> zlen (spare s) = s_cap (b_buf (bb s)) - zlen (content s).
Proof.
  intro W. rewrite content_zlen by auto. 
  pose proof (wf_blk s W). pose proof (wf_off0 s W). pose proof (wf_in s W). pose proof (wf_lencap s W). pose proof (wf_len0 s W).
  unfold spare. apply sub_length; lia.
Qed.

Lemma content_resize_grow s n :
  WF s -> 0 <= n <= zlen (spare s) ->
  content (with_slice s (resize (b_buf (bb s)) (zlen (content s) + n))) = content s ++ sub (spare s) 0 n.
Proof.
  intros W H. rewrite spare_zlen in H by auto. rewrite content_zlen in * by auto.
  pose proof (wf_off0 s W). pose proof (wf_lencap s W). pose proof (wf_len0 s W).
  unfold content at 1, slice_bytes; simpl. rewrite sub_app_split by lia.
  unfold spare. rewrite sub_sub by lia. rewrite Z.add_0_r. reflexivity.
Qed.

Lemma grown_WF s n c :
  WF s -> 0 <= n -> zlen (content s) + n <= c -> c <= maxAlloc -> WF (grown s n c).
Proof.
  intros W Hn Hc Hm. pose proof (zlen_nonneg (content s)). unfold grown. apply with_slice_WF.
  - apply alloc_WF; auto.
    + apply Forall_app. split. apply content_bytes; auto. apply Forall_zeros.
    + rewrite zlen_app, zlen_zeros by lia. lia.
  - unfold wf_slice; simpl. rewrite nth_alloc_new, app_length, zlen_app, zlen_zeros by lia.
    simpl. repeat split; lia.
Qed.

Lemma content_grown s n c :
  WF s -> 0 <= n -> zlen (content s) + n <= c -> content (grown s n c) = content s ++ zeros n.
Proof.
  intros W Hn Hc. pose proof (zlen_nonneg (content s)).
  unfold content at 1, slice_bytes, grown; simpl. rewrite nth_alloc_new.
  unfold sub. change (Z.to_nat 0) with O. simpl.
  replace (Z.to_nat (zlen (content s) + n)) with (length (content s) + Z.to_nat n)%nat by (unfold zlen in *; lia).
  rewrite firstn_app_2. f_equal. unfold zeros.
  replace (Z.to_nat (c - zlen (content s))) with (Z.to_nat n + Z.to_nat (c - zlen (content s) - n))%nat by lia.
  rewrite repeat_app, firstn_app, repeat_length, Nat.sub_diag, firstn_O, app_nil_r.
  apply firstn_all2. rewrite repeat_length. lia.
Qed.

(** ** NewBuffer *)

Record BuildInv (s0 : St) (done : list Z) (s : St) : Prop := {
  bi_heap : wf_heap (heap s);
  bi_sl : wf_slice (heap s) (b_buf (bb s));
  bi_content : content s = done;
  bi_old : exists new, heap s = heap s0 ++ new;
  bi_fresh : (length (heap s0) <= s_blk (b_buf (bb s)))%nat;
  bi_off : b_off (bb s) = 0; bi_boff : b_boff (bb s) = 0;
  bi_mu : mu s = mu s0; bi_outs : outs s = outs s0 }.

Definition all_bytes (h : heap_t) (slices : list slice) : list Z :=
  concat (map (slice_bytes h) slices).

Lemma slice_bytes_app h new d : (s_blk d < length h)%nat -> slice_bytes (h ++ new) d = slice_bytes h d.
Proof. intro. unfold slice_bytes. rewrite app_nth1 by auto. auto. Qed.

Lemma wf_slice_app h new d : wf_slice h d -> wf_slice (h ++ new) d.
Proof.
  intros (Hb & Ho & Hl & Hc). unfold wf_slice. rewrite app_length, app_nth1 by auto.
  repeat split; auto; lia.
Qed.

Lemma put_heap_old (h0 new : heap_t) b a :
  (length h0 <= b)%nat -> (b < length (h0 ++ new))%nat -> exists new', put (h0 ++ new) (Z.of_nat b) [a] = h0 ++ new'.
Proof.
  intros H1 H2. unfold put. rewrite Nat2Z.id. rewrite firstn_app, firstn_all2 by auto.
  eexists. rewrite <- app_assoc. reflexivity.
Qed.

Lemma append_step pol s0 s done d :
  BuildInv s0 done s -> wf_slice (heap s0) d ->
  zlen done + s_len d <= maxAlloc ->
  exists s', run (bind (append pol (b_buf (bb s)) d) (fun sl => set_buf sl)) s = Done tt s' /\
    BuildInv s0 (done ++ slice_bytes (heap s0) d) s'.
Proof.
  intros I Hd Hm. destruct I as [Ih Is Ic (new & Io) If I1 I2 I3 I4].
  assert (Hd' : wf_slice (heap s) d) by (rewrite Io; apply wf_slice_app; auto).
  assert (Hbd : slice_bytes (heap s) d = slice_bytes (heap s0) d).
  { rewrite Io. apply slice_bytes_app. apply Hd. }
  rewrite <- Hbd. clear Hbd.
  pose proof (wf_slice_bytes_zlen _ _ Is) as Lc. fold (content s) in Lc. rewrite Ic in Lc.
  pose proof (wf_slice_bytes_zlen _ _ Hd') as Ld.
  pose proof (wf_slice_bytes _ _ Ih Hd') as Bd.
  pose proof (wf_slice_bytes _ _ Ih Is) as Bc. fold (content s) in Bc.
  destruct Is as (Sb & So & Sl & Sc). destruct Hd' as (Db & Do & Dl & Dc).
  set (b := b_buf (bb s)) in *.
  assert (DA : Forall is_byte (nth (s_blk b) (heap s) []) /\ zlen (nth (s_blk b) (heap s) []) <= maxAlloc).
  { unfold wf_heap in Ih. rewrite Forall_forall in Ih. apply Ih. apply nth_In. auto. }
  unfold append. destruct (Z.leb_spec (s_len b + s_len d) (s_cap b)) as [Hc|Hc].
  - (* in place *)
    cbn [bind run]. rewrite heap_read_ok by (auto; lia).
    fold (slice_bytes (heap s) d). rewrite heap_write_ok by (auto; lia).
    cbn [bind run set_buf]. eexists. split; [reflexivity|].
    set (a' := put (nth (s_blk b) (heap s) []) (s_off b + s_len b) (slice_bytes (heap s) d)).
    assert (La : zlen a' = zlen (nth (s_blk b) (heap s) [])) by (apply put_length; lia).
    constructor; cbn [set_bb set_heap heap bb mu outs upd_buf b_buf b_off b_cap b_boff b_bcap s_blk]; auto.
    + unfold wf_heap in *. apply Forall_put; auto. constructor; auto.
      split; [|rewrite La; apply DA]. apply Forall_put; auto. apply DA.
    + unfold wf_slice; cbn [s_blk s_off s_len s_cap].
      rewrite length_put_heap, nth_put_heap, Nat.eqb_refl, La by auto. repeat split; auto; lia.
    + unfold content, slice_bytes at 1; cbn [set_bb set_heap heap bb upd_buf b_buf s_blk s_off s_len].
      rewrite nth_put_heap, Nat.eqb_refl by auto. unfold a'.
      rewrite sub_app_split by lia. f_equal.
      * rewrite sub_put_disjoint by lia. exact Ic.
      * apply sub_put_same; lia.
    + rewrite Io in *. apply put_heap_old; auto.
  - rewrite Lc in Hm. replace (s_len b + s_len d <=? maxAlloc) with true by lia.
    set (c := new_cap pol (s_cap b) (s_len b + s_len d)).
    assert (Hcc : s_len b + s_len d <= c <= maxAlloc) by (unfold c, new_cap; lia).
    cbn [bind run].
    assert (N1 : forall z, nth (s_blk b) (heap s ++ [z]) [] = nth (s_blk b) (heap s) []) by (intro; apply nth_alloc_old; auto).
    assert (N2 : forall z, nth (s_blk d) (heap s ++ [z]) [] = nth (s_blk d) (heap s) []) by (intro; apply nth_alloc_old; auto).
    cbn [heap set_heap].
    rewrite heap_read_ok; rewrite ?N1; rewrite ?app_length; try lia.
    change (sub (nth (s_blk b) (heap s) []) (s_off b) (s_len b)) with (content s). rewrite Ic.
    rewrite heap_write_ok; rewrite ?nth_alloc_new; rewrite ?app_length; rewrite ?zlen_zeros; simpl length; try lia.
    rewrite put_alloc_new. rewrite put_zeros by lia.
    cbn [heap set_heap].
    rewrite heap_read_ok; rewrite ?N2; rewrite ?app_length; try lia.
    fold (slice_bytes (heap s) d).
    rewrite heap_write_ok; rewrite ?nth_alloc_new; rewrite ?app_length; rewrite ?zlen_app; rewrite ?zlen_zeros; simpl length; try lia.
    rewrite put_alloc_new. cbn [bind run set_buf].
    eexists. split; [reflexivity|].
    set (a' := put (done ++ zeros (c - zlen done)) (s_len b) (slice_bytes (heap s) d)).
    assert (La : zlen a' = c).
    { unfold a'. rewrite put_length; rewrite ?zlen_app, ?zlen_zeros; lia. }
    assert (Ba : Forall is_byte a').
    { unfold a'. apply Forall_put; auto. apply Forall_app. split. rewrite <- Ic; auto. apply Forall_zeros. }
    constructor; cbn [set_bb set_heap heap bb mu outs upd_buf b_buf b_off b_cap b_boff b_bcap s_blk]; auto.
    + apply wf_heap_alloc; auto. lia.
    + unfold wf_slice; cbn [s_blk s_off s_len s_cap].
      rewrite nth_alloc_new, app_length, La. simpl length. repeat split; try lia.
    + unfold content, slice_bytes at 1; cbn [set_bb set_heap heap bb upd_buf b_buf s_blk s_off s_len].
      rewrite nth_alloc_new. rewrite sub_app_split by lia. f_equal.
      * unfold a'. rewrite sub_put_disjoint by (rewrite ?zlen_app, ?zlen_zeros; lia).
        unfold sub. change (Z.to_nat 0) with O. simpl.
        replace (Z.to_nat (s_len b)) with (length done + 0)%nat by (unfold zlen in *; lia).
        rewrite firstn_app_2. simpl. apply app_nil_r.
      * unfold a'. apply sub_put_same; rewrite ?zlen_app, ?zlen_zeros; lia.
    + exists (new ++ [a']). rewrite Io. rewrite app_assoc. reflexivity.
    + rewrite Io, app_length. lia.
Qed.

Lemma all_bytes_firstn_S h slices i d :
  0 <= i < zlen slices ->
  all_bytes h (firstn (Z.to_nat (i + 1)) slices) =
  all_bytes h (firstn (Z.to_nat i) slices) ++ slice_bytes h (nth (Z.to_nat i) slices d).
Proof.
  intros Hi. replace (Z.to_nat (i + 1)) with (S (Z.to_nat i)) by lia.
  assert (Hn : (Z.to_nat i < length slices)%nat) by (unfold zlen in Hi; lia). clear Hi.
  revert Hn. generalize (Z.to_nat i) as n. intro n. revert slices. induction n; intros [|x l] Hn; simpl in Hn; try lia.
  - unfold all_bytes. simpl. rewrite app_nil_r. reflexivity.
  - change (all_bytes h (firstn (S (S n)) (x :: l))) with (slice_bytes h x ++ all_bytes h (firstn (S n) l)).
    rewrite IHn by lia. unfold all_bytes. simpl. rewrite app_assoc. reflexivity.
Qed.

Lemma all_bytes_zlen_mono h slices i :
  zlen (all_bytes h (firstn i slices)) <= zlen (all_bytes h slices).
Proof.
  rewrite <- (firstn_skipn i slices) at 2. unfold all_bytes. rewrite map_app, concat_app, zlen_app.
  pose proof (zlen_nonneg (concat (map (slice_bytes h) (skipn i slices)))). lia.
Qed.

Lemma run_NewBuffer_many pol s0 slices :
  wf_heap (heap s0) -> (2 <= length slices)%nat -> zlen slices < 2 ^ 63 ->
  Forall (wf_slice (heap s0)) slices -> zlen (all_bytes (heap s0) slices) <= maxAlloc ->
  exists s', run (V3Buffer.NewBuffer pol slices) s0 = Done tt s' /\ WF s' /\
    content s' = all_bytes (heap s0) slices /\
    b_off (bb s') = 0 /\ b_boff (bb s') = 0 /\
    (exists new, heap s' = heap s0 ++ new) /\
    (length (heap s0) <= s_blk (b_buf (bb s')))%nat /\ mu s' = mu s0 /\ outs s' = outs s0.
Proof.
  intros Hh Hlen Hlen2 Hs Hm.
  set (s1 := mkSt (heap s0 ++ [[]]) (mkBuf (mkSlice (length (heap s0)) 0 0 0) 0 0 0 0) (mu s0) (outs s0)).
  set (loop := goto_loop (zlen slices) (fun i _ =>
            bind get_buf (fun b => bind (append pol b (nth (Z.to_nat i) slices b)) (fun s => set_buf s))) tt).
  assert (E : run (V3Buffer.NewBuffer pol slices) s0 = run (bind loop (fun _ => V3Buffer.Refresh)) s1).
  { unfold V3Buffer.NewBuffer. destruct slices as [|x [|y r]]; simpl in Hlen; try lia. reflexivity. }
  rewrite E, run_bind.
  edestruct (goto_loop_inv (fun i (_ : unit) s => BuildInv s0 (all_bytes (heap s0) (firstn (Z.to_nat i) slices)) s)
     (fun i _ => bind get_buf (fun b => bind (append pol b (nth (Z.to_nat i) slices b)) (fun s => set_buf s)))
     (zlen slices) tt s1) as (acc & s2 & Hr & I).
  - auto.
  - intros i [] s Hi I.
    assert (Hi' : 0 <= i < zlen slices) by (unfold zlen in *; lia).
    destruct (append_step pol s0 s _ (nth (Z.to_nat i) slices (b_buf (bb s))) I) as (s' & Hr & I').
    + rewrite Forall_forall in Hs. apply Hs. apply nth_In. unfold zlen in Hi'; lia.
    + eapply Z.le_trans; [|exact Hm].
      pose proof (all_bytes_zlen_mono (heap s0) slices (Z.to_nat (i + 1))) as MM.
      rewrite (all_bytes_firstn_S _ _ _ (b_buf (bb s)) Hi'), zlen_app in MM.
      rewrite wf_slice_bytes_zlen in MM; auto.
      rewrite Forall_forall in Hs. apply Hs. apply nth_In. unfold zlen in Hi'; lia.
    + exists tt, s'. split. exact Hr. rewrite (all_bytes_firstn_S _ _ _ (b_buf (bb s)) Hi'). exact I'.
  - change (Z.to_nat 0) with O. constructor; simpl; auto.
    + apply wf_heap_alloc; auto. unfold zlen; simpl. rewrite max_alloc_val. lia.
    + unfold wf_slice; simpl. rewrite nth_alloc_new, app_length. simpl. unfold zlen; simpl. repeat split; lia.
    + exists [[]]. reflexivity.
  - unfold loop. rewrite Hr. rewrite Z.max_r in I by (unfold zlen; lia).
    unfold zlen in I. rewrite Nat2Z.id, firstn_all in I. destruct I as [Ih Is Ic Io If I1 I2 I3 I4].
    replace s2 with (set_bb s2 (upd_buf (bb s2) (b_buf (bb s2)))) by (destruct s2 as [h [? ? ? ? ?] ? ?]; reflexivity).
    rewrite run_Refresh by auto. eexists. split; [reflexivity|].
    split; [|split; [exact Ic|repeat split; auto]].
    constructor; simpl; auto; rewrite ?I1, ?I2; unfold is_i64; lia.
Qed.

Lemma run_NewBuffer_one pol s0 d :
  wf_heap (heap s0) -> wf_slice (heap s0) d ->
  run (V3Buffer.NewBuffer pol [d]) s0 =
  Done tt (mkSt (heap s0 ++ [[]]) (mkBuf d 0 (s_len d) 0 (8 * s_len d)) (mu s0) (outs s0)).
Proof.
  intros Hh Hd. pose proof (wf_slice_cap_max _ _ Hh Hd) as M. rewrite max_alloc_val in M.
  unfold V3Buffer.NewBuffer, V3Buffer.Refresh. simpl. unfold set_bb; simpl.
  rewrite mul64_id by (unfold is_i64; lia). do 3 f_equal. lia.
Qed.

Lemma run_NewBuffer_zero pol s0 :
  run (V3Buffer.NewBuffer pol []) s0 =
  Done tt (mkSt (heap s0 ++ [[]]) (mkBuf (mkSlice (length (heap s0)) 0 0 0) 0 0 0 0) (mu s0) (outs s0)).
Proof. reflexivity. Qed.
