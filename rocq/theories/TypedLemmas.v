(** * TypedLemmas: the typed methods of v3 evaluated on well-formed states. *)
From Coq Require Import ZArith List Bool Lia ZifyBool.
From Verif Require Import GoSem Errors Spec GoLemmas CodecLemmas Typed V3BitLemmas V3ByteLemmas TypedCanon.
From Verif Require V3Buffer V3Mini.
Import ListNotations.
Open Scope Z_scope.

Lemma cidx_id w k i : 0 <= k <= 8 -> 0 <= i * w <= 2 ^ 60 -> cidx w k i = k + i * w.
Proof.
  intros Hk Hi. unfold cidx. rewrite mul64_id by (unfold is_i64; lia).
  destruct (Z.eqb_spec k 0). lia. apply add64_id. unfold is_i64; lia.
Qed.

Lemma elem_ok {A} data i (f : Z -> prog A) s :
  0 <= i < zlen data -> run (bind (elem data i) f) s = run (f (nth (Z.to_nat i) data 0)) s.
Proof. intro H. unfold elem. replace ((0 <=? i) && (i <? zlen data)) with true by lia. reflexivity. Qed.
Lemma elem_oob {A} data i (f : Z -> prog A) s :
  ~ (0 <= i < zlen data) -> run (bind (elem data i) f) s = Panicked index_err s.
Proof. intro H. unfold elem. replace ((0 <=? i) && (i <? zlen data)) with false by lia. reflexivity. Qed.

(** Consecutive positions from [j]. *)
Fixpoint consec (j : Z) (l : list (Z * Z)) : Prop :=
  match l with [] => True | (k, _) :: r => k = j /\ consec (j + 1) r end.

Definition svals (bits d : Z) (l : list (Z * Z)) : list Z := map (fun p => sbyte bits d (snd p)) l.

Lemma sbyte_byte bits d sh : is_byte (sbyte bits d sh).
Proof. unfold sbyte, byte, uconv, is_byte. destruct (sh =? 0); apply Z.mod_pos_bound; lia. Qed.
Lemma svals_bytes bits d l : Forall is_byte (svals bits d l).
Proof. unfold svals. apply Forall_forall. intros x Hx. apply in_map_iff in Hx. destruct Hx as (p & <- & _). apply sbyte_byte. Qed.
Lemma svals_zlen bits d l : zlen (svals bits d l) = zlen l.
Proof. apply zlen_map. Qed.

Lemma with_content_put_put s j a d :
  WF s -> 0 <= j -> j + 1 + zlen d <= zlen (content s) -> is_byte a ->
  with_content (with_content s (put (content s) j [a]))
    (put (content (with_content s (put (content s) j [a]))) (j + 1) d) =
  with_content s (put (content s) j (a :: d)).
Proof.
  intros W Hj Hd Ha. pose proof (zlen_nonneg d).
  assert (L1 : zlen (put (content s) j [a]) = zlen (content s)) by (apply put_length; change (zlen [a]) with 1; lia).
  rewrite content_with_content by auto.
  rewrite with_content_twice; auto.
  - f_equal. change (j + 1) with (j + zlen [a]). rewrite put_put_adj; auto.
  - rewrite put_length by lia. auto.
Qed.

Lemma put_WF s j d :
  WF s -> 0 <= j -> j + zlen d <= zlen (content s) -> Forall is_byte d ->
  WF (with_content s (put (content s) j d)) /\
  content (with_content s (put (content s) j d)) = put (content s) j d /\
  zlen (content (with_content s (put (content s) j d))) = zlen (content s).
Proof.
  intros W Hj Hd HB. assert (L : zlen (put (content s) j d) = zlen (content s)) by (apply put_length; lia).
  rewrite content_with_content by auto. split; [|split]; auto.
  apply with_content_WF; auto. apply Forall_put; auto. apply content_bytes; auto.
Qed.

Section stores.
Variables (bits w off i : Z) (data : list Z).
Hypothesis Hi : 0 <= i < zlen data.
Hypothesis Hw : 0 <= i * w <= 2 ^ 60.
Hypothesis Ho : 0 <= off <= 2 ^ 60.
Let d := nth (Z.to_nat i) data 0.

Lemma stores_run l : forall j s,
  WF s -> 0 <= j -> j + zlen l <= 9 -> consec j l ->
  let p := off + i * w + j in
  p <= zlen (content s) ->
  run (stores bits w off i data l) s =
  if p + zlen l <=? zlen (content s)
  then Done tt (with_content s (put (content s) p (svals bits d l)))
  else Panicked index_err (with_content s (put (content s) p (sub (svals bits d l) 0 (zlen (content s) - p)))).
Proof.
  induction l as [|[k sh] r IH]; intros j s W Hj Hj9 Hc p Hp.
  - rewrite zlen_nil. replace (p + 0 <=? zlen (content s)) with true by lia.
    simpl. rewrite put_nil, with_content_same by auto. reflexivity.
  - rewrite zlen_cons in *. pose proof (zlen_nonneg r). destruct Hc as [-> Hc].
    pose proof (content_max s W) as M. rewrite max_alloc_val in M.
    assert (Hp0 : p = off + i * w + j) by reflexivity. assert (0 <= p) by (unfold p; lia).
    assert (E : off +! cidx w j i = p).
    { rewrite cidx_id by lia. rewrite add64_id by (unfold is_i64; lia). unfold p; lia. }
    assert (STEP : forall s', run (stores bits w off i data ((j, sh) :: r)) s' =
       run (bind (buf_set p (sbyte bits d sh)) (fun _ => stores bits w off i data r)) s').
    { intro s'. destruct r as [|q r'].
      - simpl stores. rewrite elem_ok by auto. fold d. rewrite E. rewrite run_bind.
        destruct (run (buf_set p (sbyte bits d sh)) s') as [[] | | |]; auto.
      - change (stores bits w off i data ((j, sh) :: q :: r')) with
          (bind (elem data i) (fun d => bind (buf_set (off +! cidx w j i) (sbyte bits d sh)) (fun _ => stores bits w off i data (q :: r')))).
        rewrite elem_ok by auto. fold d. rewrite E. reflexivity. }
    rewrite STEP. clear STEP.
    destruct (Z.leb_spec (p + (1 + zlen r)) (zlen (content s))) as [F|F].
    + rewrite run_bind, run_buf_set by (auto; lia).
      destruct (put_WF s p [sbyte bits d sh]) as (W' & C' & L'); auto; try (change (zlen [sbyte bits d sh]) with 1; lia).
      { constructor; auto. apply sbyte_byte. }
      rewrite (IH (j + 1)); auto; try lia.
      rewrite L'. replace (off + i * w + (j + 1)) with (p + 1) by lia.
      replace (p + 1 + zlen r <=? zlen (content s)) with true by lia.
      rewrite with_content_put_put; auto; try lia. rewrite svals_zlen; lia. apply sbyte_byte.
    + destruct (Z.eq_dec p (zlen (content s))) as [Ep|Np].
      * rewrite run_bind, run_buf_set_oob by (auto; lia).
        replace (zlen (content s) - p) with 0 by lia. unfold sub. change (Z.to_nat 0) with O.
        simpl. rewrite put_nil, with_content_same by auto. reflexivity.
      * rewrite run_bind, run_buf_set by (auto; lia).
        destruct (put_WF s p [sbyte bits d sh]) as (W' & C' & L'); auto; try (change (zlen [sbyte bits d sh]) with 1; lia).
        { constructor; auto. apply sbyte_byte. }
        rewrite (IH (j + 1)); auto; try lia.
        rewrite L'. replace (off + i * w + (j + 1)) with (p + 1) by lia.
        replace (p + 1 + zlen r <=? zlen (content s)) with false by lia.
        rewrite with_content_put_put; auto; try lia.
        -- f_equal. f_equal. f_equal. unfold sub. change (Z.to_nat 0) with O. simpl.
           replace (Z.to_nat (zlen (content s) - p)) with (S (Z.to_nat (zlen (content s) - (p + 1)))) by lia. reflexivity.
        -- rewrite sub_length; try lia. rewrite svals_zlen; lia.
        -- apply sbyte_byte.
Qed.
End stores.

Lemma shiftr_div x a b : 0 <= a -> 0 <= b -> Z.shiftr (Z.shiftr x a) b = Z.shiftr x (a + b).
Proof. intros. apply Z.shiftr_shiftr. auto. Qed.
Lemma div256 x : x / 256 = Z.shiftr x 8.
Proof. rewrite Z.shiftr_div_pow2 by lia. reflexivity. Qed.

(** The bytes the loops store are the encoding. *)
Lemma svals_encode t x : svals (bits_of t) x (wlayout t) = encode t x.
Proof.
  destruct t; unfold encode;
    cbn [ty_endian ty_bytes ty_width bytes_of_width le_bytes rev app];
    rewrite ?div256, ?shiftr_div by lia;
    reflexivity.
Qed.

Lemma wlayout_consec t : consec 0 (wlayout t).
Proof. destruct t; vm_compute; auto 10. Qed.
Lemma wlayout_zlen t : zlen (wlayout t) = tsize t.
Proof. destruct t; reflexivity. Qed.

Lemma encode_all_firstn_S t data i :
  0 <= i < zlen data ->
  encode_all t (firstn (Z.to_nat (i + 1)) data) =
  encode_all t (firstn (Z.to_nat i) data) ++ encode t (nth (Z.to_nat i) data 0).
Proof.
  intro H. replace (Z.to_nat (i + 1)) with (S (Z.to_nat i)) by lia.
  assert (Hn : (Z.to_nat i < length data)%nat) by (unfold zlen in H; lia). clear H.
  revert data Hn. generalize (Z.to_nat i). induction n; intros [|x l] Hn; simpl in Hn; try lia.
  - simpl. rewrite app_nil_r. auto.
  - change (firstn (S (S n)) (x :: l)) with (x :: firstn (S n) l).
    change (firstn (S n) (x :: l)) with (x :: firstn n l). unfold encode_all in *. simpl flat_map.
    simpl in IHn. rewrite IHn by lia. rewrite app_assoc. reflexivity.
Qed.

Lemma firstn_zlen {A} (l : list A) i : 0 <= i <= zlen l -> zlen (firstn (Z.to_nat i) l) = i.
Proof. intro. unfold zlen in *. rewrite firstn_length. lia. Qed.

Lemma sub0_app {A} (l1 l2 : list A) n :
  zlen l1 <= n -> sub (l1 ++ l2) 0 n = l1 ++ sub l2 0 (n - zlen l1).
Proof.
  intro H. unfold sub. change (Z.to_nat 0) with O. simpl. rewrite firstn_app, firstn_all2 by (unfold zlen in *; lia).
  do 2 f_equal. unfold zlen in *. lia.
Qed.
Lemma sub0_app_l {A} (l1 l2 : list A) n :
  n <= zlen l1 -> sub (l1 ++ l2) 0 n = sub l1 0 n.
Proof.
  intro H. unfold sub. change (Z.to_nat 0) with O. simpl. rewrite firstn_app.
  replace (Z.to_nat n - length l1)%nat with O by (unfold zlen in *; lia). simpl. apply app_nil_r.
Qed.

Section writes.
Variables (t : numty) (s : St) (off : Z) (data : list Z).
Hypothesis W : WF s.
Hypothesis Hd : wf_data (tsize t) data.
Let w := tsize t.
Let L := zlen (content s).

Let inv (i : Z) (_ : unit) (s' : St) : Prop :=
  s' = with_content s (put (content s) off (encode_all t (firstn (Z.to_nat i) data))).

Lemma write_step i :
  0 <= off <= L -> 0 <= i < zlen data -> off + i * w <= L ->
  forall s', inv i tt s' ->
  run (stores (bits_of t) (tsize t) off i data (wlayout t)) s' =
  if off + (i + 1) * w <=? L
  then Done tt (with_content s (put (content s) off (encode_all t (firstn (Z.to_nat (i + 1)) data))))
  else Panicked index_err (with_content s (put (content s) off (sub (encode_all t data) 0 (L - off)))).
Proof.
  intros Ho Hi Hp s' ->. pose proof (tsize_pos t) as TP. fold w in TP.
  pose proof (content_max s W) as M. rewrite max_alloc_val in M. fold L in M.
  unfold wf_data in Hd. rewrite max_alloc_val in Hd. fold w in Hd.
  assert (Hiw : 0 <= i * w <= zlen data * w) by (split; [apply Z.mul_nonneg_nonneg|apply Z.mul_le_mono_nonneg_r]; lia).
  set (e := encode_all t (firstn (Z.to_nat i) data)).
  assert (Le : zlen e = i * w). { unfold e. rewrite encode_all_zlen, firstn_zlen by lia. reflexivity. }
  destruct (put_WF s off e) as (W' & C' & L'); auto; try lia. { apply encode_all_bytes. }
  pose proof (stores_run (bits_of t) (tsize t) off i data ltac:(lia) ltac:(fold w; lia) ltac:(lia) (wlayout t)
    0 (with_content s (put (content s) off e)) W') as R.
  rewrite wlayout_zlen, svals_encode in R. fold w in R. cbv zeta in R. fold w.
  rewrite L' in R. fold L in R. rewrite R; auto; try lia; [|apply wlayout_consec].
  clear R. rewrite Z.add_0_r, C'.
  replace (off + i * w + w <=? L) with (off + (i + 1) * w <=? L) by (replace ((i + 1) * w) with (i * w + w) by ring; f_equal; lia).
  assert (TW : forall l, zlen l = zlen (content s) ->
     with_content (with_content s (put (content s) off e)) l = with_content s l).
  { intros l Hl. apply with_content_twice; auto. apply put_length; fold L; lia. }
  assert (PL : zlen (put (content s) off e) = L) by (apply put_length; fold L; lia).
  destruct (Z.leb_spec (off + (i + 1) * w) L).
  - f_equal. rewrite TW.
    + f_equal. rewrite encode_all_firstn_S by auto. rewrite <- Le. apply put_put_adj; auto.
      lia. rewrite encode_zlen. fold e w L. lia.
    + rewrite put_length; auto; try lia. rewrite encode_zlen, PL. fold w. lia.
  - f_equal. rewrite TW.
    + f_equal. rewrite <- Le. rewrite put_put_adj; try lia.
      * f_equal. rewrite <- (firstn_skipn (Z.to_nat (i + 1)) data) at 2.
        rewrite encode_all_app, encode_all_firstn_S by auto. fold e.
        rewrite <- app_assoc, sub0_app by lia. f_equal.
        rewrite sub0_app_l by (rewrite encode_zlen; fold w; lia). f_equal. lia.
      * rewrite sub_length by (rewrite ?encode_zlen; fold w; lia). fold L. lia.
    + rewrite put_length; auto; try lia. rewrite PL, sub_length by (rewrite ?encode_zlen; fold w; lia). lia.
Qed.

(** The exact effect of a MiniBuffer typed write. *)
Lemma mini_WriteT :
  is_i64 off ->
  run (MiniWriteT t off data) s =
  if (zlen data =? 0) || (off <? 0) || (L <? off) then Panicked index_err s
  else if off + zlen data * w <=? L
  then Done tt (with_content s (put (content s) off (encode_all t data)))
  else Panicked index_err (with_content s (put (content s) off (sub (encode_all t data) 0 (L - off)))).
Proof.
  intro Hi. rewrite MiniWriteT_canon. pose proof (tsize_pos t) as TP. fold w in TP.
  pose proof (content_max s W) as M. rewrite max_alloc_val in M. fold L in M.
  pose proof (zlen_nonneg data). pose proof (zlen_nonneg (content s)) as Lp. fold L in Lp.
  unfold wf_data in Hd. rewrite max_alloc_val in Hd. fold w in Hd.
  destruct (Z.eqb_spec (zlen data) 0) as [E0|E0]; [|destruct ((off <? 0) || (L <? off)) eqn:Eo].
  - simpl. apply goto_loop_first.
    destruct t; apply elem_oob; lia.
  - replace (_ || _ || _) with true by lia. apply goto_loop_first.
    assert (R : forall l, l = wlayout t -> run (stores (bits_of t) (tsize t) off 0 data l) s = Panicked index_err s).
    { intros l El. destruct l as [|[k sh] r]. destruct t; discriminate.
      assert (k = 0) by (destruct t; inversion El; auto). subst k.
      destruct r; cbn [stores]; rewrite elem_ok by lia; fold w; change (cidx w 0 0) with 0;
      rewrite add64_id, Z.add_0_r by (rewrite Z.add_0_r; auto); [|rewrite run_bind];
      rewrite run_buf_set_oob by (auto; fold L; lia); reflexivity. }
    apply R. auto.
  - replace (_ || _ || _) with false by lia.
    destruct (Z.leb_spec (off + zlen data * w) L) as [F|F].
    + destruct (goto_loop_inv inv (fun i _ => stores (bits_of t) (tsize t) off i data (wlayout t)) (zlen data) tt s)
        as ([] & s' & R & I).
      * nia.
      * intros i [] s1 Hi1 I1. exists tt. eexists. 
        assert ((i + 1) * w <= zlen data * w) by (apply Z.mul_le_mono_nonneg_r; lia).
        rewrite (write_step i) by (auto; lia).
        replace (off + (i + 1) * w <=? L) with true by lia. split; reflexivity.
      * unfold inv. change (Z.to_nat 0) with O. simpl. rewrite put_nil, with_content_same; auto.
      * rewrite R. f_equal. rewrite I. do 3 f_equal. apply firstn_all2. unfold zlen in *. lia.
    + assert (Hm : 0 <= (L - off) / w < zlen data).
      { split. apply Z.div_pos; lia. apply Z.div_lt_upper_bound; lia. }
      destruct (goto_loop_panic inv (fun i _ => stores (bits_of t) (tsize t) off i data (wlayout t))
         (zlen data) ((L - off) / w) index_err
         (fun s' => s' = with_content s (put (content s) off (sub (encode_all t data) 0 (L - off)))) tt s)
        as (s' & R & I).
      * nia.
      * lia.
      * intros i [] s1 Hi1 I1. exists tt. eexists.
        assert ((i + 1) * w <= L - off).
        { apply Z.le_trans with ((L - off) / w * w). apply Z.mul_le_mono_nonneg_r; lia.
          rewrite Z.mul_comm. apply Z.mul_div_le. lia. }
        rewrite (write_step i) by (auto; lia).
        replace (off + (i + 1) * w <=? L) with true by lia. split; reflexivity.
      * intros [] s1 I1. eexists. 
        assert ((L - off) / w * w <= L - off) by (rewrite Z.mul_comm; apply Z.mul_div_le; lia).
        assert (L - off < ((L - off) / w + 1) * w).
        { pose proof (Z.mul_succ_div_gt (L - off) w). lia. }
        rewrite (write_step ((L - off) / w)) by (auto; lia).
        replace (off + ((L - off) / w + 1) * w <=? L) with false by lia. split; reflexivity.
      * unfold inv. change (Z.to_nat 0) with O. simpl. rewrite put_nil, with_content_same; auto.
      * rewrite R, I. reflexivity.
Qed.

(** The exact effect of a Buffer typed write. *)
Lemma run_WriteT :
  is_i64 off ->
  run (WriteT t off data) s =
  if L <? off + zlen data * w
  then (if off + zlen data * w <? 2 ^ 63 then Panicked BufferOverwriteError s else Panicked index_err s)
  else if off <? 0 then Panicked BufferUnderwriteError s
  else if zlen data =? 0 then Panicked index_err s
  else Done tt (with_content s (put (content s) off (encode_all t data))).
Proof.
  intro Hi. rewrite WriteT_canon.
  pose proof (tsize_pos t) as TP. fold w in TP.
  pose proof (content_max s W) as M. rewrite max_alloc_val in M. fold L in M.
  pose proof (zlen_nonneg data). pose proof (zlen_nonneg (content s)) as Lp. fold L in Lp.
  assert (Hd' : 0 <= zlen data * w <= 2 ^ 48).
  { unfold wf_data in Hd. rewrite max_alloc_val in Hd. fold w in Hd. split; [apply Z.mul_nonneg_nonneg; lia|exact Hd]. }
  rewrite (check_range s off (zlen data * w) _ _ _ _ W) by (rewrite mul64_id; [reflexivity|unfold is_i64; fold w; lia]).
  fold L. rewrite mini_WriteT by auto.
  set (N := zlen data * w) in *.
  assert (NN : zlen data = 0 -> N = 0) by (intro Z0; unfold N; rewrite Z0; reflexivity).
  destruct (Z.ltb_spec L (off + N)).
  - destruct (Z.ltb_spec (off + N) (2 ^ 63)).
    + rewrite add64_id by (unfold is_i64 in *; lia). replace (off + N >? L) with true by lia. auto.
    + replace (off +! N >? L) with false.
      * replace (off <? 0) with false by lia. replace (_ || _ || _) with true by lia. auto.
      * unfold add64, wrap64, is_i64 in *. replace ((off + N + 2 ^ 63) mod 2 ^ 64) with (off + N - 2 ^ 63).
        lia. apply Z.mod_unique with 1; lia.
  - rewrite add64_id by (unfold is_i64 in *; lia). replace (off + N >? L) with false by lia.
    destruct (Z.ltb_spec off 0); auto.
    destruct (Z.eqb_spec (zlen data) 0); auto. 
    replace (_ || _ || _) with false by lia. replace (off + N <=? L) with true by lia. auto.
Qed.
End writes.
