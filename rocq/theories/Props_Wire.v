(** * Props_Wire: data written with one type and read with another one (C81).

    The six types are the Buffer and the MiniBuffer of v1, v2 and v3; their methods
    are run by the Go text (Many.v).  [ask] names the method call (Wire.v). *)
From Coq Require Import ZArith List Bool String Lia ZifyBool.
From Verif Require Import GoSem Errors GoParse Conv GoEval Front Tables FrontCalls.
From Verif Require Import Spec GoLemmas BitLemmas CodecLemmas V3BitLemmas V3ByteLemmas Typed Calls Abs Frame Sim History NewBuf MiniAbs MiniHistory
  TypedReadLemmas MiniLemmas MiniSim OldCalls V2Lemmas V2Agree V1Calls ConcSpec Abs2 Sim2 Hist2 MiniAbs2 MiniSim2 MiniHist2
  FrontOldCalls FrontOldMini Many Wire.
Import ListNotations.
Open Scope Z_scope.
Open Scope list_scope.

Lemma object_WF w i x : wf_world w -> nth_error (objects w) i = Some x -> WF (state_of (memory w) x).
Proof. intros [_ W] E. rewrite Forall_nth_error in W. eauto. Qed.
Lemma bytes_in_max w i x : wf_world w -> nth_error (objects w) i = Some x -> zlen (bytes_in w x) <= maxAlloc.
Proof. intros W E. apply content_max. eapply object_WF; eauto. Qed.

(** The caller's slice has room for [n] numbers, where the method fills one. *)
Definition room (k : kind) (n : Z) (out : list Z) : Prop :=
  match k with Mini3 | MiniOld V2 => n <= zlen out | _ => True end.

(** C81: any type writes numbers of any format it has, anywhere in range.  The bytes
    are the encoding of the numbers.  Wherever these bytes are then found, in any
    buffer of any type that has the format, a read there delivers the numbers. *)
Theorem C81_numbers pol t d w1 i x p1 out1 q1 w2 j y p2 out2 q2 :
  let size := zlen d * tsize t in
  d <> [] -> Forall (in_format t) d ->
  wf_world w1 -> nth_error (objects w1) i = Some x -> o_mu x = false ->
  ask (o_kind x) p1 (WriteNumbers t d) out1 = Some q1 -> valid_place p1 ->
  0 <= offset_of p1 x -> offset_of p1 x + size <= zlen (bytes_in w1 x) ->
  wf_world w2 -> nth_error (objects w2) j = Some y -> o_mu y = false ->
  ask (o_kind y) p2 (ReadNumbers t (zlen d)) out2 = Some q2 -> valid_place p2 -> room (o_kind y) (zlen d) out2 ->
  0 <= offset_of p2 y ->
  exists a w1' x', wstep pol (WCall i q1) w1 [Called i a] w1' /\ went_well a /\ nth_error (objects w1') i = Some x' /\
    sub (bytes_in w1' x') (offset_of p1 x) size = encode_all t d /\
    (sub (bytes_in w2 y) (offset_of p2 y) size = sub (bytes_in w1' x') (offset_of p1 x) size ->
     exists b w2', wstep pol (WCall j q2) w2 [Called j b] w2' /\ numbers (o_kind y) (List.length d) b = Some d /\
       exists y', nth_error (objects w2') j = Some y' /\ bytes_in w2' y' = bytes_in w2 y).
Proof.
  intros size Nd Fd W1 Ex Mx E1 V1 H0 H1 W2 Ey My E2 V2 Ro H2.
  pose proof (bytes_in_max _ _ _ W1 Ex) as HM. pose proof (bytes_in_max _ _ _ W2 Ey) as HM2. pose proof (tsize_pos t) as TP.
  assert (Zd : zlen d <= size) by (unfold size; pose proof (zlen_nonneg d); nia).
  destruct (call_step pol w1 i x p1 (WriteNumbers t d) out1 q1
    (fun r _ a' => r = RUnit /\ written (put (bytes_in w1 x) (offset_of p1 x) (encode_all t d)) (abs (state_of (memory w1) x)) a'))
    as (r & o & w1' & x' & St & W1' & Ex' & _ & _ & [Er [Eb _]] & _); auto.
  { cbn [valid_deed]. fold size. unfold maxAlloc in *. lia. }
  { apply gives_write; auto. }
  exists (shows r o (o_kind x)), w1', x'. split; [exact St|]. split; [subst r; destruct (o_kind x); exact I|]. split; [exact Ex'|].
  assert (Enc : sub (bytes_in w1' x') (offset_of p1 x) size = encode_all t d).
  { change (bytes_in w1' x') with (a_bytes (abs (state_of (memory w1') x'))). rewrite Eb. unfold size. rewrite <- (encode_all_zlen t d).
    rewrite sub_put_same; rewrite ?encode_all_zlen; unfold size in *; auto; lia. }
  split; [exact Enc|]. intro Same. rewrite Enc in Same.
  assert (Hin : zlen d <= maxAlloc) by (unfold size in *; lia).
  destruct (call_step pol w2 j y p2 (ReadNumbers t (zlen d)) out2 q2
    (fun r o a' => numbers (o_kind y) (List.length d) (shows r o (o_kind y)) = Some d /\
       a_bytes a' = bytes_in w2 y /\ a_spare a' = a_spare (abs (state_of (memory w2) y))))
    as (r2 & o2 & w2' & y' & St2 & _ & Ey' & _ & _ & (En & Eb2 & _) & _); auto.
  { cbn [valid_deed]. unfold is_i64, maxAlloc in *. pose proof (zlen_nonneg d). lia. }
  { apply gives_read; auto. }
  exists (shows r2 o2 (o_kind y)), w2'. split; [exact St2|]. split; [exact En|]. exists y'. auto.
Qed.
Print Assumptions C81_numbers.

(** C81: the same for a field of [n] bits, of any type that has bits: all have. *)
Theorem C81_bits pol data n w1 i x p1 out1 q1 w2 j y p2 out2 q2 :
  1 <= n <= 64 -> is_u64 data ->
  wf_world w1 -> nth_error (objects w1) i = Some x -> o_mu x = false ->
  ask (o_kind x) p1 (WriteBits data n) out1 = Some q1 -> valid_place p1 ->
  0 <= bit_offset_of p1 x -> bit_offset_of p1 x + n <= 8 * zlen (bytes_in w1 x) ->
  wf_world w2 -> nth_error (objects w2) j = Some y -> o_mu y = false ->
  ask (o_kind y) p2 (ReadBits n) out2 = Some q2 -> valid_place p2 -> match o_kind y with Mini3 | MiniOld _ => out2 = [0] | _ => True end ->
  0 <= bit_offset_of p2 y -> bit_offset_of p2 y + n <= 8 * zlen (bytes_in w2 y) ->
  exists a w1' x', wstep pol (WCall i q1) w1 [Called i a] w1' /\ went_well a /\ nth_error (objects w1') i = Some x' /\
    ((forall k, 0 <= k < n -> bit_at (bytes_in w2 y) (bit_offset_of p2 y + k) = bit_at (bytes_in w1' x') (bit_offset_of p1 x + k)) ->
     exists b w2', wstep pol (WCall j q2) w2 [Called j b] w2' /\ number (o_kind y) b = Some (data mod 2 ^ n)).
Proof.
  intros Hn Hd W1 Ex Mx E1 V1 H0 H1 W2 Ey My E2 V2 Ro H2 H3.
  assert (In : is_i64 n) by (unfold is_i64; lia).
  assert (Bx : Forall is_byte (bytes_in w1 x)) by (apply content_bytes; eapply object_WF; eauto).
  destruct (call_step pol w1 i x p1 (WriteBits data n) out1 q1
    (fun r _ a' => r = RUnit /\ bits_are (a_bytes a') (bit_offset_of p1 x) data n /\ zlen (a_bytes a') = zlen (bytes_in w1 x) /\
       a_spare a' = a_spare (abs (state_of (memory w1) x)) /\
       forall j, 0 <= j -> ~ bit_offset_of p1 x <= j < bit_offset_of p1 x + n -> bit_at (a_bytes a') j = bit_at (bytes_in w1 x) j))
    as (r & o & w1' & x' & St & W1' & Ex' & _ & _ & (Er & Eb & _) & _); auto.
  { cbn [valid_deed]. auto. }
  { apply gives_write_bits; auto. lia. }
  exists (shows r o (o_kind x)), w1', x'. split; [exact St|]. split; [subst r; destruct (o_kind x); exact I|]. split; [exact Ex'|].
  intro Same.
  destruct (call_step pol w2 j y p2 (ReadBits n) out2 q2
    (fun r o a' => number (o_kind y) (shows r o (o_kind y)) = Some (data mod 2 ^ n) /\
       a_bytes a' = bytes_in w2 y /\ a_spare a' = a_spare (abs (state_of (memory w2) y))))
    as (r2 & o2 & w2' & y' & St2 & _ & Ey' & _ & _ & (En & Eb2 & _) & _); auto.
  { cbn [valid_deed]. split; [exact In|]. destruct (o_kind y); auto; exists 0; unfold is_u64; split; auto; lia. }
  { apply gives_read_bits; auto. intros k Hk. exact (eq_trans (Same k Hk) (Eb k Hk)). }
  exists (shows r2 o2 (o_kind y)), w2'. auto.
Qed.
Print Assumptions C81_bits.

(** A slice that shows [l], all of it, in an array of its own. *)
Definition whole (blk : nat) (l : list Z) : slice := mkSlice blk 0 (zlen l) (zlen l).

(** C81: a message.  A buffer writes numbers and its ReadBytes shows the bytes; the
    caller holds them in an array of its own, and stores them in another buffer with
    its WriteBytes; a read there delivers the numbers.  The four calls are of any two
    types that have the format, at any offsets in range. *)
Theorem C81_message pol t d w i x p1 out1 q1 r1 j y p2 out2 q3 q4 out3 :
  let size := zlen d * tsize t in
  d <> [] -> Forall (in_format t) d -> i <> j ->
  wf_world w ->
  nth_error (objects w) i = Some x -> o_mu x = false -> valid_place p1 ->
  0 <= offset_of p1 x -> offset_of p1 x + size <= zlen (bytes_in w x) ->
  nth_error (objects w) j = Some y -> o_mu y = false -> valid_place p2 ->
  0 <= offset_of p2 y -> offset_of p2 y + size <= zlen (bytes_in w y) -> room (o_kind y) (zlen d) out3 ->
  ask (o_kind x) p1 (WriteNumbers t d) out1 = Some q1 ->
  ask (o_kind x) (Fixed (offset_of p1 x)) (ReadBytes size) out1 = Some r1 ->
  (forall blk, ask (o_kind y) p2 (WriteBytes (whole blk (encode_all t d))) out2 = Some (q3 blk)) ->
  ask (o_kind y) (Fixed (offset_of p2 y)) (ReadNumbers t (zlen d)) out3 = Some q4 ->
  exists a w1 l b w2, wstep pol (WCall i q1) w [Called i a] w1 /\ went_well a /\
    wstep pol (WCall i r1) w1 [Called i b] w2 /\ bytes_seen b = Some l /\
    let blk := List.length (memory w2) in
    exists c w3 e w4, wstep pol (WCall j (q3 blk)) (mkWorld (memory w2 ++ [l]) (objects w2)) [Called j c] w3 /\ went_well c /\
      wstep pol (WCall j q4) w3 [Called j e] w4 /\ numbers (o_kind y) (List.length d) e = Some d.
Proof.
  intros size Nd Fd Nij W Ex Mx V1 H0 H1 Ey My V2 H2 H3 Ro E1 E2 E3 E4.
  pose proof (bytes_in_max _ _ _ W Ex) as HM. pose proof (tsize_pos t) as TP.
  assert (Zd : 0 < zlen d <= size).
  { unfold size. assert (0 < zlen d) by (destruct d; [congruence|unfold zlen; cbn [List.length]; lia]). nia. }
  assert (Le : zlen (encode_all t d) = size) by apply encode_all_zlen.
  destruct (call_step pol w i x p1 (WriteNumbers t d) out1 q1
    (fun r _ a' => r = RUnit /\ written (put (bytes_in w x) (offset_of p1 x) (encode_all t d)) (abs (state_of (memory w) x)) a'))
    as (r & o & w1 & x1 & St1 & W1 & Ex1 & K1 & M1 & [-> [Eb _]] & O1); auto.
  { cbn [valid_deed]. fold size. unfold maxAlloc in *. lia. }
  { apply gives_write; auto. }
  change (a_bytes (abs (state_of (memory w1) x1))) with (bytes_in w1 x1) in Eb.
  assert (L1 : zlen (bytes_in w1 x1) = zlen (bytes_in w x)) by (rewrite Eb; apply put_length; lia).
  assert (Enc : sub (bytes_in w1 x1) (offset_of p1 x) size = encode_all t d).
  { rewrite Eb, <- Le. apply sub_put_same; lia. }
  rewrite <- K1 in E2. pose proof (bytes_in_max _ _ _ W1 Ex1) as HM1.
  assert (I1 : is_i64 (offset_of p1 x)) by (unfold is_i64, maxAlloc in *; lia).
  assert (I2 : is_i64 size) by (unfold is_i64, maxAlloc in *; lia).
  destruct (call_step pol w1 i x1 (Fixed (offset_of p1 x)) (ReadBytes size) out1 r1
    (fun r o a' => bytes_seen (shows r o (o_kind x1)) = Some (sub (bytes_in w1 x1) (offset_of p1 x) size) /\
       a_bytes a' = bytes_in w1 x1 /\ a_spare a' = a_spare (abs (state_of (memory w1) x1))))
    as (r' & o' & w2 & x2 & St2 & W2 & Ex2 & _ & _ & (Eseen & _) & O2); auto.
  { apply gives_read_bytes; auto; cbn [bits offset_of]; change (a_bytes (abs (state_of (memory w1) x1))) with (bytes_in w1 x1); lia. }
  rewrite Enc in Eseen.
  exists (shows RUnit o (o_kind x)), w1, (encode_all t d), (shows r' o' (o_kind x1)), w2.
  split; [exact St1|]. split; [destruct (o_kind x); exact I|]. split; [exact St2|]. split; [exact Eseen|]. cbv zeta.
  set (blk := List.length (memory w2)). set (w2' := mkWorld (memory w2 ++ [encode_all t d]) (objects w2)).
  assert (Ey2 : nth_error (objects w2') j = Some y) by (cbn [w2' objects]; auto).
  assert (W2' : wf_world w2').
  { assert (V : valid_w w2 (WAlloc (encode_all t d))) by (split; [apply encode_all_bytes|unfold maxAlloc in *; lia]).
    exact (wstep_WF pol _ _ _ _ W2 V (w_alloc pol _ _)). }
  assert (Ly : zlen (bytes_in w2' y) = zlen (bytes_in w y)).
  { unfold bytes_in. rewrite !content_zlen; [reflexivity|eapply object_WF; eauto|eapply object_WF; eauto]. }
  assert (Sb : slice_bytes (memory w2') (whole blk (encode_all t d)) = encode_all t d).
  { unfold slice_bytes, whole. cbn [s_blk s_off s_len w2' memory]. unfold blk. rewrite app_nth2, Nat.sub_diag by lia. cbn [nth].
    apply sub_all. reflexivity. }
  destruct (call_step pol w2' j y p2 (WriteBytes (whole blk (encode_all t d))) out2 (q3 blk)
    (fun r _ a' => r = RUnit /\ written (put (bytes_in w2' y) (offset_of p2 y) (encode_all t d)) (abs (state_of (memory w2') y)) a'))
    as (r3 & o3 & w3 & y3 & St3 & W3 & Ey3 & K3 & M3 & [-> [Eb3 _]] & O3); auto.
  { unfold valid_deed, wf_slice, whole. cbn [s_blk s_off s_len s_cap w2' memory]. unfold blk.
    rewrite app_length, app_nth2, Nat.sub_diag by lia. cbn [nth List.length]. lia. }
  { pose proof (gives_write_bytes (o_kind y) (offset_of p2 y) (state_of (memory w2') y) (whole blk (encode_all t d))
      (abs (state_of (memory w2') y)) out2) as GW. cbn [state_of heap] in GW. rewrite Sb in GW. apply GW; auto.
    - intro Ze. rewrite Ze in Le. change (zlen (@nil Z)) with 0 in Le. lia.
    - apply smear_clean. left. unfold lag, whole. cbn [s_blk state_of bb].
      assert (s_blk (b_buf (o_buf y)) < blk)%nat.
      { destruct W2 as [_ F]. rewrite Forall_nth_error in F. destruct (wf_sl _ (F j y (O2 j y (not_eq_sym Nij) (O1 j y (not_eq_sym Nij) Ey)))) as [B _]. exact B. }
      replace (Nat.eqb _ _) with false by (symmetry; apply Nat.eqb_neq; lia). reflexivity.
    - cbn [bits offset_of]. change (a_bytes (abs (state_of (memory w2') y))) with (bytes_in w2' y). lia. }
  change (a_bytes (abs (state_of (memory w3) y3))) with (bytes_in w3 y3) in Eb3.
  assert (Enc3 : sub (bytes_in w3 y3) (offset_of p2 y) size = encode_all t d).
  { rewrite Eb3, <- Le. apply sub_put_same; lia. }
  pose proof (bytes_in_max _ _ _ W3 Ey3) as HM3. pose proof (bytes_in_max _ _ _ W Ey) as HMy.
  rewrite <- K3 in E4, Ro.
  destruct (call_step pol w3 j y3 (Fixed (offset_of p2 y)) (ReadNumbers t (zlen d)) out3 q4
    (fun r o a' => numbers (o_kind y3) (List.length d) (shows r o (o_kind y3)) = Some d /\
       a_bytes a' = bytes_in w3 y3 /\ a_spare a' = a_spare (abs (state_of (memory w3) y3))))
    as (r4 & o4 & w4 & y4 & St4 & _ & _ & _ & _ & (En & _) & _); auto.
  { unfold valid_place, is_i64, maxAlloc in *. lia. }
  { cbn [valid_deed]. unfold is_i64, maxAlloc in *. lia. }
  { apply gives_read; auto. }
  exists (shows RUnit o3 (o_kind y)), w3, (shows r4 o4 (o_kind y3)), w4.
  split; [exact St3|]. split; [destruct (o_kind y); exact I|]. split; [exact St4|]. rewrite <- K3. exact En.
Qed.
Print Assumptions C81_message.

(** ** Examples *)

(** A v1 Buffer with two bytes before its offset, and a v3 MiniBuffer that is a part
    of a longer array. *)
Definition C81_w : world :=
  mkWorld [[1; 2; 3; 4; 5; 6; 7; 8; 9; 10; 11; 12]; [0; 0; 0; 0; 0; 0; 0; 0; 0; 0; 0; 0; 0; 0; 0; 0]]
    [mkObject (BufferOld V1) (mkBuf (mkSlice 0 0 12 12) 2 12 0 96) false;
     mkObject Mini3 (mkBuf (mkSlice 1 3 11 13) 0 11 0 88) false].

Lemma C81_w_wf : wf_world C81_w.
Proof.
  assert (H : wf_heap (memory C81_w)) by (repeat constructor; unfold is_byte; try lia; cbv; discriminate).
  split; [exact H|]. cbn [C81_w objects memory] in *.
  apply Forall_cons; [|apply Forall_cons; [|apply Forall_nil]]; (apply mkWF; [exact H|..]); try (cbv; reflexivity);
    unfold is_i64, wf_slice; cbn [state_of bb heap o_buf b_buf b_off b_boff s_blk s_off s_len s_cap nth List.length]; unfold zlen; cbn [List.length]; lia.
Qed.

(** WriteComplexNext of v1 writes two 32-bit numbers, ReadU32BE of the v3 MiniBuffer
    reads them. *)
Example C81_case pol : exists (q1 r1 : request (call slice) (call2 slice)) (q3 : nat -> request (call slice) (call2 slice)) (q4 : request (call slice) (call2 slice)),
  q1 = Qo (Next2 (PWrite NU32BE [3735928559; 7])) /\ q4 = Q3m (At 1 (ORead U32BE 2)) [0; 0; 0] /\
    exists a w1 l b w2, wstep pol (WCall 0 q1) C81_w [Called 0 a] w1 /\ went_well a /\
    wstep pol (WCall 0 r1) w1 [Called 0 b] w2 /\ bytes_seen b = Some l /\
    exists c w3 e w4, wstep pol (WCall 1 (q3 (List.length (memory w2)))) (mkWorld (memory w2 ++ [l]) (objects w2)) [Called 1 c] w3 /\ went_well c /\
    wstep pol (WCall 1 q4) w3 [Called 1 e] w4 /\ numbers Mini3 2 e = Some [3735928559; 7].
Proof.
  exists (Qo (Next2 (PWrite NU32BE [3735928559; 7]))), (Qo (At2 2 (PReadBytes 8))),
    (fun blk => Q3m (At 1 (OWriteBytes (whole blk (encode_all U32BE [3735928559; 7])))) []), (Q3m (At 1 (ORead U32BE 2)) [0; 0; 0]).
  split; [reflexivity|]. split; [reflexivity|].
  apply (C81_message pol U32BE [3735928559; 7] C81_w 0 (mkObject (BufferOld V1) (mkBuf (mkSlice 0 0 12 12) 2 12 0 96) false) Here []
    _ _ 1 (mkObject Mini3 (mkBuf (mkSlice 1 3 11 13) 0 11 0 88) false) (Fixed 1) []
    (fun blk => Q3m (At 1 (OWriteBytes (whole blk (encode_all U32BE [3735928559; 7])))) []) (Q3m (At 1 (ORead U32BE 2)) [0; 0; 0]) [0; 0; 0]).
  - discriminate.
  - apply Forall_cons; [|apply Forall_cons; [|apply Forall_nil]]; unfold in_format; cbn [ty_sign tsize ty_bytes ty_width bytes_of_width]; vm_compute; split; congruence.
  - discriminate.
  - exact C81_w_wf.
  - reflexivity.
  - reflexivity.
  - exact I.
  - cbn. lia.
  - vm_compute. discriminate.
  - reflexivity.
  - reflexivity.
  - cbn. unfold is_i64. lia.
  - cbn. lia.
  - vm_compute. discriminate.
  - vm_compute. discriminate.
  - reflexivity.
  - reflexivity.
  - reflexivity.
  - reflexivity.
Qed.

(** The other direction of the formats: a signed format is read by no older type. *)
Example C81_v3_only k p n out : In k [BufferOld V1; BufferOld V2; MiniOld V1; MiniOld V2] ->
  Forall (fun t => ask k p (ReadNumbers t n) out = None)
    [I16LE; I16BE; I32LE; I32BE; I64LE; I64BE; F32LE; F32BE; F64LE; F64BE].
Proof. intros [<-|[<-|[<-|[<-|[]]]]]; repeat constructor. Qed.
