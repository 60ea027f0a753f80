(** * Props_Bytes: properties C10 - C15 and C17 - C20, the byte and typed
    operations of v3 [Buffer]. *)
From Coq Require Import ZArith List Bool Lia ZifyBool.
From Verif Require Import GoSem Errors Spec GoLemmas BitLemmas CodecLemmas Typed V3BitLemmas V3ByteLemmas
  TypedCanon TypedLemmas TypedReadLemmas Calls Abs Frame Sim Witness.
From Verif Require V3Buffer.
Import ListNotations.
Open Scope Z_scope.
Open Scope go_scope.

(** [s'] is [s] with the bytes from [off] on replaced by [d]: every other byte,
    the length, the offsets and all memory outside the buffer are as before. *)
Definition bytes_set (s : St) (off : Z) (d : list Z) (s' : St) : Prop :=
  becomes s (content s') s' /\ zlen (content s') = zlen (content s) /\
  forall i, 0 <= i < zlen (content s) ->
    byte_at (content s') i =
    if (off <=? i) && (i <? off + zlen d) then byte_at d (i - off) else byte_at (content s) i.

Lemma put_bytes_set s off d :
  WF s -> 0 <= off -> off + zlen d <= zlen (content s) ->
  bytes_set s off d (with_content s (put (content s) off d)).
Proof.
  intros W H1 H2. assert (L : zlen (put (content s) off d) = zlen (content s)) by (apply put_length; lia).
  unfold bytes_set. rewrite content_with_content by assumption.
  split; [|split]; auto. now apply with_content_becomes.
  intros i Hi. rewrite byte_at_put by lia. reflexivity.
Qed.

Lemma bytes_set_content s off d s' :
  0 <= off -> off + zlen d <= zlen (content s) -> bytes_set s off d s' -> content s' = put (content s) off d.
Proof.
  intros H1 H2 (_ & L & H). apply byte_at_ext.
  - rewrite put_length by lia. exact L.
  - rewrite L. intros j Hj. rewrite H by lia. rewrite byte_at_put by lia. reflexivity.
Qed.

(** ** C10 *)

(** The source [d] is any slice, in particular one that overlaps the buffer. *)
Theorem C10_WriteBytes : forall s off d, WF s -> wf_arg s d ->
  0 <= off -> off + s_len d <= zlen (content s) ->
  exists s', run (V3Buffer.WriteBytes off d) s = Done tt s' /\ WF s' /\
    bytes_set s off (slice_bytes (heap s) d) s'.
Proof.
  intros s off d W Hd H1 H2. pose proof (wf_slice_bytes_zlen _ _ Hd) as L.
  pose proof (wf_slice_bytes _ _ (wf_h s W) Hd) as B.
  pose proof (content_max s W). pose proof max_alloc_val. pose proof (zlen_nonneg (slice_bytes (heap s) d)).
  rewrite run_WriteBytes by (auto; unfold is_i64; lia).
  replace (zlen (content s) <? off + s_len d) with false by lia. replace (off <? 0) with false by lia.
  eexists. split; [reflexivity|]. split; [|apply put_bytes_set; auto; lia].
  apply put_WF; auto; lia.
Qed.
Print Assumptions C10_WriteBytes.

(** The bytes 0..2 of the buffer written over bytes 1..3 of the same buffer. *)
Example C10_case :
  wf_arg ex (mkSlice 0 1 3 5) /\ slice_bytes (heap ex) (mkSlice 0 1 3 5) = [165; 15; 255] /\
  exists s', run (V3Buffer.WriteBytes 1 (mkSlice 0 1 3 5)) ex = Done tt s' /\ content s' = [165; 165; 15; 255].
Proof.
  split; [unfold wf_arg, wf_slice; cbn; repeat split; try lia; vm_compute; discriminate|].
  split; [reflexivity|]. eexists. split; vm_compute; reflexivity.
Qed.

(** ** C11 *)

Theorem C11_ReadBytes : forall s off n, WF s -> 0 <= off -> 0 <= n -> off + n <= zlen (content s) ->
  exists d, run (V3Buffer.ReadBytes off n) s = Done d s /\ wf_arg s d /\
    s_len d = n /\ slice_bytes (heap s) d = sub (content s) off n.
Proof.
  intros s off n W H1 H2 H3. eexists. split; [now apply run_ReadBytes_ok|].
  destruct (window_bytes s off n W H1 H2) as [A B]. { rewrite <- content_zlen; auto. }
  auto.
Qed.
Print Assumptions C11_ReadBytes.

Theorem C11_WriteBytes_ReadBytes : forall s off d, WF s -> wf_arg s d ->
  0 <= off -> off + s_len d <= zlen (content s) ->
  exists s' r, run (V3Buffer.WriteBytes off d) s = Done tt s' /\
    run (V3Buffer.ReadBytes off (s_len d)) s' = Done r s' /\
    slice_bytes (heap s') r = slice_bytes (heap s) d.
Proof.
  intros s off d W Hd H1 H2. destruct (C10_WriteBytes s off d W Hd H1 H2) as (s' & E & W' & F).
  pose proof (wf_slice_bytes_zlen _ _ Hd) as L. destruct Hd as (_ & _ & Hl & _).
  assert (C : content s' = put (content s) off (slice_bytes (heap s) d)).
  { apply bytes_set_content in F; auto. lia. }
  assert (Z1 : zlen (content s') = zlen (content s)) by apply F.
  destruct (C11_ReadBytes s' off (s_len d) W' H1 ltac:(lia) ltac:(lia)) as (r & E2 & _ & _ & B).
  exists s', r. split; [exact E|]. split; [exact E2|]. rewrite B, C. apply sub_put_same; lia.
Qed.
Print Assumptions C11_WriteBytes_ReadBytes.

Theorem C11_ReadByte_WriteByte : forall s off v, WF s -> is_byte v -> 0 <= off < zlen (content s) ->
  run (V3Buffer.ReadByte off) s = Done (byte_at (content s) off) s /\
  exists s', run (V3Buffer.WriteByte off v) s = Done tt s' /\ WF s' /\ bytes_set s off [v] s' /\
    run (V3Buffer.ReadByte off) s' = Done v s'.
Proof.
  intros s off v W Hv H. pose proof (content_max s W) as CM. pose proof max_alloc_val as MV.
  assert (V1 : Forall is_byte [v]) by (constructor; auto).
  assert (V2 : zlen [v] <= maxAlloc) by (rewrite MV; vm_compute; discriminate).
  assert (V3 : zlen [v] = 1) by reflexivity.
  assert (I : is_i64 off) by (unfold is_i64; lia).
  destruct (put_fits s off [v]) as [L B]; auto; try lia.
  assert (WA : WF (alloc s [v])) by (now apply alloc_WF).
  assert (CA : content (alloc s [v]) = content s) by (now apply content_alloc).
  split.
  - rewrite run_ReadByte by auto. replace (zlen (content s) <? off + 1) with false by lia.
    now replace (off <? 0) with false by lia.
  - assert (E : run (V3Buffer.WriteByte off v) s = Done tt (with_content (alloc s [v]) (put (content s) off [v]))).
    { rewrite run_WriteByte by auto. replace (zlen (content s) <? off + 1) with false by lia.
      now replace (off <? 0) with false by lia. }
    eexists. split; [exact E|].
    assert (W' : WF (with_content (alloc s [v]) (put (content s) off [v]))).
    { apply with_content_WF; auto. now rewrite CA. }
    assert (C' : content (with_content (alloc s [v]) (put (content s) off [v])) = put (content s) off [v]).
    { apply content_with_content; auto. now rewrite CA. }
    split; [exact W'|]. split.
    + unfold bytes_set. rewrite C'. split; [now apply alloc_with_content_becomes|]. split; [exact L|].
      intros i Hi. rewrite byte_at_put by lia. reflexivity.
    + rewrite run_ReadByte by auto. rewrite C', L.
      replace (zlen (content s) <? off + 1) with false by lia. replace (off <? 0) with false by lia.
      rewrite byte_at_put by lia. replace ((off <=? off) && (off <? off + zlen [v])) with true by lia.
      rewrite Z.sub_diag. reflexivity.
Qed.
Print Assumptions C11_ReadByte_WriteByte.

Example C11_case : exists d s',
  run (V3Buffer.ReadBytes 1 2) ex = Done d ex /\ slice_bytes (heap ex) d = [15; 255] /\
  run (V3Buffer.WriteByte 2 7) ex = Done tt s' /\ content s' = [165; 15; 7; 8].
Proof. do 2 eexists. repeat (split; [vm_compute; reflexivity|]). vm_compute; reflexivity. Qed.

(** ** C12 *)

Theorem C12_typed_write : forall t s off data, WF s -> wf_data (tsize t) data -> data <> [] ->
  0 <= off -> off + zlen data * tsize t <= zlen (content s) ->
  exists s', run (WriteT t off data) s = Done tt s' /\ WF s' /\ bytes_set s off (encode_all t data) s'.
Proof.
  intros t s off data W Hd Hne H1 H2. pose proof (content_max s W). pose proof max_alloc_val.
  pose proof (zlen_nonneg data). pose proof (tsize_pos t).
  assert (zlen data <> 0). { destruct data; [congruence|]. rewrite zlen_cons. pose proof (zlen_nonneg data). lia. }
  pose proof (encode_all_zlen t data) as EZ. pose proof (encode_all_bytes t data) as EB.
  rewrite run_WriteT by (auto; unfold is_i64; lia).
  replace (zlen (content s) <? off + zlen data * tsize t) with false by lia.
  replace (off <? 0) with false by lia. replace (zlen data =? 0) with false by lia.
  eexists. split; [reflexivity|]. split; [apply put_WF; auto; lia|apply put_bytes_set; auto; lia].
Qed.
Print Assumptions C12_typed_write.

(** What the encoding is, format by format, on one value. *)
Example C12_encodings :
  encode U16LE 0x1234 = [0x34; 0x12] /\ encode U16BE 0x1234 = [0x12; 0x34] /\
  encode U32LE 0x12345678 = [0x78; 0x56; 0x34; 0x12] /\ encode U32BE 0x12345678 = [0x12; 0x34; 0x56; 0x78] /\
  encode U64LE 0x0102030405060708 = [8; 7; 6; 5; 4; 3; 2; 1] /\
  encode U64BE 0x0102030405060708 = [1; 2; 3; 4; 5; 6; 7; 8] /\
  encode I16BE (-2) = [255; 254] /\ encode I32LE (-42) = [214; 255; 255; 255] /\
  encode F32BE 0x3F800000 (* 1.0 *) = [0x3F; 0x80; 0; 0].
Proof. repeat split; reflexivity. Qed.

Example C12_case : exists s',
  run (WriteT I32LE 4 [-42; 69]) ex_zero = Done tt s' /\
  content s' = [0; 0; 0; 0; 214; 255; 255; 255; 69; 0; 0; 0].
Proof. eexists. split; [vm_compute; reflexivity|]. vm_compute; reflexivity. Qed.

(** ** C13 *)

(** The values returned are in the format, and their encodings are the bytes read. *)
Theorem C13_typed_read : forall t s off n, WF s ->
  1 <= n -> 0 <= off -> off + n * tsize t <= zlen (content s) ->
  exists vs, run (ReadT t off n) s = Done vs s /\ zlen vs = n /\ Forall (in_format t) vs /\
    encode_all t vs = sub (content s) off (n * tsize t).
Proof.
  intros t s off n W H1 H2 H3. pose proof (content_max s W). pose proof max_alloc_val. pose proof (tsize_pos t).
  eexists. split; [apply run_ReadT_ok; auto; unfold is_i64; lia|].
  pose proof (content_bytes s W) as B.
  split; [unfold zlen; rewrite decode_all_length; lia|].
  split; [apply decode_all_in_format; auto; lia|].
  rewrite encode_all_decode_all by (auto; lia). now rewrite Z2Nat.id by lia.
Qed.
Print Assumptions C13_typed_read.

(** Those values are the only ones. *)
Theorem C13_encoding_injective : forall t vs vs', Forall (in_format t) vs -> Forall (in_format t) vs' ->
  length vs = length vs' -> encode_all t vs = encode_all t vs' -> vs = vs'.
Proof.
  intros t vs vs' H H' L E.
  pose proof (decode_all_encode_all t vs [] H) as D. pose proof (decode_all_encode_all t vs' [] H') as D'.
  rewrite <- D, <- D'. now rewrite E, L.
Qed.
Print Assumptions C13_encoding_injective.

Example C13_case :
  run (ReadT U16LE 0 2) ex = Done [4005; 2303] ex /\ run (ReadT I16BE 0 2) ex = Done [-23281; -248] ex.
Proof. split; vm_compute; reflexivity. Qed.

(** ** C14 *)

Theorem C14_write_read : forall t s off data, WF s -> wf_data (tsize t) data -> data <> [] ->
  Forall (in_format t) data -> 0 <= off -> off + zlen data * tsize t <= zlen (content s) ->
  exists s', run (WriteT t off data) s = Done tt s' /\
    run (ReadT t off (zlen data)) s' = Done data s'.
Proof.
  intros t s off data W Hd Hne Hf H1 H2. pose proof (content_max s W). pose proof max_alloc_val.
  pose proof (tsize_pos t). pose proof (encode_all_zlen t data) as EZ. pose proof (zlen_nonneg data).
  assert (zlen data <> 0). { destruct data; [congruence|]. rewrite zlen_cons. pose proof (zlen_nonneg data). lia. }
  destruct (C12_typed_write t s off data W Hd Hne H1 H2) as (s' & E & W' & F).
  exists s'. split; [exact E|]. assert (L : zlen (content s') = zlen (content s)) by apply F.
  apply bytes_set_content in F; [|auto|lia].
  rewrite (run_ReadT_ok t s' off (zlen data)); auto; try lia; [|unfold is_i64; lia].
  f_equal. rewrite F. unfold zlen at 1. rewrite Nat2Z.id. apply decode_all_put; auto.
Qed.
Print Assumptions C14_write_read.

Theorem C14_read_write : forall t s off n, WF s ->
  1 <= n -> 0 <= off -> off + n * tsize t <= zlen (content s) ->
  exists vs, run (ReadT t off n) s = Done vs s /\ run (WriteT t off vs) s = Done tt s.
Proof.
  intros t s off n W H1 H2 H3. destruct (C13_typed_read t s off n W H1 H2 H3) as (vs & E & L & F & En).
  exists vs. split; [exact E|]. pose proof (content_max s W). pose proof max_alloc_val. pose proof (tsize_pos t).
  rewrite (run_WriteT t s off vs); auto; try (unfold is_i64; lia); [|unfold wf_data; lia]. rewrite L.
  replace (zlen (content s) <? off + n * tsize t) with false by lia.
  replace (off <? 0) with false by lia. replace (n =? 0) with false by lia.
  f_equal. rewrite En, put_sub_same by lia. now apply with_content_same.
Qed.
Print Assumptions C14_read_write.

Example C14_case : exists s',
  run (WriteT I64BE 2 [-5]) ex_zero = Done tt s' /\ run (ReadT I64BE 2 1) s' = Done [-5] s'.
Proof. eexists. split; [vm_compute; reflexivity|]. vm_compute; reflexivity. Qed.

(** ** C15 *)

(** Byte reversal of a value of format [t]. *)
Definition byte_reverse (t : numty) (x : Z) : Z := decode t (rev (encode t x)).

Lemma width_tsize t t' : ty_width t = ty_width t' -> tsize t = tsize t' /\ ty_bytes t = ty_bytes t'.
Proof. intro H. unfold tsize, ty_bytes. rewrite H. auto. Qed.

Lemma decode_all_other t t' (f : Z -> Z) :
  tsize t = tsize t' -> (forall x, decode t' (encode t x) = f x) ->
  forall d r, decode_all t' (encode_all t d ++ r) 0 (length d) = map f d.
Proof.
  intros Ew Hf d. induction d as [|x d IH]; intro r; [reflexivity|].
  cbn [length decode_all encode_all flat_map map]. change (flat_map (encode t) d) with (encode_all t d).
  rewrite <- app_assoc. pose proof (encode_zlen t x) as Ex. f_equal.
  - rewrite <- Hf. f_equal. apply (proj1 (sub_of_app (encode t x) (encode_all t d ++ r) (tsize t') (zlen (encode_all t d ++ r)) ltac:(lia) eq_refl)).
  - rewrite Z.add_0_l, <- (IH r). apply decode_all_ext; try lia.
    + pose proof (tsize_pos t'). lia.
    + rewrite <- Ew, <- Ex. unfold sub, zlen.
      rewrite Nat2Z.id. change (Z.to_nat 0) with O. rewrite skipn_app, skipn_all, Nat.sub_diag. reflexivity.
Qed.

Lemma write_other_read t t' (f : Z -> Z) s off data :
  tsize t = tsize t' -> (forall x, decode t' (encode t x) = f x) ->
  WF s -> wf_data (tsize t) data -> data <> [] ->
  0 <= off -> off + zlen data * tsize t <= zlen (content s) ->
  exists s', run (WriteT t off data) s = Done tt s' /\
    run (ReadT t' off (zlen data)) s' = Done (map f data) s'.
Proof.
  intros Ew Hf W Hd Hne H1 H2. pose proof (content_max s W). pose proof max_alloc_val.
  pose proof (tsize_pos t). pose proof (encode_all_zlen t data) as EZ. pose proof (zlen_nonneg data).
  assert (zlen data <> 0). { destruct data; [congruence|]. rewrite zlen_cons. pose proof (zlen_nonneg data). lia. }
  destruct (C12_typed_write t s off data W Hd Hne H1 H2) as (s' & E & W' & F).
  exists s'. split; [exact E|]. assert (L : zlen (content s') = zlen (content s)) by apply F.
  apply bytes_set_content in F; [|auto|lia].
  rewrite (run_ReadT_ok t' s' off (zlen data)); auto; try lia; [|unfold is_i64; lia].
  f_equal. rewrite F. unfold zlen at 1. rewrite Nat2Z.id.
  rewrite <- (decode_all_other t t' f Ew Hf data []). apply decode_all_ext; try lia.
  rewrite app_nil_r. change (Z.of_nat (length data)) with (zlen data). rewrite <- Ew, <- EZ.
  rewrite sub_put_same by lia. rewrite sub_all by lia. reflexivity.
Qed.

(** Opposite byte order, same sign and width: byte-reversed values. *)
Theorem C15_byte_order : forall t t' s off data,
  ty_width t = ty_width t' -> ty_sign t = ty_sign t' -> ty_endian t <> ty_endian t' ->
  WF s -> wf_data (tsize t) data -> data <> [] ->
  0 <= off -> off + zlen data * tsize t <= zlen (content s) ->
  exists s', run (WriteT t off data) s = Done tt s' /\
    run (ReadT t' off (zlen data)) s' = Done (map (byte_reverse t) data) s'.
Proof.
  intros t t' s off data Ew Es Ee W Hd Hne H1 H2. destruct (width_tsize _ _ Ew) as [Et Eb].
  apply write_other_read; auto. intro x.
  unfold byte_reverse, decode, encode. rewrite <- Es, <- Et.
  destruct (ty_endian t), (ty_endian t'); try congruence; rewrite ?rev_involutive; reflexivity.
Qed.
Print Assumptions C15_byte_order.

(** Byte reversal on unsigned values: the digits in base 256, reversed. *)
Theorem C15_byte_reverse_digits : forall t x, ty_sign t <> Signed ->
  le_bytes (ty_bytes t) (byte_reverse t x) = rev (le_bytes (ty_bytes t) x).
Proof.
  intros t x Hs. unfold byte_reverse, decode, encode.
  assert (L : length (rev (le_bytes (ty_bytes t) x)) = ty_bytes t).
  { rewrite rev_length. apply le_bytes_length. }
  assert (B : Forall is_byte (rev (le_bytes (ty_bytes t) x))).
  { apply Forall_rev. apply le_bytes_bytes. }
  pose proof (le_bytes_num _ B) as N. rewrite L in N.
  destruct (ty_sign t); try congruence; destruct (ty_endian t); rewrite ?rev_involutive; auto.
Qed.
Print Assumptions C15_byte_reverse_digits.

Lemma ty_dec_mod t t' x :
  ty_width t = ty_width t' -> ty_endian t = ty_endian t' -> ty_sign t' <> Signed ->
  decode t' (encode t x) = x mod 2 ^ (8 * tsize t).
Proof.
  intros Ew Ee Hs. destruct (width_tsize _ _ Ew) as [Et Eb].
  replace (encode t x) with (encode t' x).
  - rewrite decode_encode_mod. cbn zeta. rewrite Et. destruct (ty_sign t'); congruence.
  - unfold encode. now rewrite Ee, Eb.
Qed.

(** Same bytes read as unsigned (or as float bits): equal modulo 2^width. *)
Theorem C15_signed_as_unsigned : forall t t' s off data,
  ty_width t = ty_width t' -> ty_endian t = ty_endian t' -> ty_sign t' <> Signed ->
  WF s -> wf_data (tsize t) data -> data <> [] ->
  0 <= off -> off + zlen data * tsize t <= zlen (content s) ->
  exists s', run (WriteT t off data) s = Done tt s' /\
    run (ReadT t' off (zlen data)) s' = Done (map (fun x => x mod 2 ^ (8 * tsize t)) data) s'.
Proof.
  intros t t' s off data Ew Ee Es W Hd Hne H1 H2. destruct (width_tsize _ _ Ew) as [Et Eb].
  apply write_other_read; auto. intro x. now apply ty_dec_mod.
Qed.
Print Assumptions C15_signed_as_unsigned.

(** The signed number congruent to [x] modulo 2^n. *)
Definition to_signed (n x : Z) : Z := (x + 2 ^ (n - 1)) mod 2 ^ n - 2 ^ (n - 1).

Theorem C15_unsigned_as_signed : forall t t' s off data,
  ty_width t = ty_width t' -> ty_endian t = ty_endian t' -> ty_sign t' = Signed ->
  WF s -> wf_data (tsize t) data -> data <> [] ->
  0 <= off -> off + zlen data * tsize t <= zlen (content s) ->
  exists s', run (WriteT t off data) s = Done tt s' /\
    run (ReadT t' off (zlen data)) s' = Done (map (to_signed (8 * tsize t)) data) s'.
Proof.
  intros t t' s off data Ew Ee Es W Hd Hne H1 H2. destruct (width_tsize _ _ Ew) as [Et Eb].
  apply write_other_read; auto. intro x.
  replace (encode t x) with (encode t' x) by (unfold encode; now rewrite Ee, Eb).
  rewrite decode_encode_mod. cbn zeta. rewrite Es, Et. unfold to_signed.
  pose proof (tsize_pos t') as T. set (n := 8 * tsize t').
  assert (P : 2 ^ n = 2 * 2 ^ (n - 1)).
  { replace n with (1 + (n - 1)) at 1 by lia. rewrite Z.pow_add_r by lia. reflexivity. }
  pose proof (Z.pow_pos_nonneg 2 (n - 1)) as PP.
  assert (M : 0 <= x mod 2 ^ n < 2 ^ n) by (apply Z.mod_pos_bound; lia).
  destruct (Z.ltb_spec (x mod 2 ^ n) (2 ^ (n - 1))).
  - rewrite <- Zplus_mod_idemp_l. rewrite (Z.mod_small (x mod 2 ^ n + _)) by lia. lia.
  - rewrite <- Zplus_mod_idemp_l.
    replace (x mod 2 ^ n + 2 ^ (n - 1)) with (x mod 2 ^ n - 2 ^ (n - 1) + 1 * 2 ^ n) by lia.
    rewrite Z_mod_plus_full. rewrite (Z.mod_small (x mod 2 ^ n - _)) by lia. lia.
Qed.
Print Assumptions C15_unsigned_as_signed.

Example C15_case : exists s',
  run (WriteT I32LE 0 [-2; 513]) ex_zero = Done tt s' /\
  run (ReadT I32BE 0 2) s' = Done [-16777217; 16908288] s' /\
  run (ReadT U32LE 0 2) s' = Done [4294967294; 513] s'.
Proof. eexists. split; [vm_compute; reflexivity|]. split; vm_compute; reflexivity. Qed.

(** ** C17 *)

(** The calls that write bytes or numbers. *)
Definition is_write_opn {B} (o : opn B) : bool :=
  match o with OWriteBytes _ | OWriteByte _ | OWrite _ _ => true | _ => false end.

Theorem C17_failed_writes_change_nothing : forall s o off, WF s -> is_write_opn o = true ->
  is_i64 off -> valid_opn s o ->
  (forall e s', run (do_at off o) s = Panicked e s' -> same_state s s') /\
  (forall e s', run (do_next o) s = Panicked e s' -> same_state s s').
Proof.
  intros s o off W Hw Hoff Ho.
  assert (P : forall off, is_i64 off -> forall e s', run (do_at off o) s = Panicked e s' -> same_state s s').
  { clear off Hoff. intros off Hoff e s'. 
    assert (R : same_state s s) by (repeat split; exists []; now rewrite app_nil_r).
    destruct o; cbn in Hw; try discriminate; cbn [do_at valid_opn] in *; rewrite run_ret_unit.
    - rewrite run_WriteBytes by auto. repeat bcase; intro H; inversion H; subst; auto.
    - rewrite run_WriteByte by auto.
      assert (RA : same_state s (alloc s [v])) by (repeat split; exists [[v]]; reflexivity).
      repeat bcase; intro H; inversion H; subst; auto.
    - rewrite run_WriteT by auto. repeat bcase; intro H; inversion H; subst; auto. }
  split; [now apply P|]. intros e s' E. rewrite run_do_next in E.
  destruct (run (do_at _ o) s) eqn:R; try discriminate. inversion E; subst.
  apply (P _ (cursor_i64 s _ W) _ _ R).
Qed.
Print Assumptions C17_failed_writes_change_nothing.

(** [same_state] means that everything that can be observed is as before. *)
Theorem C17_same_state_observations : forall s s', WF s -> same_state s s' ->
  content s' = content s /\ spare s' = spare s /\ bb s' = bb s /\
  forall d, wf_arg s d -> slice_bytes (heap s') d = slice_bytes (heap s) d.
Proof.
  intros s s' W (B & _ & _ & new & H).
  assert (Q : forall d, wf_arg s d -> slice_bytes (heap s') d = slice_bytes (heap s) d).
  { intros d Hd. rewrite H. apply slice_bytes_app. apply Hd. }
  split; [|split; [|split]]; auto.
  - unfold content. rewrite B. apply Q. apply (wf_sl s W).
  - unfold spare. rewrite B, H. rewrite app_nth1; auto. now apply wf_blk.
Qed.
Print Assumptions C17_same_state_observations.

Example C17_case :
  valid_opn ex (OWrite U16LE [1; 2; 3]) /\
  run (do_at 0 (OWrite U16LE [1; 2; 3])) ex = Panicked BufferOverwriteError ex /\
  run (do_next (OWrite U32LE [1])) ex = Panicked BufferOverwriteError ex.
Proof. split; [hyp|]. split; vm_compute; reflexivity. Qed.

(** ** C18 *)

(** Size in bytes of a byte or typed access. *)
Definition access_size {B} (len : B -> Z) (o : opn B) : Z := advance_of len o.
Definition is_read_opn {B} (o : opn B) : bool :=
  match o with OReadBytes _ | OReadByte | ORead _ _ => true | _ => false end.
(** Typed accesses of no element are the subject of C20. *)
Definition nonempty_typed {B} (o : opn B) : Prop :=
  match o with OWrite _ d => d <> [] | ORead _ n => n <> 0 | _ => True end.

Lemma run_read_state s off o v s' :
  WF s -> is_i64 off -> valid_opn s o -> is_read_opn o = true -> run (do_at off o) s = Done v s' -> s' = s.
Proof.
  intros W Hoff Ho Hr. destruct o; cbn in Hr; try discriminate; cbn [do_at valid_opn] in *;
    rewrite ?run_ret_bytes, ?run_ret_int, ?run_ret_nums.
  - rewrite run_ReadBytes_raw by auto. repeat bcase; intro H; inversion H; auto.
  - rewrite run_ReadByte by auto. repeat bcase; intro H; inversion H; auto.
  - rewrite run_ReadT by auto. repeat bcase; intro H; inversion H; auto.
Qed.

(** Success exactly when the access lies in the buffer (as mathematical numbers,
    whatever overflows in the code). *)
Theorem C18_success_iff_in_range : forall s off o, WF s -> is_i64 off -> valid_opn s o ->
  is_write_opn o = true \/ is_read_opn o = true -> nonempty_typed o ->
  (exists v s', run (do_at off o) s = Done v s') <->
  0 <= off /\ 0 <= access_size s_len o /\ off + access_size s_len o <= zlen (content s).
Proof.
  intros s off o W Hoff Ho Hk Hne. pose proof (content_max s W) as CM. pose proof max_alloc_val as MV.
  pose proof (zlen_nonneg (content s)) as CN. unfold access_size.
  destruct o as [ | | | | | | d | v | n | | t d | t n]; cbn in Hk; try (destruct Hk; discriminate); clear Hk;
    cbn [do_at valid_opn advance_of nonempty_typed] in *;
    rewrite ?run_ret_bytes, ?run_ret_int, ?run_ret_nums, ?run_ret_unit.
  - rewrite run_WriteBytes by auto. destruct Ho as (_ & _ & Hl & _).
    destruct (Z.ltb_spec (zlen (content s)) (off + s_len d)).
    { split; [|intros; lia]. intros (v & s' & E). destruct (_ <? _) in E; discriminate. }
    destruct (Z.ltb_spec off 0).
    { split; [|intros; lia]. intros (v & s' & E). discriminate. }
    split; [lia|]. intros _. eauto.
  - rewrite run_WriteByte by auto.
    destruct (Z.ltb_spec (zlen (content s)) (off + 1)).
    { split; [|intros; lia]. intros (v' & s' & E). destruct (_ <? _) in E; discriminate. }
    destruct (Z.ltb_spec off 0).
    { split; [|intros; lia]. intros (v' & s' & E). discriminate. }
    split; [lia|]. intros _. eauto.
  - rewrite run_ReadBytes_raw by auto. unfold is_i64 in *.
    split.
    + intros (v & s' & E). destruct (off +! n >? zlen (content s)) eqn:E1; [discriminate|].
      destruct (Z.ltb_spec off 0); [discriminate|].
      destruct (Z.leb_spec off (off +! n)); [|discriminate].
      unfold add64, wrap64 in *. lia.
    + intros (H1 & H2 & H3). rewrite add64_id by (unfold is_i64; lia).
      replace (off + n >? zlen (content s)) with false by lia. replace (off <? 0) with false by lia.
      replace (off <=? off + n) with true by lia. eauto.
  - rewrite run_ReadByte by auto.
    destruct (Z.ltb_spec (zlen (content s)) (off + 1)).
    { split; [|intros; lia]. intros (v & s' & E). destruct (_ <? _) in E; discriminate. }
    destruct (Z.ltb_spec off 0).
    { split; [|intros; lia]. intros (v & s' & E). discriminate. }
    split; [lia|]. intros _. eauto.
  - rewrite run_WriteT by auto. pose proof (tsize_pos t).
    assert (1 <= zlen d). { destruct d; [congruence|]. rewrite zlen_cons. pose proof (zlen_nonneg d). lia. }
    destruct (Z.ltb_spec (zlen (content s)) (off + zlen d * tsize t)).
    { split; [|intros; lia]. intros (v & s' & E). destruct (_ <? _) in E; discriminate. }
    destruct (Z.ltb_spec off 0).
    { split; [|intros; lia]. intros (v & s' & E). discriminate. }
    replace (zlen d =? 0) with false by lia.
    split; [nia|]. intros _. eauto.
  - rewrite run_ReadT by auto. pose proof (tsize_pos t). unfold is_i64 in *.
    split.
    + intros (v & s' & E). destruct (off +! n *! tsize t >? zlen (content s)) eqn:E1; [discriminate|].
      destruct (Z.ltb_spec off 0); [discriminate|].
      destruct ((n <? 0) || (maxAlloc <? n * tsize t)) eqn:E2; [discriminate|].
      destruct ((n =? 0) || (zlen (content s) <? off + n * tsize t)) eqn:E3; [discriminate|].
      nia.
    + intros (H1 & H2 & H3). assert (1 <= n) by nia.
      rewrite (mul64_id n) by (unfold is_i64; nia). rewrite add64_id by (unfold is_i64; lia).
      replace (off + n * tsize t >? zlen (content s)) with false by lia. replace (off <? 0) with false by lia.
      replace ((n <? 0) || (maxAlloc <? n * tsize t)) with false by lia.
      replace ((n =? 0) || (zlen (content s) <? off + n * tsize t)) with false by lia. eauto.
Qed.
Print Assumptions C18_success_iff_in_range.

(** Which error: the Over error if the end lies beyond the buffer, else the Under
    error if the start is negative - provided the end is an int64.  [size] is
    the size of the access; the count of a read must not be negative. *)
Theorem C18_error_values : forall s off o, WF s -> is_i64 off -> valid_opn s o ->
  is_write_opn o = true \/ is_read_opn o = true -> 0 <= access_size s_len o ->
  off + access_size s_len o < 2 ^ 63 ->
  (zlen (content s) < off + access_size s_len o ->
     exists s', run (do_at off o) s =
       Panicked (if is_write_opn o then BufferOverwriteError else BufferOverreadError) s') /\
  (off < 0 -> off + access_size s_len o <= zlen (content s) ->
     exists s', run (do_at off o) s =
       Panicked (if is_write_opn o then BufferUnderwriteError else BufferUnderreadError) s').
Proof.
  intros s off o W Hoff Ho Hk Hs0 Hs. pose proof (content_max s W) as CM. pose proof max_alloc_val as MV.
  pose proof (zlen_nonneg (content s)) as CN. unfold access_size in *.
  destruct o as [ | | | | | | d | v | n | | t d | t n]; cbn in Hk; try (destruct Hk; discriminate); clear Hk;
    cbn [do_at valid_opn advance_of is_write_opn] in *;
    rewrite ?run_ret_bytes, ?run_ret_int, ?run_ret_nums, ?run_ret_unit.
  - rewrite run_WriteBytes by auto. split; intros.
    + replace (zlen (content s) <? off + s_len d) with true by lia.
      replace (off + s_len d <? 2 ^ 63) with true by lia. eauto.
    + replace (zlen (content s) <? off + s_len d) with false by lia.
      replace (off <? 0) with true by lia. eauto.
  - rewrite run_WriteByte by auto. split; intros.
    + replace (zlen (content s) <? off + 1) with true by lia.
      replace (off + 1 <? 2 ^ 63) with true by lia. eauto.
    + replace (zlen (content s) <? off + 1) with false by lia.
      replace (off <? 0) with true by lia. eauto.
  - rewrite run_ReadBytes_raw by auto. unfold is_i64 in *. rewrite add64_id by (unfold is_i64; lia). split; intros.
    + replace (off + n >? zlen (content s)) with true by lia. eauto.
    + replace (off + n >? zlen (content s)) with false by lia.
      replace (off <? 0) with true by lia. eauto.
  - rewrite run_ReadByte by auto. split; intros.
    + replace (zlen (content s) <? off + 1) with true by lia.
      replace (off + 1 <? 2 ^ 63) with true by lia. eauto.
    + replace (zlen (content s) <? off + 1) with false by lia.
      replace (off <? 0) with true by lia. eauto.
  - rewrite run_WriteT by auto. split; intros.
    + replace (zlen (content s) <? off + zlen d * tsize t) with true by lia.
      replace (off + zlen d * tsize t <? 2 ^ 63) with true by lia. eauto.
    + replace (zlen (content s) <? off + zlen d * tsize t) with false by lia.
      replace (off <? 0) with true by lia. eauto.
  - rewrite run_ReadT by auto. pose proof (tsize_pos t). unfold is_i64 in *.
    destruct (Z.ltb_spec (n * tsize t) (2 ^ 63)).
    + rewrite (mul64_id n) by (unfold is_i64; lia). rewrite add64_id by (unfold is_i64; lia). split; intros.
      * replace (off + n * tsize t >? zlen (content s)) with true by lia. eauto.
      * replace (off + n * tsize t >? zlen (content s)) with false by lia.
        replace (off <? 0) with true by lia. eauto.
    + (* the product overflows but the sum does not: off is very negative *)
      assert (E : off +! n *! tsize t = off + n * tsize t).
      { unfold mul64. rewrite add64_wrap. apply add64_id. unfold is_i64; lia. }
      rewrite E. split; intros.
      * replace (off + n * tsize t >? zlen (content s)) with true by lia. eauto.
      * replace (off + n * tsize t >? zlen (content s)) with false by lia.
        replace (off <? 0) with true by lia. eauto.
Qed.
Print Assumptions C18_error_values.

(** Everything else fails with a Go panic and nothing changed: no call of the
    family blocks or faults, and no failing read changes anything. *)
Theorem C18_reads_change_nothing : forall s off o, WF s -> is_i64 off -> valid_opn s o ->
  is_read_opn o = true ->
  (exists v, run (do_at off o) s = Done v s) \/ (exists e, run (do_at off o) s = Panicked e s).
Proof.
  intros s off o W Hoff Ho Hr. destruct o; cbn in Hr; try discriminate; cbn [do_at valid_opn] in *;
    rewrite ?run_ret_bytes, ?run_ret_int, ?run_ret_nums.
  - rewrite run_ReadBytes_raw by auto. repeat bcase; eauto.
  - rewrite run_ReadByte by auto. repeat bcase; eauto.
  - rewrite run_ReadT by auto. repeat bcase; eauto.
Qed.
Print Assumptions C18_reads_change_nothing.

Example C18_case :
  run (do_at 3 (ORead U16LE 1)) ex = Panicked BufferOverreadError ex /\
  run (do_at (-1) (ORead U16LE 1)) ex = Panicked BufferUnderreadError ex /\
  (exists v, run (do_at 2 (ORead U16LE 1)) ex = Done v ex).
Proof. split; [|split]; try eexists; vm_compute; reflexivity. Qed.

(** ** C19 *)

(** The full statement (every access outside the buffer is reported with a
    crunch error) is false for every byte and typed accessor. *)
Definition is_crunch_error (e : err) : Prop := match e with CrunchError _ _ => True | RuntimeError _ => False end.

Theorem C19_crunch_error_refuted : forall o : opn slice,
  (exists d, o = OWriteBytes d /\ d = mkSlice 1 0 3 3) \/ o = OWriteByte 7 \/ o = OReadBytes 1 \/
  o = OReadByte \/ (exists t, o = OWrite t [1]) \/ (exists t, o = ORead t 1) ->
  valid_opn ex o /\ is_i64 (2 ^ 63 - 1) /\ zlen (content ex) < (2 ^ 63 - 1) + access_size s_len o /\
  ~ (forall e s', run (do_at (2 ^ 63 - 1) o) ex = Panicked e s' -> is_crunch_error e) /\
  (exists k s', run (do_at (2 ^ 63 - 1) o) ex = Panicked (RuntimeError k) s').
Proof.
  intros o H.
  assert (Q : forall k s', run (do_at (2 ^ 63 - 1) o) ex = Panicked (RuntimeError k) s' ->
    ~ (forall e s', run (do_at (2 ^ 63 - 1) o) ex = Panicked e s' -> is_crunch_error e) /\
    (exists k s', run (do_at (2 ^ 63 - 1) o) ex = Panicked (RuntimeError k) s')).
  { intros k s' E. split; [|eauto]. intro F. apply (F _ _ E). }
  destruct H as [(d & -> & ->)|[->|[->|[->|[(t & ->)|(t & ->)]]]]].
  - split; [unfold valid_opn, wf_arg, wf_slice; cbn; repeat split; try lia; hyp|].
    split; [hyp|]. split; [hyp|]. eapply Q. vm_compute. reflexivity.
  - split; [hyp|]. split; [hyp|]. split; [hyp|]. eapply Q. vm_compute. reflexivity.
  - split; [hyp|]. split; [hyp|]. split; [hyp|]. eapply Q. vm_compute. reflexivity.
  - split; [hyp|]. split; [hyp|]. split; [hyp|]. eapply Q. vm_compute. reflexivity.
  - destruct t; (split; [hyp|]; split; [hyp|]; split; [hyp|]; eapply Q; vm_compute; reflexivity).
  - destruct t; (split; [hyp|]; split; [hyp|]; split; [hyp|]; eapply Q; vm_compute; reflexivity).
Qed.
Print Assumptions C19_crunch_error_refuted.

(** ** C20 *)

Theorem C20_empty_typed_calls_panic : forall t s off, WF s -> 0 <= off <= zlen (content s) ->
  run (WriteT t off []) s = Panicked (RuntimeError IndexOutOfRange) s /\
  run (ReadT t off 0) s = Panicked (RuntimeError IndexOutOfRange) s.
Proof.
  intros t s off W H. pose proof (content_max s W). pose proof max_alloc_val. pose proof (tsize_pos t).
  assert (I : is_i64 off) by (unfold is_i64; lia).
  split.
  - rewrite run_WriteT; auto; [|unfold wf_data; vm_compute; discriminate].
    change (zlen (@nil Z)) with 0. rewrite Z.mul_0_l.
    replace (zlen (content s) <? off + 0) with false by lia. now replace (off <? 0) with false by lia.
  - rewrite (run_ReadT t s off 0) by auto. unfold mul64. rewrite add64_wrap, Z.mul_0_l.
    rewrite add64_id by (rewrite Z.add_0_r; auto).
    replace (off + 0 >? zlen (content s)) with false by lia. replace (off <? 0) with false by lia.
    replace (maxAlloc <? 0) with false by lia. reflexivity.
Qed.
Print Assumptions C20_empty_typed_calls_panic.

Theorem C20_empty_byte_calls_succeed : forall s off d, WF s -> 0 <= off <= zlen (content s) ->
  wf_arg s d -> s_len d = 0 ->
  run (V3Buffer.WriteBytes off d) s = Done tt s /\
  exists r, run (V3Buffer.ReadBytes off 0) s = Done r s /\ slice_bytes (heap s) r = [].
Proof.
  intros s off d W H Hd Hl. pose proof (content_max s W). pose proof max_alloc_val.
  assert (I : is_i64 off) by (unfold is_i64; lia). split.
  - rewrite run_WriteBytes by auto. rewrite Hl.
    replace (zlen (content s) <? off + 0) with false by lia. replace (off <? 0) with false by lia.
    pose proof (wf_slice_bytes_zlen _ _ Hd) as Z1. rewrite Hl in Z1. apply zlen_0_nil in Z1. rewrite Z1.
    rewrite put_nil. now rewrite with_content_same.
  - eexists. split; [apply run_ReadBytes_ok; auto; lia|]. reflexivity.
Qed.
Print Assumptions C20_empty_byte_calls_succeed.

Example C20_case :
  run (WriteT F64BE 4 []) ex = Panicked (RuntimeError IndexOutOfRange) ex /\
  run (V3Buffer.WriteBytes 4 (mkSlice 1 2 0 1)) ex = Done tt ex.
Proof. split; vm_compute; reflexivity. Qed.
