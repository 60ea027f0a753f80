(** * Props_Stream: properties C23, C24 and C55 of the v3 [Buffer]: serialization
    by Next calls, and independence of disjoint accesses. *)
From Coq Require Import ZArith List Bool Lia ZifyBool.
From Verif Require Import GoSem Errors Spec GoLemmas BitLemmas CodecLemmas Typed V3BitLemmas V3ByteLemmas
  TypedCanon TypedLemmas TypedReadLemmas Calls Abs Frame Sim Witness.
From Verif Require V3Buffer.
From Verif Require Import Props_Bytes Props_State.
Import ListNotations.
Open Scope Z_scope.
Open Scope go_scope.

(** ** C23 *)

(** A record: a byte string, one byte, or numbers of one format. *)
Inductive record : Type :=
| RecBytes (l : list Z)
| RecByte (v : Z)
| RecNums (t : numty) (d : list Z).

Definition valid_record (r : record) : Prop :=
  match r with
  | RecBytes l => Forall is_byte l /\ zlen l <= maxAlloc
  | RecByte v => is_byte v
  | RecNums t d => d <> [] /\ Forall (in_format t) d /\ wf_data (tsize t) d
  end.

(** Its encoding. *)
Definition record_bytes (r : record) : list Z :=
  match r with RecBytes l => l | RecByte v => [v] | RecNums t d => encode_all t d end.

(** Writing it: the byte string is a slice literal of the caller's. *)
Definition write_record (r : record) : prog (rv slice) :=
  match r with
  | RecBytes l => d <- lit_bytes l ;; do_next (OWriteBytes d)
  | RecByte v => do_next (OWriteByte v)
  | RecNums t d => do_next (OWrite t d)
  end.
(** Reading one of the same shape, and what should come back. *)
Definition read_record (r : record) : prog (rv slice) :=
  match r with
  | RecBytes l => do_next (OReadBytes (zlen l))
  | RecByte _ => do_next OReadByte
  | RecNums t d => do_next (ORead t (zlen d))
  end.
Definition record_value (r : record) : rv (list Z) :=
  match r with RecBytes l => RBytes l | RecByte v => RInt v | RecNums t d => RNums d end.

Fixpoint write_records (rs : list record) : prog unit :=
  match rs with [] => Ret tt | r :: rs => write_record r ;; write_records rs end.
Fixpoint read_records (rs : list record) : prog (list (rv slice)) :=
  match rs with [] => Ret [] | r :: rs => v <- read_record r ;; vs <- read_records rs ;; Ret (v :: vs) end.

(** Arguments of a method call leave the rest of the state alone. *)
Lemma write_opn_next s o e :
  WF s -> valid_opn s o -> is_write_opn o = true ->
  0 <= b_off (bb s) -> b_off (bb s) + zlen e <= zlen (content s) ->
  abs_at (b_off (bb s)) (abs_opn s o) (abs s) = Ok RUnit (set_bytes (abs s) (put (content s) (b_off (bb s)) e)) ->
  advance_of s_len o = zlen e ->
  exists s', run (do_next o) s = Done RUnit s' /\ WF s' /\
    content s' = put (content s) (b_off (bb s)) e /\
    b_off (bb s') = b_off (bb s) + zlen e /\ b_boff (bb s') = b_boff (bb s).
Proof.
  intros W Ho Hw H1 H2 A Adv. pose proof (content_max s W). pose proof max_alloc_val. pose proof (zlen_nonneg e).
  pose proof (do_next_sim s o W Ho) as S. unfold abs_next in S.
  rewrite bit_addressed_abs, advance_abs in S by auto.
  replace (bit_addressed o) with false in S by (destruct o; try discriminate; reflexivity).
  change (a_off (abs s)) with (b_off (bb s)) in S. rewrite A in S. rewrite Adv in S.
  cbn [set_off set_bytes a_bytes a_spare a_off a_boff abs] in S.
  rewrite add64_id in S by (unfold is_i64; lia).
  destruct (run (do_next o) s) as [v s'|er s'|s'|]; cbn [sim] in S; try contradiction; destruct S as [S G]; try discriminate.
  inversion S as [[S1 S2 S3 S4 S5]]. exists s'.
  assert (v = RUnit) by (destruct v; cbn in S1; congruence). subst v.
  split; [reflexivity|]. split; [apply G|]. unfold abs in *. auto.
Qed.

Lemma write_record_ok s r :
  WF s -> valid_record r -> 0 <= b_off (bb s) -> b_off (bb s) + zlen (record_bytes r) <= zlen (content s) ->
  exists s', run (write_record r) s = Done RUnit s' /\ WF s' /\
    content s' = put (content s) (b_off (bb s)) (record_bytes r) /\
    b_off (bb s') = b_off (bb s) + zlen (record_bytes r) /\ b_boff (bb s') = b_boff (bb s).
Proof.
  intros W V H1 H2. destruct r as [l|v|t d]; cbn [record_bytes write_record valid_record] in *.
  - destruct V as [Vl Vm]. rewrite run_lit_bytes. destruct (lit_wf s l) as [L1 L2].
    set (d := mkSlice (length (heap s)) 0 (zlen l) (zlen l)) in *.
    assert (WA : WF (alloc s l)) by now apply alloc_WF.
    assert (CA : content (alloc s l) = content s) by now apply content_alloc.
    replace (content s) with (content (alloc s l)) by exact CA.
    change (b_off (bb s)) with (b_off (bb (alloc s l))). change (b_boff (bb s)) with (b_boff (bb (alloc s l))).
    apply write_opn_next; auto.
    + now rewrite CA.
    + cbn [abs_opn abs_at abs a_bytes]. rewrite L2, CA. change (b_off (bb (alloc s l))) with (b_off (bb s)).
      replace (zlen (content s) <? b_off (bb s) + zlen l) with false by lia.
      replace (b_off (bb s) <? 0) with false by lia. reflexivity.
  - apply write_opn_next; auto.
    cbn [abs_opn abs_at abs a_bytes]. change (zlen [v]) with 1 in H2.
    replace (zlen (content s) <? b_off (bb s) + 1) with false by lia.
    replace (b_off (bb s) <? 0) with false by lia. reflexivity.
  - destruct V as (V1 & V2 & V3). rewrite encode_all_zlen in H2. apply write_opn_next; auto.
    + now rewrite encode_all_zlen.
    + cbn [abs_opn abs_at abs a_bytes].
      replace (zlen (content s) <? b_off (bb s) + zlen d * tsize t) with false by lia.
      replace (b_off (bb s) <? 0) with false by lia.
      assert (zlen d <> 0). { destruct d; [congruence|]. rewrite zlen_cons. pose proof (zlen_nonneg d). lia. }
      replace (zlen d =? 0) with false by lia. reflexivity.
    + cbn [advance_of]. now rewrite encode_all_zlen.
Qed.

Definition records_bytes (rs : list record) : list Z := flat_map record_bytes rs.

Lemma write_records_ok rs : forall s,
  WF s -> Forall valid_record rs -> 0 <= b_off (bb s) ->
  b_off (bb s) + zlen (records_bytes rs) <= zlen (content s) ->
  exists s', run (write_records rs) s = Done tt s' /\ WF s' /\
    content s' = put (content s) (b_off (bb s)) (records_bytes rs) /\
    b_off (bb s') = b_off (bb s) + zlen (records_bytes rs) /\ b_boff (bb s') = b_boff (bb s).
Proof.
  induction rs as [|r rs IH]; intros s W V H1 H2; cbn [write_records records_bytes flat_map] in *.
  - exists s. split; [reflexivity|]. split; [exact W|]. rewrite put_nil. change (zlen (@nil Z)) with 0. auto with zarith.
  - fold (records_bytes rs) in *. rewrite zlen_app in *. inversion V as [|? ? V1 V2]; subst.
    pose proof (zlen_nonneg (records_bytes rs)). pose proof (zlen_nonneg (record_bytes r)).
    destruct (write_record_ok s r) as (s1 & E1 & W1 & C1 & O1 & B1); auto; try lia.
    assert (Z1 : zlen (content s1) = zlen (content s)) by (rewrite C1; apply put_length; lia).
    destruct (IH s1) as (s2 & E2 & W2 & C2 & O2 & B2); auto; try lia.
    exists s2. rewrite run_bind, E1. split; [exact E2|]. split; [exact W2|].
    rewrite C2, C1, O1, put_put_adj by lia. split; [reflexivity|]. split; [lia|congruence].
Qed.

Lemma read_record_ok s r off :
  WF s -> valid_record r -> b_off (bb s) = off -> 0 <= off ->
  sub (content s) off (zlen (record_bytes r)) = record_bytes r ->
  off + zlen (record_bytes r) <= zlen (content s) ->
  exists v, run (read_record r) s = Done v (with_off s (off + zlen (record_bytes r))) /\
    forall s', heap s' = heap s -> view_rv s' v = record_value r.
Proof.
  intros W V Eo H1 Hs H2. pose proof (content_max s W). pose proof max_alloc_val.
  pose proof (zlen_nonneg (record_bytes r)).
  assert (I : is_i64 off) by (unfold is_i64; lia).
  destruct r as [l|v|t d]; cbn [read_record record_value record_bytes valid_record] in *;
    rewrite run_do_next; cbn [bit_addressed cursor with_cursor do_at advance_of]; rewrite ?run_ret_bytes, ?run_ret_int, ?run_ret_nums;
    rewrite Eo.
  - rewrite run_ReadBytes_ok by (auto; lia). rewrite Eo, add64_id by (unfold is_i64; lia).
    eexists. split; [reflexivity|]. intros s' Hh. cbn [view_rv]. rewrite Hh.
    destruct (window_bytes s off (zlen l)) as [_ ->]; auto; try lia. rewrite <- content_zlen by auto. lia.
    now rewrite Hs.
  - change (zlen [v]) with 1 in *. rewrite run_ReadByte by auto.
    replace (zlen (content s) <? off + 1) with false by lia. replace (off <? 0) with false by lia.
    rewrite Eo, add64_id by (unfold is_i64; lia). eexists. split; [reflexivity|]. intros s' Hh. cbn [view_rv].
    f_equal. rewrite sub_one in Hs by lia. congruence.
  - destruct V as (V1 & V2 & V3). rewrite encode_all_zlen in *. pose proof (tsize_pos t).
    assert (zlen d <> 0). { destruct d; [congruence|]. rewrite zlen_cons. pose proof (zlen_nonneg d). lia. }
    pose proof (zlen_nonneg d).
    rewrite (run_ReadT_ok t s off (zlen d)) by (auto; lia). rewrite Eo, add64_id by (unfold is_i64; lia).
    eexists. split; [reflexivity|]. intros s' Hh. cbn [view_rv]. f_equal.
    rewrite <- (decode_all_encode_all t d []) at 2 by auto. unfold zlen at 1. rewrite Nat2Z.id.
    apply decode_all_ext; try lia. rewrite app_nil_r.
    change (Z.of_nat (length d)) with (zlen d). rewrite Hs. rewrite <- encode_all_zlen. now rewrite sub_all by lia.
Qed.

Lemma read_records_ok rs : forall s,
  WF s -> Forall valid_record rs -> 0 <= b_off (bb s) ->
  b_off (bb s) + zlen (records_bytes rs) <= zlen (content s) ->
  sub (content s) (b_off (bb s)) (zlen (records_bytes rs)) = records_bytes rs ->
  exists vs, run (read_records rs) s = Done vs (with_off s (b_off (bb s) + zlen (records_bytes rs))) /\
    forall s', heap s' = heap s -> map (view_rv s') vs = map record_value rs.
Proof.
  induction rs as [|r rs IH]; intros s W V H1 H2 Hs; cbn [read_records records_bytes flat_map map] in *.
  - exists []. split; [|reflexivity]. cbn. change (zlen (@nil Z)) with 0. rewrite Z.add_0_r.
    destruct s as [h [] m o]; reflexivity.
  - fold (records_bytes rs) in *. rewrite zlen_app in *. inversion V as [|? ? V1 V2]; subst.
    pose proof (zlen_nonneg (records_bytes rs)). pose proof (zlen_nonneg (record_bytes r)).
    set (off := b_off (bb s)) in *.
    rewrite sub_app_split in Hs by lia.
    assert (L1 : zlen (sub (content s) off (zlen (record_bytes r))) = zlen (record_bytes r)) by (apply sub_length; lia).
    assert (Hs2 : sub (content s) off (zlen (record_bytes r)) = record_bytes r /\
             sub (content s) (off + zlen (record_bytes r)) (zlen (records_bytes rs)) = records_bytes rs).
    { apply History.app_inj_zlen; auto. }
    destruct Hs2 as [Hr Hrs].
    destruct (read_record_ok s r off) as (v & E1 & Q1); auto; try lia.
    pose proof (content_max s W). pose proof max_alloc_val.
    set (s1 := with_off s (off + zlen (record_bytes r))) in *.
    assert (W1 : WF s1) by (apply with_off_WF; auto; unfold is_i64; lia).
    assert (C1 : content s1 = content s) by reflexivity.
    assert (O1 : b_off (bb s1) = off + zlen (record_bytes r)) by reflexivity.
    destruct (IH s1) as (vs & E2 & Q2); auto; try (rewrite ?C1, ?O1; auto; lia).
    exists (v :: vs). split.
    + rewrite run_bind, E1, run_bind, E2. cbn [run]. f_equal. rewrite O1.
      replace (off + zlen (record_bytes r) + zlen (records_bytes rs)) with
        (off + (zlen (record_bytes r) + zlen (records_bytes rs))) by lia. reflexivity.
    + intros s' Hh. cbn [map]. rewrite Q1 by auto. f_equal. apply Q2. exact Hh.
Qed.

(** Write all, seek back to where we started, read all: the values come back in
    order; the buffer holds the concatenation of the encodings, and nothing else
    has changed in it. *)
Theorem C23_records : forall s rs, WF s -> Forall valid_record rs ->
  0 <= b_off (bb s) -> b_off (bb s) + zlen (flat_map record_bytes rs) <= zlen (content s) ->
  exists s1 s2 vs,
    run (write_records rs) s = Done tt s1 /\
    content s1 = put (content s) (b_off (bb s)) (flat_map record_bytes rs) /\
    b_off (bb s1) = b_off (bb s) + zlen (flat_map record_bytes rs) /\
    run (V3Buffer.SeekByte (b_off (bb s)) false ;; read_records rs) s1 = Done vs s2 /\
    map (view_rv s2) vs = map record_value rs /\
    content s2 = content s1 /\ b_off (bb s2) = b_off (bb s1).
Proof.
  intros s rs W V H1 H2. change (flat_map record_bytes rs) with (records_bytes rs) in *.
  destruct (write_records_ok rs s W V H1 H2) as (s1 & E & W1 & C1 & O1 & B1).
  pose proof (content_max s W). pose proof max_alloc_val. pose proof (zlen_nonneg (records_bytes rs)).
  assert (Z1 : zlen (content s1) = zlen (content s)) by (rewrite C1; apply put_length; lia).
  set (s1' := with_off s1 (b_off (bb s))).
  assert (W1' : WF s1') by (apply with_off_WF; auto; unfold is_i64; lia).
  assert (C1' : content s1' = content s1) by reflexivity.
  assert (O1' : b_off (bb s1') = b_off (bb s)) by reflexivity.
  destruct (read_records_ok rs s1') as (vs & E2 & Q); auto; try (rewrite O1', C1'; lia); try (rewrite O1'; lia).
  { rewrite C1', O1', C1. apply sub_put_same; lia. }
  do 3 eexists. split; [exact E|]. split; [exact C1|]. split; [exact O1|].
  split; [rewrite run_bind, run_SeekByte; exact E2|].
  split; [apply Q; reflexivity|]. split; [reflexivity|]. cbn. lia.
Qed.
Print Assumptions C23_records.

Example C23_case :
  Forall valid_record [RecByte 7; RecNums I16BE [-2; 3]; RecBytes [104; 105]; RecNums U32LE [1]] /\
  exists s1, run (write_records [RecByte 7; RecNums I16BE [-2; 3]; RecBytes [104; 105]; RecNums U32LE [1]]) ex_zero = Done tt s1 /\
  content s1 = [7; 255; 254; 0; 3; 104; 105; 1; 0; 0; 0; 0].
Proof.
  split.
  - repeat constructor; try discriminate; vm_compute; intuition discriminate.
  - eexists. split; [vm_compute; reflexivity|]. vm_compute; reflexivity.
Qed.

(** ** C24 *)

(** Fields: a value and a width from 1 to 64. *)
Definition valid_field (f : Z * Z) : Prop := is_u64 (fst f) /\ 1 <= snd f <= 64.
Fixpoint write_fields (fs : list (Z * Z)) : prog unit :=
  match fs with [] => Ret tt | (v, w) :: fs => V3Buffer.SetBitsNext v w ;; write_fields fs end.
Fixpoint read_fields (ws : list Z) : prog (list Z) :=
  match ws with [] => Ret [] | w :: ws => v <- V3Buffer.ReadBitsNext w ;; vs <- read_fields ws ;; Ret (v :: vs) end.
Definition total_width (fs : list (Z * Z)) : Z := fold_right (fun f n => snd f + n) 0 fs.

Lemma total_width_nonneg fs : Forall valid_field fs -> 0 <= total_width fs.
Proof. induction 1 as [|[v w] fs [_ H] _ IH]; cbn in *; [|unfold total_width in IH]; lia. Qed.

Lemma run_SetBitsNext s v w :
  WF s -> is_u64 v -> 1 <= w <= 64 -> 0 <= b_boff (bb s) -> b_boff (bb s) + w <= 8 * zlen (content s) ->
  let l := put_bits (content s) (b_boff (bb s)) (field_bit v w) (Z.to_nat w) in
  exists s', run (V3Buffer.SetBitsNext v w) s = Done tt s' /\ WF s' /\ content s' = l /\
    b_off (bb s') = b_off (bb s) /\ b_boff (bb s') = b_boff (bb s) + w.
Proof.
  intros W Hv Hw H1 H2 l. pose proof (content_max s W). pose proof max_alloc_val.
  pose proof (run_do_next (OSetBits v w) s) as N. cbn [do_next do_at bit_addressed cursor with_cursor advance_of] in N.
  rewrite !run_ret_unit in N. rewrite run_SetBits in N by (auto; lia).
  destruct (put_bits_WF s (b_boff (bb s)) (field_bit v w) (Z.to_nat w)) as (W1 & C1 & Z1); auto; try lia.
  fold l in N, W1, C1, Z1. change (b_boff (bb (with_content s l))) with (b_boff (bb s)) in N.
  rewrite add64_id in N by (unfold is_i64; lia).
  destruct (run (V3Buffer.SetBitsNext v w) s) as [[] s'|e s'|s'|]; try discriminate. inversion N; subst s'.
  eexists. split; [reflexivity|]. split; [apply with_boff_WF; auto; unfold is_i64; lia|].
  split; [exact C1|]. split; reflexivity.
Qed.

Lemma run_ReadBitsNext s w :
  WF s -> 1 <= w <= 64 -> 0 <= b_boff (bb s) -> b_boff (bb s) + w <= 8 * zlen (content s) ->
  run (V3Buffer.ReadBitsNext w) s =
    Done (bits_num (content s) (b_boff (bb s)) (Z.to_nat w)) (with_boff s (b_boff (bb s) + w)).
Proof.
  intros W Hw H1 H2. pose proof (content_max s W). pose proof max_alloc_val.
  pose proof (run_do_next (OReadBits w) s) as N. cbn [do_next do_at bit_addressed cursor with_cursor advance_of] in N.
  rewrite !run_ret_int in N. rewrite run_ReadBits in N by (auto; lia). cbn iota beta in N.
  rewrite add64_id in N by (unfold is_i64; lia).
  rewrite Z.mod_small in N.
  2:{ pose proof (bits_num_range (content s) (b_boff (bb s)) (Z.to_nat w)) as R. rewrite Z2Nat.id in R by lia.
      assert (2 ^ w <= 2 ^ 64) by (apply Z.pow_le_mono_r; lia). lia. }
  destruct (run (V3Buffer.ReadBitsNext w) s) as [x s'|e s'|s'|]; try discriminate. inversion N; reflexivity.
Qed.

Lemma write_fields_ok fs : forall s,
  WF s -> Forall valid_field fs -> 0 <= b_boff (bb s) -> b_boff (bb s) + total_width fs <= 8 * zlen (content s) ->
  exists s', run (write_fields fs) s = Done tt s' /\ WF s' /\ zlen (content s') = zlen (content s) /\
    b_off (bb s') = b_off (bb s) /\ b_boff (bb s') = b_boff (bb s) + total_width fs /\
    (forall j, 0 <= j < b_boff (bb s) \/ b_boff (bb s) + total_width fs <= j ->
       bit_at (content s') j = bit_at (content s) j) /\
    forall s'', WF s'' -> zlen (content s'') = zlen (content s') ->
      (forall j, b_boff (bb s) <= j < b_boff (bb s) + total_width fs -> bit_at (content s'') j = bit_at (content s') j) ->
      b_boff (bb s'') = b_boff (bb s) ->
      run (read_fields (map snd fs)) s'' =
        Done (map (fun f => fst f mod 2 ^ snd f) fs) (with_boff s'' (b_boff (bb s) + total_width fs)).
Proof.
  induction fs as [|[v w] fs IH]; intros s W V H1 H2; cbn [write_fields read_fields map total_width fold_right fst snd] in *.
  - exists s. split; [reflexivity|]. split; [exact W|]. do 2 (split; [reflexivity|]). split; [lia|]. split; [reflexivity|].
    intros s'' _ _ _ E. cbn. rewrite Z.add_0_r, <- E. destruct s'' as [h [] m o]; reflexivity.
  - fold (total_width fs) in *. inversion V as [|? ? V1 V2]; subst. destruct V1 as [V1 V1']. cbn in V1, V1'.
    pose proof (total_width_nonneg fs V2) as TW. set (p := b_boff (bb s)) in *.
    destruct (run_SetBitsNext s v w) as (s1 & E1 & W1 & C1 & O1 & B1); auto; try (fold p; lia).
    fold p in C1, B1.
    assert (Z1 : zlen (content s1) = zlen (content s)) by (rewrite C1; apply put_bits_zlen; lia).
    assert (Bit1 : forall j, 0 <= j -> bit_at (content s1) j =
        if (p <=? j) && (j <? p + w) then field_bit v w (j - p) else bit_at (content s) j).
    { intros j Hj. rewrite C1. rewrite bit_at_put_bits by lia. now rewrite Z2Nat.id by lia. }
    destruct (IH s1) as (s2 & E2 & W2 & Z2 & O2 & B2 & Fr & Rd); auto; try lia.
    rewrite B1 in *.
    exists s2. rewrite run_bind, E1. split; [exact E2|]. split; [exact W2|]. split; [lia|]. split; [congruence|].
    split; [lia|]. split.
    + intros j Hj. rewrite Fr by lia. rewrite Bit1 by lia.
      now replace ((p <=? j) && (j <? p + w)) with false by lia.
    + intros s3 W3 Z3 Hb3 B3. rewrite run_bind, run_ReadBitsNext by (auto; lia). rewrite B3.
      set (s4 := with_boff s3 (p + w)). pose proof (content_max s W). pose proof max_alloc_val.
      rewrite run_bind. rewrite (Rd s4).
      * cbn [run]. f_equal.
        -- f_equal. rewrite (bits_num_of_testbit (content s3) p (Z.to_nat w) v); [now rewrite Z2Nat.id by lia|].
           rewrite Z2Nat.id by lia. intros k Hk. rewrite Hb3 by lia. rewrite Fr by lia. rewrite Bit1 by lia.
           replace ((p <=? p + k) && (p + k <? p + w)) with true by lia. unfold field_bit. f_equal. lia.
        -- unfold s4. replace (p + (w + total_width fs)) with (p + w + total_width fs) by lia. reflexivity.
      * apply with_boff_WF; auto. unfold is_i64. lia.
      * exact Z3.
      * intros j Hj. change (content s4) with (content s3). apply Hb3. lia.
      * reflexivity.
Qed.

(** Fields of any widths, packed from any bit position on. *)
Theorem C24_fields : forall s fs, WF s -> Forall valid_field fs ->
  0 <= b_boff (bb s) -> b_boff (bb s) + total_width fs <= 8 * zlen (content s) ->
  exists s1 s2,
    run (write_fields fs) s = Done tt s1 /\
    b_boff (bb s1) = b_boff (bb s) + total_width fs /\ b_off (bb s1) = b_off (bb s) /\
    zlen (content s1) = zlen (content s) /\
    (forall j, 0 <= j < b_boff (bb s) \/ b_boff (bb s) + total_width fs <= j ->
       bit_at (content s1) j = bit_at (content s) j) /\
    run (V3Buffer.SeekBit (b_boff (bb s)) false ;; read_fields (map snd fs)) s1 =
      Done (map (fun f => fst f mod 2 ^ snd f) fs) s2 /\
    content s2 = content s1 /\ b_boff (bb s2) = b_boff (bb s1).
Proof.
  intros s fs W V H1 H2. destruct (write_fields_ok fs s W V H1 H2) as (s1 & E & W1 & Z1 & O1 & B1 & Fr & Rd).
  exists s1. eexists. split; [exact E|]. split; [exact B1|]. split; [exact O1|]. split; [exact Z1|]. split; [exact Fr|].
  split.
  - rewrite run_bind, run_SeekBit. apply Rd; auto. apply with_boff_WF; auto. apply (wf_boff s W).
  - split; [reflexivity|]. cbn. lia.
Qed.
Print Assumptions C24_fields.

Example C24_case :
  Forall valid_field [(5, 3); (300, 9); (1, 1); (2 ^ 64 - 1, 64)] /\
  exists s1 s2, run (write_fields [(5, 3); (300, 9); (1, 1); (2 ^ 64 - 1, 64)]) ex_zero = Done tt s1 /\
  content s1 = [178; 207; 255; 255; 255; 255; 255; 255; 255; 248; 0; 0] /\
  run (V3Buffer.SeekBit 0 false ;; read_fields [3; 9; 1; 64]) s1 = Done [5; 300; 1; 2 ^ 64 - 1] s2.
Proof.
  split; [repeat constructor; vm_compute; discriminate|].
  do 2 eexists. split; [vm_compute; reflexivity|]. split; vm_compute; reflexivity.
Qed.

(** ** C55 *)

Definition writes {B} (o : opn B) : bool :=
  match o with
  | OSetBit | OClearBit | OFlipBit | OSetBits _ _ | OWriteBytes _ | OWriteByte _ | OWrite _ _ => true
  | _ => false
  end.
(** The window [lo, hi) of bits an access at [off] covers. *)
Definition win_lo {B} (off : Z) (o : opn B) : Z := if bit_addressed o then off else 8 * off.
Definition win_hi {B} (len : B -> Z) (off : Z) (o : opn B) : Z :=
  if bit_addressed o then off + advance_of len o else 8 * (off + advance_of len o).
(** It lies in a buffer of [n] bytes, and is not one of the degenerate accesses of
    no bit or no element. *)
Definition in_window {B} (len : B -> Z) (n off : Z) (o : opn B) : Prop :=
  0 <= win_lo off o /\ win_hi len off o <= 8 * n /\
  match o with
  | OReadBits k | OSetBits _ k => 1 <= k
  | OReadBytes k => 0 <= k
  | ORead _ k => 1 <= k
  | OWrite _ d => d <> []
  | _ => True
  end.
(** The source of a WriteBytes is not in the buffer. *)
Definition source_apart (s : St) (o : opn slice) : Prop :=
  match o with
  | OWriteBytes d => let b := b_buf (bb s) in
      s_blk d <> s_blk b \/ s_off d + s_len d <= s_off b \/ s_off b + s_len b <= s_off d
  | _ => True
  end.

Lemma bit_at_put l off d j :
  0 <= off -> off + zlen d <= zlen l -> 0 <= j ->
  bit_at (put l off d) j =
  if (8 * off <=? j) && (j <? 8 * (off + zlen d)) then bit_at d (j - 8 * off) else bit_at l j.
Proof.
  intros H1 H2 Hj. unfold bit_at.
  destruct (Z.lt_ge_cases (j / 8) (zlen l)) as [Hl|Hl].
  - assert (0 <= j / 8) by (apply Z.div_pos; lia).
    rewrite byte_at_put by lia.
    replace (j - 8 * off) with (j + (- off) * 8) by lia. rewrite Z.div_add, Z_mod_plus_full by lia.
    replace ((off <=? j / 8) && (j / 8 <? off + zlen d)) with ((8 * off <=? j) && (j <? 8 * (off + zlen d)))
      by (pose proof (Z.div_mod j 8); pose proof (Z.mod_pos_bound j 8); lia).
    destruct (_ && _); auto.
  - replace ((8 * off <=? j) && (j <? 8 * (off + zlen d))) with false
      by (pose proof (Z.div_mod j 8); pose proof (Z.mod_pos_bound j 8); lia).
    f_equal. unfold byte_at. rewrite !nth_overflow; auto; [unfold zlen in *; lia|].
    assert (zlen (put l off d) = zlen l) by now apply put_length. unfold zlen in *; lia.
Qed.

(** A write in range acts on the bits of its window only, and on each of them alone. *)
Definition acts (l l' : list Z) (lo hi : Z) (f : Z -> bool -> bool) : Prop :=
  zlen l' = zlen l /\ Forall is_byte l' /\
  forall j, 0 <= j -> bit_at l' j = if (lo <=? j) && (j <? hi) then f j (bit_at l j) else bit_at l j.

Definition effect (off : Z) (o : opn (list Z)) (n : Z) (f : Z -> bool -> bool) : Prop :=
  forall a, zlen (a_bytes a) = n -> Forall is_byte (a_bytes a) ->
    exists l', abs_at off o a = Ok RUnit (set_bytes a l') /\
      acts (a_bytes a) l' (win_lo off o) (win_hi zlen off o) f.

Lemma write_acts (o : opn (list Z)) off n :
  writes o = true -> in_window zlen n off o ->
  match o with OWriteBytes d => Forall is_byte d | OWriteByte v => is_byte v | _ => True end ->
  exists f, effect off o n f.
Proof.
  intros Hw (H1 & H2 & H3) Hb. unfold effect, acts.
  destruct o as [ | k | | | | data k | d | v | k | | t d | t k]; cbn in Hw; try discriminate;
    cbn [bit_addressed advance_of win_lo win_hi] in *; unfold win_lo, win_hi in *; cbn [bit_addressed advance_of] in *.
  - exists (fun _ _ => true). intros a Hn Ha. subst n. cbn [abs_at].
    replace (8 * zlen (a_bytes a) <=? off) with false by lia. replace (off <? 0) with false by lia.
    eexists. split; [reflexivity|]. split; [apply put_bit_zlen; lia|]. split; [now apply put_bit_bytes|].
    intros j Hj. rewrite bit_at_put_bit by lia. replace ((off <=? j) && (j <? off + 1)) with (off =? j) by lia.
    reflexivity.
  - exists (fun _ _ => false). intros a Hn Ha. subst n. cbn [abs_at].
    replace (8 * zlen (a_bytes a) <=? off) with false by lia. replace (off <? 0) with false by lia.
    eexists. split; [reflexivity|]. split; [apply put_bit_zlen; lia|]. split; [now apply put_bit_bytes|].
    intros j Hj. rewrite bit_at_put_bit by lia. replace ((off <=? j) && (j <? off + 1)) with (off =? j) by lia.
    reflexivity.
  - exists (fun _ b => negb b). intros a Hn Ha. subst n. cbn [abs_at].
    replace (8 * zlen (a_bytes a) <=? off) with false by lia. replace (off <? 0) with false by lia.
    eexists. split; [reflexivity|]. split; [apply put_bit_zlen; lia|]. split; [now apply put_bit_bytes|].
    intros j Hj. unfold flip_bit. rewrite bit_at_put_bit by lia.
    replace ((off <=? j) && (j <? off + 1)) with (off =? j) by lia.
    destruct (Z.eqb_spec off j); subst; reflexivity.
  - exists (fun j _ => field_bit data k (j - off)). intros a Hn Ha. subst n. cbn [abs_at].
    replace (8 * zlen (a_bytes a) <=? off) with false by lia. replace (off <? 0) with false by lia.
    replace (k <=? 0) with false by lia. replace (8 * zlen (a_bytes a) <? off + k) with false by lia.
    eexists. split; [reflexivity|]. split; [apply put_bits_zlen; lia|]. split; [now apply put_bits_bytes|].
    intros j Hj. rewrite bit_at_put_bits by lia. now rewrite Z2Nat.id by lia.
  - exists (fun j _ => bit_at d (j - 8 * off)). intros a Hn Ha. subst n. cbn [abs_at].
    replace (zlen (a_bytes a) <? off + zlen d) with false by lia. replace (off <? 0) with false by lia.
    eexists. split; [reflexivity|]. split; [apply put_length; lia|]. split; [now apply Forall_put|].
    intros j Hj. apply bit_at_put; lia.
  - exists (fun j _ => bit_at [v] (j - 8 * off)). intros a Hn Ha. subst n. cbn [abs_at].
    replace (zlen (a_bytes a) <? off + 1) with false by lia. replace (off <? 0) with false by lia.
    assert (zlen [v] = 1) by reflexivity.
    eexists. split; [reflexivity|]. split; [apply put_length; lia|]. split; [apply Forall_put; auto|].
    intros j Hj. rewrite bit_at_put by lia. reflexivity.
  - exists (fun j _ => bit_at (encode_all t d) (j - 8 * off)). intros a Hn Ha. subst n. cbn [abs_at].
    pose proof (encode_all_zlen t d) as EZ. pose proof (encode_all_bytes t d) as EB.
    replace (zlen (a_bytes a) <? off + zlen d * tsize t) with false by lia. replace (off <? 0) with false by lia.
    assert (zlen d <> 0). { destruct d; [congruence|]. rewrite zlen_cons. pose proof (zlen_nonneg d). lia. }
    replace (zlen d =? 0) with false by lia.
    eexists. split; [reflexivity|]. split; [apply put_length; lia|]. split; [now apply Forall_put|].
    intros j Hj. rewrite bit_at_put by lia. now rewrite EZ.
Qed.

(** A read in range returns a function of the bits of its window. *)
Lemma sub_bits_ext l l' off n :
  Forall is_byte l -> Forall is_byte l' -> 0 <= off -> 0 <= n -> off + n <= zlen l -> zlen l' = zlen l ->
  (forall j, 8 * off <= j < 8 * (off + n) -> bit_at l j = bit_at l' j) -> sub l off n = sub l' off n.
Proof.
  intros B B' H1 H2 H3 HL H. apply bits_ext.
  - rewrite !sub_length by lia. reflexivity.
  - now apply Forall_sub.
  - now apply Forall_sub.
  - rewrite sub_length by lia. intros j Hj.
    assert (D : 0 <= j / 8 < n) by (split; [apply Z.div_pos; lia|apply Z.div_lt_upper_bound; lia]).
    specialize (H (8 * off + j) ltac:(lia)). unfold bit_at in *.
    replace (8 * off + j) with (j + off * 8) in H by lia. rewrite Z.div_add, Z_mod_plus_full in H by lia.
    rewrite !byte_at_sub by lia. replace (off + j / 8) with (j / 8 + off) by lia. exact H.
Qed.

Lemma read_depends (o : opn (list Z)) off a a' n :
  writes o = false -> in_window zlen n off o -> n <= maxAlloc ->
  zlen (a_bytes a) = n -> Forall is_byte (a_bytes a) ->
  zlen (a_bytes a') = n -> Forall is_byte (a_bytes a') ->
  (forall j, win_lo off o <= j < win_hi zlen off o -> bit_at (a_bytes a) j = bit_at (a_bytes a') j) ->
  exists v, abs_at off o a = Ok v a /\ abs_at off o a' = Ok v a'.
Proof.
  intros Hw (H1 & H2 & H3) Hm Hn Ha Hn' Ha' H. pose proof max_alloc_val as MV.
  pose proof (zlen_nonneg (a_bytes a)).
  destruct o as [ | k | | | | data k | d | v | k | | t d | t k]; cbn in Hw; try discriminate;
    unfold win_lo, win_hi in *; cbn [bit_addressed advance_of] in *; cbn [abs_at]; rewrite Hn, Hn'.
  - replace (8 * n <=? off) with false by lia. replace (off <? 0) with false by lia.
    rewrite <- (H off) by lia. eauto.
  - replace (8 * n <=? off) with false by lia. replace (off <? 0) with false by lia.
    replace (k <=? 0) with false by lia. replace (8 * n <? off + k) with false by lia.
    rewrite (bits_num_ext (a_bytes a') (a_bytes a) off off); [eauto|].
    rewrite Z2Nat.id by lia. intros j Hj. symmetry. apply H. lia.
  - rewrite add64_id by (unfold is_i64; lia). replace (off + k >? n) with false by lia.
    replace (off <? 0) with false by lia. replace ((0 <=? k) && (off + k <=? n)) with true by lia.
    rewrite (sub_bits_ext (a_bytes a) (a_bytes a') off k) by (auto; lia). eauto.
  - replace (n <? off + 1) with false by lia. replace (off <? 0) with false by lia.
    pose proof (sub_bits_ext (a_bytes a) (a_bytes a') off 1 Ha Ha' ltac:(lia) ltac:(lia) ltac:(lia) ltac:(lia) H) as S.
    rewrite !sub_one in S by lia. injection S as ->. eauto.
  - pose proof (tsize_pos t). rewrite (mul64_id k) by (unfold is_i64; nia). rewrite add64_id by (unfold is_i64; nia).
    replace (off + k * tsize t >? n) with false by lia. replace (off <? 0) with false by lia.
    replace ((k <? 0) || (maxAlloc <? k * tsize t)) with false by lia.
    replace ((k =? 0) || (n <? off + k * tsize t)) with false by lia.
    rewrite (decode_all_ext t (a_bytes a') (a_bytes a) off off (Z.to_nat k)); [eauto|lia|lia|].
    rewrite Z2Nat.id by lia. symmetry. apply sub_bits_ext; auto; lia.
Qed.

Lemma in_window_abs s n off o :
  valid_opn s o -> in_window s_len n off o ->
  in_window zlen n off (abs_opn s o) /\ win_lo off (abs_opn s o) = win_lo off o /\
  win_hi zlen off (abs_opn s o) = win_hi s_len off o /\ writes (abs_opn s o) = writes o.
Proof.
  intros V (H1 & H2 & H3). unfold in_window, win_lo, win_hi in *. rewrite bit_addressed_abs, advance_abs by auto.
  split; [|destruct o; auto]. split; auto. split; auto. destruct o; auto.
Qed.

Lemma window_offset s off o :
  WF s -> valid_opn s o -> in_window s_len (zlen (content s)) off o -> is_i64 off.
Proof.
  intros W V (H1 & H2 & H3). pose proof (content_max s W). pose proof max_alloc_val.
  unfold win_lo, win_hi in *. unfold is_i64.
  destruct o; cbn [bit_addressed advance_of] in *; try lia.
  - destruct V as (_ & _ & V & _). lia.
  - pose proof (zlen_nonneg d). pose proof (tsize_pos t). nia.
  - pose proof (tsize_pos t). nia.
Qed.

Lemma run_acts s off o f :
  WF s -> valid_opn s o -> is_i64 off -> effect off (abs_opn s o) (zlen (content s)) f ->
  exists s1, run (do_at off o) s = Done RUnit s1 /\ good s s1 /\ bb s1 = bb s /\
    acts (content s) (content s1) (win_lo off (abs_opn s o)) (win_hi zlen off (abs_opn s o)) f.
Proof.
  intros W V I Hf. destruct (Hf (abs s) eq_refl (content_bytes s W)) as (l' & A & Act).
  pose proof (do_at_sim s off o W I V) as S. pose proof (do_at_fields s off o W I V) as F. rewrite A in S.
  destruct (run (do_at off o) s) as [v s1|e s1|s1|]; cbn [sim fields_kept] in *; try contradiction;
    destruct S as [S G]; try discriminate.
  inversion S as [[S1 S2 S3 S4 S5]]. exists s1. assert (v = RUnit) by (destruct v; cbn in S1; congruence). subst v.
  split; [reflexivity|]. split; [exact G|]. split; [exact F|]. rewrite <- S2. exact Act.
Qed.

Lemma write_effect s off o :
  WF s -> valid_opn s o -> writes o = true -> in_window s_len (zlen (content s)) off o ->
  exists f, effect off (abs_opn s o) (zlen (content s)) f.
Proof.
  intros W V Hw Hin. destruct (in_window_abs s _ off o V Hin) as (Hin' & E1 & E2 & E3).
  apply write_acts; auto. { congruence. }
  destruct o; cbn; auto. apply wf_slice_bytes; auto. apply (wf_h s W).
Qed.

Lemma good_source s s1 o : good s s1 -> valid_opn s o -> source_apart s o ->
  valid_opn s1 o /\ abs_opn s1 o = abs_opn s o.
Proof.
  intros G V A. destruct o; cbn [valid_opn abs_opn source_apart] in *; auto.
  destruct (g_mem _ _ G) as [M1 M2]. destruct V as (V1 & V2 & V3 & V4). destruct (M2 _ V1) as [M3 M4].
  split.
  - unfold wf_arg, wf_slice. rewrite M3. repeat split; try lia.
  - f_equal. unfold slice_bytes. apply byte_at_ext; rewrite !sub_length by lia; auto.
    intros i Hi. rewrite !byte_at_sub by lia. apply M4; lia.
Qed.

(** Two writes to disjoint windows, in either order: both orders succeed and leave
    the same bytes, and neither touches offsets or other memory. *)
Theorem C55_disjoint_writes_commute : forall s off1 o1 off2 o2, WF s ->
  valid_opn s o1 -> valid_opn s o2 -> writes o1 = true -> writes o2 = true ->
  in_window s_len (zlen (content s)) off1 o1 -> in_window s_len (zlen (content s)) off2 o2 ->
  source_apart s o1 -> source_apart s o2 ->
  win_hi s_len off1 o1 <= win_lo off2 o2 \/ win_hi s_len off2 o2 <= win_lo off1 o1 ->
  exists s12 s21,
    run (do_at off1 o1 ;; do_at off2 o2) s = Done RUnit s12 /\
    run (do_at off2 o2 ;; do_at off1 o1) s = Done RUnit s21 /\
    content s12 = content s21 /\ bb s12 = bb s /\ bb s21 = bb s.
Proof.
  intros s off1 o1 off2 o2 W V1 V2 Hw1 Hw2 I1 I2 A1 A2 Dis.
  destruct (write_effect s off1 o1 W V1 Hw1 I1) as (f1 & F1).
  destruct (write_effect s off2 o2 W V2 Hw2 I2) as (f2 & F2).
  pose proof (window_offset s off1 o1 W V1 I1) as J1. pose proof (window_offset s off2 o2 W V2 I2) as J2.
  destruct (in_window_abs s _ off1 o1 V1 I1) as (_ & L1 & H1 & _).
  destruct (in_window_abs s _ off2 o2 V2 I2) as (_ & L2 & H2 & _).
  destruct (run_acts s off1 o1 f1 W V1 J1 F1) as (s1 & E1 & G1 & B1 & (Z1 & Y1 & C1)).
  destruct (run_acts s off2 o2 f2 W V2 J2 F2) as (s2 & E2 & G2 & B2 & (Z2 & Y2 & C2)).
  destruct (good_source s s1 o2 G1 V2 A2) as [V12 O12]. destruct (good_source s s2 o1 G2 V1 A1) as [V21 O21].
  rewrite <- O12 in F2. rewrite <- Z1 in F2. rewrite <- O21 in F1. rewrite <- Z2 in F1.
  destruct (run_acts s1 off2 o2 f2 (g_wf _ _ G1) V12 J2 F2) as (s12 & E12 & G12 & B12 & (Z12 & Y12 & C12)).
  destruct (run_acts s2 off1 o1 f1 (g_wf _ _ G2) V21 J1 F1) as (s21 & E21 & G21 & B21 & (Z21 & Y21 & C21)).
  rewrite O12, L2, H2 in C12. rewrite O21, L1, H1 in C21. rewrite L1, H1 in C1. rewrite L2, H2 in C2.
  exists s12, s21. rewrite !run_bind, E1, E2. split; [exact E12|]. split; [exact E21|].
  split; [|split; congruence].
  apply bits_ext; auto; [lia|]. intros j [Hj _]. rewrite C12, C21, C1, C2 by lia.
  destruct ((win_lo off1 o1 <=? j) && (j <? win_hi s_len off1 o1)) eqn:Q1;
    destruct ((win_lo off2 o2 <=? j) && (j <? win_hi s_len off2 o2)) eqn:Q2; auto. exfalso; lia.
Qed.
Print Assumptions C55_disjoint_writes_commute.

(** A read of a window disjoint from a write returns what it returned before the write. *)
Theorem C55_disjoint_read : forall s off1 o1 off2 o2, WF s ->
  valid_opn s o1 -> valid_opn s o2 -> writes o1 = true -> writes o2 = false ->
  in_window s_len (zlen (content s)) off1 o1 -> in_window s_len (zlen (content s)) off2 o2 ->
  win_hi s_len off1 o1 <= win_lo off2 o2 \/ win_hi s_len off2 o2 <= win_lo off1 o1 ->
  exists s1 v v1, run (do_at off1 o1) s = Done RUnit s1 /\
    run (do_at off2 o2) s = Done v s /\ run (do_at off2 o2) s1 = Done v1 s1 /\
    view_rv s1 v1 = view_rv s v.
Proof.
  intros s off1 o1 off2 o2 W V1 V2 Hw1 Hw2 I1 I2 Dis.
  destruct (write_effect s off1 o1 W V1 Hw1 I1) as (f1 & F1).
  pose proof (window_offset s off1 o1 W V1 I1) as J1. pose proof (window_offset s off2 o2 W V2 I2) as J2.
  destruct (in_window_abs s _ off1 o1 V1 I1) as (_ & L1 & H1 & _).
  destruct (in_window_abs s _ off2 o2 V2 I2) as (I2' & L2 & H2 & Hw2').
  destruct (run_acts s off1 o1 f1 W V1 J1 F1) as (s1 & E1 & G1 & B1 & (Z1 & Y1 & C1)).
  rewrite L1, H1 in C1.
  destruct (good_source s s1 o2 G1 V2) as [V12 O12]. { destruct o2; cbn in *; auto; discriminate. }
  destruct (read_depends (abs_opn s o2) off2 (abs s) (abs s1) (zlen (content s))) as (v & R1 & R2); auto.
  { congruence. } { now apply content_max. } { now apply content_bytes. }
  { rewrite L2, H2. intros j Hj. cbn [a_bytes abs]. destruct I2 as (I2 & _). rewrite C1 by lia.
    replace ((win_lo off1 o1 <=? j) && (j <? win_hi s_len off1 o1)) with false by lia. reflexivity. }
  pose proof (do_at_sim s off2 o2 W J2 V2) as S. rewrite R1 in S.
  pose proof (do_at_sim s1 off2 o2 (g_wf _ _ G1) J2 V12) as S1. rewrite O12, R2 in S1.
  assert (Rd : forall t, WF t -> valid_opn t o2 -> forall r t', run (do_at off2 o2) t = Done r t' -> t' = t).
  { intros t Wt Vt r t' E. pose proof (content_max t Wt) as HM. pose proof max_alloc_val as MV.
    pose proof (zlen_nonneg (content t)) as HN.
    assert (Q : is_read_opn o2 = true \/ o2 = OReadBit \/ exists k, o2 = OReadBits k).
    { destruct o2; try discriminate; eauto. }
    destruct Q as [Q|[->|(k & ->)]].
    - eapply run_read_state; eauto.
    - cbn [do_at] in E. rewrite run_ret_int, run_ReadBit in E by auto. revert E. repeat bcase; intro E; inversion E; auto.
    - cbn [do_at] in E. rewrite run_ret_int in E. revert E.
      destruct (Z.leb_spec (8 * zlen (content t)) off2).
      { rewrite run_ReadBits_start by (auto; lia). bcase; discriminate. }
      destruct (Z.ltb_spec off2 0). { rewrite run_ReadBits_start by (auto; lia). bcase; discriminate. }
      destruct I2 as (_ & _ & I2).
      destruct (Z.ltb_spec (8 * zlen (content t)) (off2 + k)).
      { cbn in V2. rewrite run_ReadBits_overrun by (auto; unfold is_i64 in *; lia). discriminate. }
      rewrite run_ReadBits by (auto; lia). intro E; inversion E; auto. }
  destruct (run (do_at off2 o2) s) as [r t|e t|t|] eqn:Er; cbn [sim] in S; try contradiction; destruct S as [S _]; try discriminate.
  destruct (run (do_at off2 o2) s1) as [r1 t1|e t1|t1|] eqn:Er1; cbn [sim] in S1; try contradiction; destruct S1 as [S1 _]; try discriminate.
  pose proof (Rd s W V2 r t Er). pose proof (Rd s1 (g_wf _ _ G1) V12 r1 t1 Er1). subst t t1.
  exists s1, r, r1. do 3 (split; [assumption || reflexivity|]).
  inversion S. inversion S1. congruence.
Qed.
Print Assumptions C55_disjoint_read.

Example C55_case : exists s12 s21,
  run (do_at 3 (OSetBits 21 5) ;; do_at 1 (OWrite U16BE [0x1234])) ex = Done RUnit s12 /\
  run (do_at 1 (OWrite U16BE [0x1234]) ;; do_at 3 (OSetBits 21 5)) ex = Done RUnit s21 /\
  win_hi s_len 3 (@OSetBits slice 21 5) <= win_lo 1 (@OWrite slice U16BE [0x1234]) /\
  content s12 = [181; 0x12; 0x34; 8] /\ content s21 = content s12.
Proof. do 2 eexists. do 2 (split; [vm_compute; reflexivity|]). split; [vm_compute; discriminate|]. split; vm_compute; reflexivity. Qed.
