(** * Wire: data that one buffer writes and another one reads, of any two of the
    six types.  What a write leaves in a buffer and what a read makes of it, from
    the abstract machines of Many.v. *)
From Coq Require Import ZArith List Bool String Lia ZifyBool.
From Verif Require Import GoSem Errors GoParse Conv GoEval Front Tables FrontCalls.
From Verif Require Import Spec GoLemmas BitLemmas CodecLemmas V3BitLemmas V3ByteLemmas Typed Calls Abs Frame Sim History NewBuf MiniAbs MiniHistory
  TypedReadLemmas MiniLemmas MiniSim OldCalls V2Lemmas V2Agree V1Calls ConcSpec Abs2 Sim2 Hist2 MiniAbs2 MiniSim2 MiniHist2
  FrontOldCalls FrontOldMini Many.
Import ListNotations.
Open Scope Z_scope.
Open Scope list_scope.

(** ** The requests *)

(** Where: at a given offset, or at the buffer's own offset, which then moves. *)
Inductive place : Set := Fixed (off : Z) | Here.

(** What: numbers of a format, a field of bits, bytes. *)
Inductive deed : Type :=
| WriteNumbers (t : numty) (d : list Z) | ReadNumbers (t : numty) (n : Z)
| WriteBits (data n : Z) | ReadBits (n : Z)
| WriteBytes (d : slice) | ReadBytes (n : Z).

(** The name of a format in v1 and v2, which have the unsigned ones. *)
Definition old_format (t : numty) : option uty :=
  match t with
  | U16LE => Some NU16LE | U16BE => Some NU16BE | U32LE => Some NU32LE
  | U32BE => Some NU32BE | U64LE => Some NU64LE | U64BE => Some NU64BE
  | _ => None
  end.

Definition in_v3 (x : deed) : opn slice :=
  match x with
  | WriteNumbers t d => OWrite t d | ReadNumbers t n => ORead t n
  | WriteBits data n => OSetBits data n | ReadBits n => OReadBits n
  | WriteBytes d => OWriteBytes d | ReadBytes n => OReadBytes n
  end.
Definition in_old (x : deed) : option (op2 slice) :=
  match x with
  | WriteNumbers t d => option_map (fun u => PWrite u d) (old_format t)
  | ReadNumbers t n => option_map (fun u => PRead u n) (old_format t)
  | WriteBits data n => Some (PSetBits data n) | ReadBits n => Some (PReadBits n)
  | WriteBytes d => Some (PWriteBytes d) | ReadBytes n => Some (PReadBytes n)
  end.

(** The method call of a type that does [x] at [p]; [out] is what the caller's
    variable holds where the method has an out pointer. *)
Definition ask (k : kind) (p : place) (x : deed) (out : list Z) : option (request (call slice) (call2 slice)) :=
  let c3 := match p with Fixed off => At off (in_v3 x) | Here => Next (in_v3 x) end in
  let c2 := option_map (fun o => match p with Fixed off => At2 off o | Here => Next2 o end) (in_old x) in
  match k with
  | Buffer3 => Some (Q3 c3)
  | Mini3 => Some (Q3m c3 out)
  | BufferOld _ => option_map (fun c => Qo c) c2
  | MiniOld _ => option_map (fun c => Qom c out) c2
  end.

(** ** What the caller sees *)

Definition went_well (a : seen) : Prop :=
  match a with
  | See3 (Returned RUnit) | SeeO (Replied RUnit) => True
  | SeeM (MReturned RUnit _) => True
  | _ => False
  end.

(** The numbers a read delivers.  The MiniBuffers of v2 and v3 store them at the
    front of the caller's slice; all others return them. *)
Definition numbers (k : kind) (n : nat) (a : seen) : option (list Z) :=
  match k, a with
  | Buffer3, See3 (Returned (RNums l)) | BufferOld _, SeeO (Replied (RNums l)) => Some l
  | MiniOld V1, SeeM (MReturned (RNums l) _) => Some l
  | (Mini3 | MiniOld V2), SeeM (MReturned _ out) => Some (firstn n out)
  | _, _ => None
  end.
(** The number a read of bits delivers. *)
Definition number (k : kind) (a : seen) : option Z :=
  match k, a with
  | Buffer3, See3 (Returned (RInt x)) | BufferOld _, SeeO (Replied (RInt x)) => Some x
  | (Mini3 | MiniOld _), SeeM (MReturned _ [x]) => Some x
  | _, _ => None
  end.
Definition bytes_seen (a : seen) : option (list Z) :=
  match a with
  | See3 (Returned (RBytes l)) | SeeO (Replied (RBytes l)) | SeeM (MReturned (RBytes l) _) => Some l
  | _ => None
  end.

(** ** Validity *)

Definition valid_deed (m : heap_t) (k : kind) (x : deed) (out : list Z) : Prop :=
  match x with
  | WriteNumbers t d => zlen d * tsize t <= maxAlloc
  | ReadNumbers _ n | ReadBytes n => is_i64 n
  | WriteBits data n => is_u64 data /\ is_i64 n
  | ReadBits n => is_i64 n /\ match k with Mini3 | MiniOld _ => exists x, out = [x] /\ is_u64 x | _ => True end
  | WriteBytes d => wf_slice m d
  end.
Definition valid_place (p : place) : Prop := match p with Fixed off => is_i64 off | Here => True end.

Lemma fmt_old t u : old_format t = Some u -> fmt u = t.
Proof. destruct t; cbn; intro H; try discriminate; injection H as <-; reflexivity. Qed.

Lemma ask_valid k p x out q s : ask k p x out = Some q -> valid_place p -> valid_deed (heap s) k x out -> valid_request k s q.
Proof.
  intros E P V. unfold ask in E.
  destruct k as [| |v|v]; try (injection E as <-).
  - cbn [valid_request valid_event]. destruct p, x; cbn [valid_call valid_opn in_v3 valid_place valid_deed] in *; unfold wf_data, wf_arg; tauto.
  - cbn [valid_request valid_mevent]. unfold valid_mini.
    destruct p, x; cbn [mini_method mini_opn valid_out valid_call valid_opn in_v3 valid_place valid_deed] in *; unfold wf_data, wf_arg;
      try tauto; destruct V as [V1 (y & -> & V2)]; tauto.
  - destruct (in_old x) as [o|] eqn:Eo; [|discriminate]. injection E as <-. cbn [valid_request valid_old].
    split; [|destruct p; discriminate].
    assert (H : valid_op2 s o).
    { destruct x; cbn in Eo; try (injection Eo as <-); cbn [valid_op2 valid_old_out old_mini_op valid_deed] in *; unfold wf_arg; try tauto;
        destruct (old_format t) as [u|] eqn:Eu; try discriminate; injection Eo as <-; cbn [valid_op2 valid_old_out old_mini_op]; try tauto.
      unfold wf_data. rewrite (fmt_old _ _ Eu). exact V. }
    destruct p; cbn [valid_call2 valid_place] in *; auto.
  - destruct (in_old x) as [o|] eqn:Eo; [|discriminate]. injection E as <-. cbn [valid_request valid_omevent].
    assert (H : valid_op2 s o /\ valid_old_out o out /\ old_mini_op o = true).
    { destruct x; cbn in Eo; try (injection Eo as <-); cbn [valid_op2 valid_old_out old_mini_op valid_deed] in *; unfold wf_arg; try tauto;
        try (destruct V as [V1 (y & -> & V2)]; tauto);
        destruct (old_format t) as [u|] eqn:Eu; try discriminate; injection Eo as <-; cbn [valid_op2 valid_old_out old_mini_op]; try tauto.
      unfold wf_data. rewrite (fmt_old _ _ Eu). tauto. }
    destruct H as (H1 & H2 & H3). unfold valid_old_mini. destruct p; cbn [valid_call2 valid_place old_mini_method] in *; auto.
Qed.

(** ** What the machines do *)

Definition where_bytes (p : place) (a : abuf) : Z := match p with Fixed off => off | Here => a_off a end.
Definition where_bits (p : place) (a : abuf) : Z := match p with Fixed off => off | Here => a_boff a end.

Lemma bits_num_first l i n : bits_num l i (S n) = 2 ^ Z.of_nat n * Z.b2z (bit_at l i) + bits_num l (i + 1) n.
Proof.
  induction n.
  - cbn [bits_num Z.of_nat]. rewrite Z.add_0_r, Z.pow_0_r. lia.
  - change (bits_num l i (S (S n))) with (2 * bits_num l i (S n) + Z.b2z (bit_at l (i + Z.of_nat (S n)))).
    rewrite IHn. cbn [bits_num]. rewrite !Nat2Z.inj_succ, Z.pow_succ_r by lia.
    replace (i + 1 + Z.of_nat n) with (i + Z.succ (Z.of_nat n)) by lia. lia.
Qed.

Lemma mread_in l k : forall off x, 0 <= off -> off + Z.of_nat k <= 8 * zlen l -> 0 <= x < 2 ^ 64 ->
  mread l off k x = ((x * 2 ^ Z.of_nat k + bits_num l off k) mod 2 ^ 64, true).
Proof.
  induction k as [|k IH]; intros off x H0 H1 Hx.
  - cbn [mread bits_num Z.of_nat]. rewrite Z.pow_0_r, Z.mod_small by lia. f_equal. lia.
  - cbn [mread]. unfold mbit, in_bits. replace ((0 <=? off) && (off <? 8 * zlen l)) with true by lia.
    rewrite IH; [|lia|lia|apply Z.mod_pos_bound; lia]. f_equal.
    rewrite bits_num_first, Nat2Z.inj_succ, Z.pow_succ_r by lia.
    rewrite Z.add_mod, Z.mul_mod_idemp_l, <- Z.add_mod by lia. f_equal. lia.
Qed.

Lemma mwrite_in f k : forall l off i, Forall is_byte l -> 0 <= off -> off + Z.of_nat k <= 8 * zlen l ->
  exists l', mwrite l off f i k = (l', true) /\ zlen l' = zlen l /\ Forall is_byte l' /\
    forall j, 0 <= j -> bit_at l' j = if (off <=? j) && (j <? off + Z.of_nat k) then f (i + (j - off)) else bit_at l j.
Proof.
  induction k as [|k IH]; intros l off i B H0 H1.
  - exists l. repeat split; auto. intros j Hj. replace (_ && _) with false by lia. reflexivity.
  - cbn [mwrite]. unfold mupd, in_bits. replace ((0 <=? off) && (off <? 8 * zlen l)) with true by lia.
    destruct (IH (put_bit l off (f i)) (off + 1) (i + 1)) as (l' & E & L & B' & G).
    + now apply put_bit_bytes. + lia. + rewrite put_bit_zlen; lia.
    + rewrite put_bit_zlen in L by lia. exists l'. repeat split; auto.
      intros j Hj. rewrite G by auto. rewrite bit_at_put_bit by lia.
      destruct (Z.eqb_spec off j) as [->|N].
      * replace ((j + 1 <=? j) && _) with false by lia. replace ((j <=? j) && _) with true by lia. f_equal. lia.
      * replace ((off + 1 <=? j) && (j <? off + 1 + Z.of_nat k)) with ((off <=? j) && (j <? off + Z.of_nat (S k))) by lia.
        destruct (_ && _); [f_equal; lia|reflexivity].
Qed.

Definition written (l : list Z) (a : abuf) (r : abuf) : Prop := a_bytes r = l /\ a_spare r = a_spare a.

(** A positional operation that succeeds, of the four machines; the Next calls and
    the calls of the API follow. *)
Definition op_gives (k : kind) (off : Z) (s : St) (x : deed) (a : abuf) (out : list Z) (P : rv (list Z) -> list Z -> abuf -> Prop) : Prop :=
  match k with
  | Buffer3 => exists r a', abs_at off (abs_opn s (in_v3 x)) a = Ok r a' /\ P r out a'
  | Mini3 => exists r a' o, mini_abs_at off (abs_opn s (in_v3 x)) a out = (Ok r a', o) /\ P r o a'
  | BufferOld v => forall o, in_old x = Some o -> exists r a', old_at v off (view_old_op s o) a = Ok r a' /\ P r out a'
  | MiniOld v => forall o, in_old x = Some o -> exists r a' o', old_mini_abs_at v off (view_old_op s o) a out = (Ok r a', o') /\ P r o' a'
  end.

Definition bits (x : deed) : bool := match x with WriteBits _ _ | ReadBits _ => true | _ => false end.
Definition where_ (p : place) (x : deed) (a : abuf) : Z := if bits x then where_bits p a else where_bytes p a.

Definition shows (r : rv (list Z)) (o : list Z) (k : kind) : seen :=
  match k with
  | Buffer3 => See3 (Returned r) | BufferOld _ => SeeO (Replied r) | Mini3 | MiniOld _ => SeeM (MReturned r o)
  end.

Lemma ask_gives pol k p x out q s a (P : rv (list Z) -> list Z -> abuf -> Prop) :
  (forall r o a' z, P r o a' -> P r o (set_off a' z)) -> (forall r o a' z, P r o a' -> P r o (set_boff a' z)) ->
  ask k p x out = Some q -> op_gives k (where_ p x a) s x a out P ->
  exists r o a', astep pol (view_request s q) (mkAO k a false) = Some (shows r o k, mkAO k a' false) /\ P r o a'.
Proof.
  intros PO PB E G. unfold ask in E. destruct k as [| |v|v]; cbn [op_gives] in G.
  - injection E as <-. destruct G as (r & a' & G & Pr). cbn [view_request astep ao_kind ao_buf ao_dead shows]. destruct p as [off|].
    + cbn [view_call abs_call]. replace off with (where_ (Fixed off) x a) by (unfold where_; now destruct (bits x)).
      rewrite G. now exists r, out, a'.
    + cbn [view_call abs_call]. unfold abs_next.
      replace (bit_addressed (abs_opn s (in_v3 x))) with (bits x) by (destruct x; reflexivity).
      unfold where_ in G. destruct (bits x); cbn [where_bits where_bytes] in G; rewrite G; eauto 8.
  - injection E as <-. destruct G as (r & a' & o & G & Pr). cbn [view_request astep ao_kind ao_buf ao_dead shows]. destruct p as [off|].
    + cbn [view_call mini_abs_call]. replace off with (where_ (Fixed off) x a) by (unfold where_; now destruct (bits x)).
      rewrite G. now exists r, o, a'.
    + cbn [view_call mini_abs_call]. unfold mini_abs_next.
      replace (bit_addressed (abs_opn s (in_v3 x))) with (bits x) by (destruct x; reflexivity).
      unfold where_ in G. destruct (bits x); cbn [where_bits where_bytes] in G; rewrite G; eauto 8.
  - destruct (in_old x) as [o|] eqn:Eo; [|discriminate]. injection E as <-. destruct (G o eq_refl) as (r & a' & G' & Pr).
    cbn [view_request astep ao_kind ao_buf ao_dead shows]. destruct p as [off|].
    + cbn [view_old]. unfold old_step. cbn [negb orb old_call].
      replace off with (where_ (Fixed off) x a) by (unfold where_; now destruct (bits x)).
      rewrite G'. now exists r, out, a'.
    + cbn [view_old]. unfold old_step. cbn [negb orb old_call]. unfold old_next.
      replace (bit_addressed2 (view_old_op s o)) with (bits x)
        by (destruct x; cbn in Eo; try destruct (old_format t); try discriminate; injection Eo as <-; reflexivity).
      unfold where_ in G'. destruct (bits x); cbn [where_bits where_bytes] in G'; rewrite G'; eauto 8.
  - destruct (in_old x) as [o|] eqn:Eo; [|discriminate]. injection E as <-. destruct (G o eq_refl) as (r & a' & o' & G' & Pr).
    cbn [view_request astep ao_kind ao_buf ao_dead shows]. destruct p as [off|].
    + cbn [view_old old_mini_abs].
      replace off with (where_ (Fixed off) x a) by (unfold where_; now destruct (bits x)).
      rewrite G'. now exists r, o', a'.
    + cbn [view_old old_mini_abs]. unfold old_mini_abs_next.
      replace (bit_addressed2 (view_old_op s o)) with (bits x)
        by (destruct x; cbn in Eo; try destruct (old_format t); try discriminate; injection Eo as <-; reflexivity).
      unfold where_ in G'. destruct (bits x); cbn [where_bits where_bytes] in G'; rewrite G'; eauto 8.
Qed.

Lemma gives_write k off s t d a out : d <> [] -> 0 <= off -> off + zlen d * tsize t <= zlen (a_bytes a) ->
  op_gives k off s (WriteNumbers t d) a out
    (fun r _ a' => r = RUnit /\ written (put (a_bytes a) off (encode_all t d)) a a').
Proof.
  intros Nd H0 H1. pose proof (tsize_pos t).
  assert (0 < zlen d) by (destruct d; [congruence|unfold zlen; cbn [List.length]; lia]).
  assert (0 < zlen d * tsize t) by nia.
  destruct k as [| |v|v]; cbn [op_gives in_v3 in_old abs_opn abs_at mini_abs_at].
  - replace (_ <? _) with false by lia. replace (_ <? _) with false by lia. replace (_ =? _) with false by lia.
    do 2 eexists. split; [reflexivity|]. now split.
  - replace (_ || _ || _) with false by lia. replace (_ <=? _) with true by lia.
    do 3 eexists. split; [reflexivity|]. now split.
  - intros o E. destruct (old_format t) as [u|] eqn:Eu; [|discriminate]. injection E as <-.
    assert (G : old_at v off (view_old_op s (PWrite u d)) a = Ok RUnit (set_bytes a (put (a_bytes a) off (encode_all t d)))).
    { destruct v; cbn [old_at plain_op2 view_old_op seq_at]; unfold seq_store; rewrite (fmt_old _ _ Eu), encode_all_zlen;
        replace (_ <? _) with false by lia; replace (_ <? _) with false by lia; replace (_ =? _) with false by lia; reflexivity. }
    rewrite G. do 2 eexists. split; [reflexivity|]. now split.
  - intros o E. destruct (old_format t) as [u|] eqn:Eu; [|discriminate]. injection E as <-.
    cbn [view_old_op old_mini_abs_at]. unfold old_mini_store. rewrite (fmt_old _ _ Eu), encode_all_zlen.
    replace (_ || _ || _) with false by lia. replace (_ <=? _) with true by lia.
    do 3 eexists. split; [reflexivity|]. now split.
Qed.

(** [d] is encoded at [off] in the bytes of the buffer. *)
Lemma gives_read k off s t d a out : d <> [] -> Forall (in_format t) d -> 0 <= off ->
  zlen (a_bytes a) <= maxAlloc -> sub (a_bytes a) off (zlen d * tsize t) = encode_all t d ->
  match k with Mini3 | MiniOld V2 => zlen d <= zlen out | _ => True end ->
  op_gives k off s (ReadNumbers t (zlen d)) a out
    (fun r o a' => numbers k (List.length d) (shows r o k) = Some d /\ a_bytes a' = a_bytes a /\ a_spare a' = a_spare a).
Proof.
  intros Nd Fd H0 HM H1 Ho. pose proof (tsize_pos t) as TP.
  assert (0 < zlen d) by (destruct d; [congruence|unfold zlen; cbn [List.length]; lia]).
  assert (Hin : off + zlen d * tsize t <= zlen (a_bytes a)).
  { apply (f_equal zlen) in H1. rewrite encode_all_zlen in H1. unfold sub in H1. unfold zlen in H1 at 1.
    rewrite firstn_length, skipn_length in H1. assert (0 < zlen d * tsize t) by nia. unfold zlen at 2. lia. }
  assert (0 < zlen d * tsize t) by nia.
  assert (D : forall l, sub l off (zlen d * tsize t) = encode_all t d -> decode_all t l off (List.length d) = d).
  { intros l El. rewrite (decode_all_ext t l (encode_all t d ++ []) off 0) by
      (try lia; fold (zlen d); rewrite El, app_nil_r; symmetry; apply sub_all; now rewrite encode_all_zlen).
    now apply decode_all_encode_all. }
  assert (N : Z.to_nat (zlen d) = List.length d) by (unfold zlen; lia).
  unfold maxAlloc in HM.
  assert (A1 : zlen d *! tsize t = zlen d * tsize t) by (apply wrap64_id; unfold is_i64; lia).
  assert (A2 : off +! zlen d * tsize t = off + zlen d * tsize t) by (apply add64_id; unfold is_i64; lia).
  assert (A3 : off +! zlen d = off + zlen d) by (apply add64_id; unfold is_i64; nia).
  assert (A4 : zlen d <= zlen d * tsize t) by nia.
  assert (App : sub (a_bytes a ++ a_spare a) off (zlen d * tsize t) = encode_all t d) by (rewrite sub_app_l by lia; exact H1).
  assert (PU : put out 0 d = d ++ skipn (List.length d) out) by reflexivity.
  assert (FN : firstn (List.length d) (put out 0 d) = d).
  { rewrite PU. rewrite firstn_app, Nat.sub_diag, firstn_O, app_nil_r. apply firstn_all. }
  assert (MINI : zlen d <= zlen out -> mini_abs_at off (ORead t (zlen d)) a out = (Ok (RNums (put out 0 d)) a, put out 0 d)).
  { intro Hout. cbn [mini_abs_at]. replace ((off <? 0) || _) with false by lia. rewrite Z.max_r by lia.
    assert (zlen d <= (zlen (a_bytes a) - off) / tsize t) by (apply Z.div_le_lower_bound; lia).
    replace (_ <=? _) with true by lia. now rewrite N, D by exact H1. }
  destruct k as [| |v|v]; cbn [op_gives in_v3 in_old abs_opn abs_at].
  - rewrite A1, A2. replace (_ >? _) with false by lia. replace (off <? 0) with false by lia.
    replace (_ || _) with false by (unfold maxAlloc; lia). replace (_ || _) with false by lia.
    rewrite N, D by exact H1. do 2 eexists. split; [reflexivity|]. auto.
  - rewrite MINI by exact Ho. do 3 eexists. split; [reflexivity|]. cbn [numbers shows]. rewrite FN. auto.
  - intros o E. destruct (old_format t) as [u|] eqn:Eu; [|discriminate]. injection E as <-.
    assert (G : old_at v off (view_old_op s (PRead u (zlen d))) a = Ok (RNums d) a).
    { destruct v; cbn [old_at plain_op2 view_old_op seq_at]; rewrite (fmt_old _ _ Eu).
      - rewrite A3. replace (_ >? _) with false by lia. replace (off <? 0) with false by lia.
        replace (negb _) with false by lia. replace (maxAlloc <? _) with false by (unfold maxAlloc; lia).
        pose proof (zlen_nonneg (a_spare a)). replace (_ <=? _) with true by lia. now rewrite N, D.
      - rewrite A1, A2. replace (_ >? _) with false by lia. replace (off <? 0) with false by lia.
        replace (_ || _) with false by (unfold maxAlloc; lia). replace (_ || _) with false by lia. now rewrite N, D. }
    rewrite G. do 2 eexists. split; [reflexivity|]. auto.
  - intros o E. destruct (old_format t) as [u|] eqn:Eu; [|discriminate]. injection E as <-.
    cbn [view_old_op old_mini_abs_at]. rewrite (fmt_old _ _ Eu). destruct v.
    + pose proof (zlen_nonneg (a_spare a)). rewrite zlen_app, A3.
      replace (negb _) with false by lia. replace (maxAlloc <? _) with false by (unfold maxAlloc; lia).
      replace (_ <=? _) with true by lia. rewrite N, D by exact App. do 3 eexists. split; [reflexivity|]. auto.
    + rewrite MINI by exact Ho. do 3 eexists. split; [reflexivity|]. cbn [numbers shows]. rewrite FN. auto.
Qed.

(** The [n] bits from [off] on are those of [data]. *)
Definition bits_are (l : list Z) (off data n : Z) : Prop :=
  forall i, 0 <= i < n -> bit_at l (off + i) = Z.testbit data (n - 1 - i).

Lemma gives_write_bits k off s data n a out : Forall is_byte (a_bytes a) -> 1 <= n -> 0 <= off -> off + n <= 8 * zlen (a_bytes a) ->
  op_gives k off s (WriteBits data n) a out
    (fun r _ a' => r = RUnit /\ bits_are (a_bytes a') off data n /\ zlen (a_bytes a') = zlen (a_bytes a) /\ a_spare a' = a_spare a /\
       forall j, 0 <= j -> ~ off <= j < off + n -> bit_at (a_bytes a') j = bit_at (a_bytes a) j).
Proof.
  intros B H1 H0 H2.
  set (P := fun l => bits_are l off data n /\ zlen l = zlen (a_bytes a) /\
       forall j, 0 <= j -> ~ off <= j < off + n -> bit_at l j = bit_at (a_bytes a) j).
  assert (PB : P (put_bits (a_bytes a) off (field_bit data n) (Z.to_nat n))).
  { repeat split.
    - intros i Hi. rewrite bit_at_put_bits by lia. replace (_ && _) with true by lia. unfold field_bit. f_equal. lia.
    - apply put_bits_zlen; lia.
    - intros j Hj Nj. rewrite bit_at_put_bits by lia. replace (_ && _) with false by lia. reflexivity. }
  assert (MINI : exists l', mini_abs_at off (OSetBits data n) a out = (Ok RUnit (set_bytes a l'), out) /\ P l').
  { destruct (mwrite_in (field_bit data n) (Z.to_nat n) (a_bytes a) off 0 B H0) as (l' & E & L & _ & G); [lia|].
    exists l'. cbn [mini_abs_at]. rewrite Z.max_r, E by lia. split; [reflexivity|]. repeat split; auto.
    - intros i Hi. rewrite G by lia. replace (_ && _) with true by lia. unfold field_bit. f_equal. lia.
    - intros j Hj Nj. rewrite G by lia. replace (_ && _) with false by lia. reflexivity. }
  assert (SEQ : seq_at off (PSetBits data n) a = Ok RUnit (set_bytes a (put_bits (a_bytes a) off (field_bit data n) (Z.to_nat n)))).
  { cbn [seq_at]. replace (_ <=? off) with false by lia. replace (off <? 0) with false by lia.
    replace (n <=? 0) with false by lia. now replace (_ <? _) with false by lia. }
  destruct k as [| |v|v]; cbn [op_gives in_v3 in_old abs_opn abs_at].
  - replace (_ <=? off) with false by lia. replace (off <? 0) with false by lia.
    replace (n <=? 0) with false by lia. replace (_ <? _) with false by lia. do 2 eexists. split; [reflexivity|].
    destruct PB as (P1 & P2 & P3). now repeat split.
  - destruct MINI as (l' & E & P1 & P2 & P3). rewrite E. do 3 eexists. split; [reflexivity|]. now repeat split.
  - intros o E. injection E as <-. destruct PB as (P1 & P2 & P3).
    assert (G : old_at v off (view_old_op s (PSetBits data n)) a = seq_at off (PSetBits data n) a).
    { destruct v; cbn [old_at plain_op2 view_old_op]; [|reflexivity]. now replace (n <=? 0) with false by lia. }
    rewrite G, SEQ. do 2 eexists. split; [reflexivity|]. now repeat split.
  - intros o E. injection E as <-. destruct MINI as (l' & E & P1 & P2 & P3).
    cbn [view_old_op old_mini_abs_at]. replace (n <=? 0) with false by lia. rewrite E.
    destruct v; do 3 eexists; (split; [reflexivity|]); now repeat split.
Qed.

Lemma gives_read_bits k off s data n a out : 1 <= n <= 64 -> 0 <= off -> off + n <= 8 * zlen (a_bytes a) ->
  bits_are (a_bytes a) off data n ->
  match k with Mini3 | MiniOld _ => out = [0] | _ => True end ->
  op_gives k off s (ReadBits n) a out
    (fun r o a' => number k (shows r o k) = Some (data mod 2 ^ n) /\ a_bytes a' = a_bytes a /\ a_spare a' = a_spare a).
Proof.
  intros H1 H0 H2 H3 Ho.
  assert (V : bits_num (a_bytes a) off (Z.to_nat n) = data mod 2 ^ n).
  { replace n with (Z.of_nat (Z.to_nat n)) at 2 by lia. apply bits_num_of_testbit. intros i Hi. rewrite H3 by lia. f_equal. lia. }
  assert (M : data mod 2 ^ n mod 2 ^ 64 = data mod 2 ^ n).
  { apply Z.mod_small. pose proof (Z.mod_pos_bound data (2 ^ n)). pose proof (Z.pow_le_mono_r 2 n 64). lia. }
  assert (MINI : out = [0] -> mini_abs_at off (OReadBits n) a out = (Ok (RInt (data mod 2 ^ n)) a, [data mod 2 ^ n])).
  { intros ->. cbn [mini_abs_at hd]. rewrite Z.max_r, mread_in by lia. rewrite V, Z.mul_0_l, Z.add_0_l, M. reflexivity. }
  destruct k as [| |v|v]; cbn [op_gives in_v3 in_old abs_opn abs_at].
  - replace (_ <=? off) with false by lia. replace (off <? 0) with false by lia.
    replace (n <=? 0) with false by lia. replace (_ <? _) with false by lia. rewrite V, M. do 2 eexists. split; [reflexivity|]. auto.
  - rewrite MINI by exact Ho. do 3 eexists. split; [reflexivity|]. auto.
  - intros o E. injection E as <-.
    assert (G : old_at v off (view_old_op s (PReadBits n)) a = Ok (RInt (data mod 2 ^ n)) a).
    { destruct v; cbn [old_at plain_op2 view_old_op seq_at]; replace (n <=? 0) with false by lia;
        replace (_ <=? off) with false by lia; replace (off <? 0) with false by lia; replace (_ <? _) with false by lia; now rewrite V, M. }
    rewrite G. do 2 eexists. split; [reflexivity|]. auto.
  - intros o E. injection E as <-. cbn [view_old_op old_mini_abs_at]. replace (n <=? 0) with false by lia. rewrite MINI by exact Ho.
    destruct v; do 3 eexists; (split; [reflexivity|]); auto.
Qed.

Lemma gives_write_bytes k off s d a out :
  let b := slice_bytes (heap s) d in
  b <> [] -> smear (lag s off d) b = b -> 0 <= off -> off + zlen b <= zlen (a_bytes a) ->
  op_gives k off s (WriteBytes d) a out (fun r _ a' => r = RUnit /\ written (put (a_bytes a) off b) a a').
Proof.
  intros b Nb Sm H0 H1.
  assert (0 < zlen b) by (destruct b; [congruence|unfold zlen; cbn [List.length]; lia]).
  destruct k as [| |v|v]; cbn [op_gives in_v3 in_old abs_opn abs_at mini_abs_at]; fold b.
  - replace (_ <? _) with false by lia. replace (_ <? _) with false by lia. do 2 eexists. split; [reflexivity|]. now split.
  - replace (_ && _) with true by lia. rewrite Z.min_r by lia.
    replace (sub b 0 (zlen b)) with b by (symmetry; now apply sub_all). do 3 eexists. split; [reflexivity|]. now split.
  - intros o E. injection E as <-.
    assert (G : old_at v off (view_old_op s (PWriteBytes d)) a = Ok RUnit (set_bytes a (put (a_bytes a) off b))).
    { destruct v; cbn [old_at plain_op2 view_old_op seq_at]; rewrite copied_view; fold b; rewrite Sm; unfold seq_store;
        replace (_ <? _) with false by lia; replace (_ <? _) with false by lia; replace (_ =? _) with false by lia; reflexivity. }
    rewrite G. do 2 eexists. split; [reflexivity|]. now split.
  - intros o E. injection E as <-. cbn [view_old_op old_mini_abs_at]. rewrite copied_view. fold b. rewrite Sm. unfold old_mini_store.
    replace (_ || _ || _) with false by lia. replace (_ <=? _) with true by lia. do 3 eexists. split; [reflexivity|]. now split.
Qed.

Lemma gives_read_bytes k off s n a out : zlen (a_bytes a) <= maxAlloc -> 0 <= off -> 0 <= n -> off + n <= zlen (a_bytes a) ->
  op_gives k off s (ReadBytes n) a out
    (fun r o a' => bytes_seen (shows r o k) = Some (sub (a_bytes a) off n) /\ a_bytes a' = a_bytes a /\ a_spare a' = a_spare a).
Proof.
  intros HM H0 Hn H1. unfold maxAlloc in HM.
  assert (A : off +! n = off + n) by (apply add64_id; unfold is_i64; lia).
  assert (MINI : mini_abs_at off (OReadBytes n) a out = (Ok (RBytes (sub (a_bytes a) off n)) a, out)).
  { cbn [mini_abs_at]. rewrite A. pose proof (zlen_nonneg (a_spare a)). replace (_ && _ && _) with true by lia.
    replace (off + n - off) with n by lia. now rewrite sub_app_l by lia. }
  destruct k as [| |v|v]; cbn [op_gives in_v3 in_old abs_opn abs_at].
  - rewrite A. replace (_ >? _) with false by lia. replace (off <? 0) with false by lia. replace (_ && _) with true by lia.
    do 2 eexists. split; [reflexivity|]. auto.
  - rewrite MINI. do 3 eexists. split; [reflexivity|]. auto.
  - intros o E. injection E as <-.
    assert (G : old_at v off (view_old_op s (PReadBytes n)) a = Ok (RBytes (sub (a_bytes a) off n)) a).
    { destruct v; cbn [old_at plain_op2 view_old_op seq_at]; rewrite A; replace (_ >? _) with false by lia; replace (off <? 0) with false by lia;
        now replace (_ && _) with true by lia. }
    rewrite G. do 2 eexists. split; [reflexivity|]. auto.
  - intros o E. injection E as <-. cbn [view_old_op old_mini_abs_at]. rewrite MINI. do 3 eexists. split; [reflexivity|]. auto.
Qed.

(** ** In a world *)

Definition bytes_in (w : world) (o : object) : list Z := content (state_of (memory w) o).
(** The offset that a place stands for, of bytes and of bits. *)
Definition offset_of (p : place) (o : object) : Z := match p with Fixed off => off | Here => b_off (o_buf o) end.
Definition bit_offset_of (p : place) (o : object) : Z := match p with Fixed off => off | Here => b_boff (o_buf o) end.

Lemma call_step pol w i x p v out q (P : rv (list Z) -> list Z -> abuf -> Prop) :
  (forall r o a' z, P r o a' -> P r o (set_off a' z)) -> (forall r o a' z, P r o a' -> P r o (set_boff a' z)) ->
  wf_world w -> nth_error (objects w) i = Some x -> o_mu x = false ->
  ask (o_kind x) p v out = Some q -> valid_place p -> valid_deed (memory w) (o_kind x) v out ->
  op_gives (o_kind x) (if bits v then bit_offset_of p x else offset_of p x) (state_of (memory w) x) v (abs (state_of (memory w) x)) out P ->
  exists r o w' x', wstep pol (WCall i q) w [Called i (shows r o (o_kind x))] w' /\ wf_world w' /\
    nth_error (objects w') i = Some x' /\ o_kind x' = o_kind x /\ o_mu x' = false /\ P r o (abs (state_of (memory w') x')) /\
    (forall j y, j <> i -> nth_error (objects w) j = Some y -> nth_error (objects w') j = Some y).
Proof.
  intros PO PB W Ex Hm E Vp Vd G. pose proof W as [_ Wo]. rewrite Forall_nth_error in Wo. pose proof (Wo _ _ Ex) as Wx.
  pose proof (ask_valid _ _ _ _ _ (state_of (memory w) x) E Vp Vd) as V.
  assert (Vw : valid_w w (WCall i q)) by (exists x; auto).
  assert (G' : op_gives (o_kind x) (where_ p v (abs (state_of (memory w) x))) (state_of (memory w) x) v (abs (state_of (memory w) x)) out P).
  { unfold where_. destruct (bits v), p; exact G. }
  destruct (ask_gives pol _ _ _ _ _ _ _ _ PO PB E G') as (r & o & a' & S & Pa).
  destruct (one_call_ok pol _ q _ Wx V) as (sn & s' & C & _ & S'). cbn [state_of mu] in S'. rewrite Hm in S'. rewrite S in S'.
  injection S' as <- -> M.
  assert (St : wstep pol (WCall i q) w [Called i (shows r o (o_kind x))]
     (mkWorld (heap s') (replace i (mkObject (o_kind x) (bb s') (mu s')) (objects w)))) by (econstructor; eauto).
  assert (L : (i < List.length (objects w))%nat) by (apply nth_error_Some; congruence).
  exists r, o. eexists. exists (mkObject (o_kind x) (bb s') (mu s')). split; [exact St|]. split; [now apply (wstep_WF _ _ _ _ _ W Vw St)|].
  cbn [objects memory]. split; [rewrite nth_replace, Nat.eqb_refl by exact L; reflexivity|]. cbn [o_kind o_mu]. repeat split; auto.
  intros j y N Ey. rewrite nth_replace by exact L. destruct (Nat.eqb_spec j i); [contradiction|exact Ey].
Qed.
