(** * ErrLemmas: the panic values a program can produce, from any state. *)
From Coq Require Import ZArith List Bool Lia.
From Verif Require Import GoSem Errors Spec GoLemmas Typed TypedCanon Calls OldCalls V2Lemmas V1Lemmas V1Calls MiniAbs.
From Verif Require GoBinary V3Buffer V3Mini V2Buffer V2Mini V1Buffer V1Mini.
Import ListNotations.
Open Scope Z_scope.

(** Every panic written in [p] satisfies [P]. *)
Fixpoint raises (P : err -> Prop) {A} (p : prog A) : Prop :=
  match p with
  | Ret _ | OutOfFuel => True
  | Panic e => P e
  | GetBuf k => forall x, raises P (k x)
  | SetBuf _ k => raises P k
  | GetF _ k => forall x, raises P (k x)
  | SetF _ _ k => raises P k
  | Load _ _ k => forall x, raises P (k x)
  | Store _ _ _ k => raises P k
  | Move _ _ _ _ _ k => raises P k
  | Alloc _ k => forall x, raises P (k x)
  | GetOuts k => forall x, raises P (k x)
  | SetOuts _ k => raises P k
  | Lock k | Unlock k => raises P k
  end.

Lemma run_raises (P : err -> Prop) {A} (p : prog A) : raises P p ->
  forall st e st', run p st = Panicked e st' -> P e.
Proof.
  induction p; cbn [raises run]; intros R st e0 st' E; try discriminate E; eauto.
  - now inversion E; subst.
  - destruct (heap_read _ _ _ _) as [[|v [|]]|]; try discriminate E. eauto.
  - destruct (heap_write _ _ _ _); try discriminate E. eauto.
  - destruct (heap_read _ _ _ _); try discriminate E. destruct (heap_write _ _ _ _); try discriminate E. eauto.
  - destruct (mu st); try discriminate E. eauto.
  - destruct (mu st); try discriminate E. eauto.
Qed.

Definition runtime (e : err) : Prop := match e with RuntimeError _ => True | CrunchError _ _ => False end.

Section Raises.
Variable P : err -> Prop.
Hypothesis HR : forall k, P (RuntimeError k).

Lemma raises_bind {A B} (p : prog A) (f : A -> prog B) :
  raises P p -> (forall a, raises P (f a)) -> raises P (bind p f).
Proof using. intros Hp Hf. induction p; cbn in *; auto. Qed.
Lemma raises_finally {A} (p : prog A) c :
  raises P p -> raises P c -> raises P (finally p c).
Proof using.
  intros Hp Hc. induction p; cbn in *; auto; apply raises_bind; auto; intro; exact I || assumption.
Qed.
Lemma raises_panic_if c e : P e -> raises P (panic_if c e).
Proof using. destruct c; cbn; auto. Qed.
Lemma raises_slice_get s i : raises P (slice_get s i).
Proof using HR. unfold slice_get. destruct (_ && _); cbn; auto. Qed.
Lemma raises_slice_set s i v : raises P (slice_set s i v).
Proof using HR. unfold slice_set. destruct (_ && _); cbn; auto. Qed.
Lemma raises_buf_get i : raises P (buf_get i).
Proof using HR. unfold buf_get. apply raises_bind. cbn; auto. intro; apply raises_slice_get. Qed.
Lemma raises_buf_set i v : raises P (buf_set i v).
Proof using HR. unfold buf_set. apply raises_bind. cbn; auto. intro; apply raises_slice_set. Qed.
Lemma raises_reslice s a b : raises P (reslice s a b).
Proof using HR. unfold reslice. destruct (_ && _); cbn; auto. Qed.
Lemma raises_make_bytes a b : raises P (make_bytes a b).
Proof using HR. unfold make_bytes. destruct (_ && _); cbn; auto. Qed.
Lemma raises_make_elems a b : raises P (make_elems a b).
Proof using HR. unfold make_elems. destruct (_ && _); cbn; auto. Qed.
Lemma raises_append pol s d : raises P (append pol s d).
Proof using HR. unfold append. destruct (_ <=? _); cbn; auto. destruct (_ <=? _); cbn; auto. Qed.
Lemma raises_elem l i : raises P (elem l i).
Proof using HR. unfold elem. destruct (_ && _); cbn; auto. Qed.
Lemma raises_set_elem l i v : raises P (set_elem l i v).
Proof using HR. unfold set_elem. destruct (_ && _); cbn; auto. Qed.
Lemma raises_dw {S} n (body : Z -> S -> prog S) :
  (forall i a, raises P (body i a)) -> forall fuel i a, raises P (dw fuel n body i a).
Proof using.
  intros H. induction fuel as [|f IH]; intros i a; cbn; auto.
  apply raises_bind; auto. intro a'. destruct (_ <? _); cbn; auto.
Qed.
Lemma raises_goto_loop {S} n (body : Z -> S -> prog S) a :
  (forall i a, raises P (body i a)) -> raises P (goto_loop n body a).
Proof using. intro H. now apply raises_dw. Qed.
Lemma raises_fl {S} n (body : Z -> S -> prog S) :
  (forall i a, raises P (body i a)) -> forall fuel i a, raises P (fl fuel n body i a).
Proof using.
  intros H. induction fuel as [|f IH]; intros i a; cbn; destruct (_ <? _); cbn; auto.
  apply raises_bind; auto.
Qed.
Lemma raises_for_loop {S} n (body : Z -> S -> prog S) a :
  (forall i a, raises P (body i a)) -> raises P (for_loop n body a).
Proof using. intro H. now apply raises_fl. Qed.
Lemma raises_locked {A} (p : prog A) : raises P p -> raises P (locked p).
Proof using. intro H. unfold locked. apply raises_bind. exact I. intros _. apply raises_finally; auto. exact I. Qed.
End Raises.

(** Walk a program; what is left are the panics it writes. *)
Ltac raises_step :=
  lazymatch goal with
  | |- True => exact I
  | |- forall _, _ => intro
  | |- raises _ (panic_if _ _) => apply raises_panic_if
  | |- raises _ (slice_get _ _) => apply raises_slice_get
  | |- raises _ (slice_set _ _ _) => apply raises_slice_set
  | |- raises _ (buf_get _) => apply raises_buf_get
  | |- raises _ (buf_set _ _) => apply raises_buf_set
  | |- raises _ (reslice _ _ _) => apply raises_reslice
  | |- raises _ (make_bytes _ _) => apply raises_make_bytes
  | |- raises _ (make_elems _ _) => apply raises_make_elems
  | |- raises _ (append _ _ _) => apply raises_append
  | |- raises _ (elem _ _) => apply raises_elem
  | |- raises _ (set_elem _ _ _) => apply raises_set_elem
  | |- raises _ (goto_loop _ _ _) => apply raises_goto_loop
  | |- raises _ (for_loop _ _ _) => apply raises_for_loop
  | |- raises _ (locked _) => apply raises_locked
  | |- raises _ (bind _ _) => apply raises_bind
  | |- raises _ (finally _ _) => apply raises_finally
  | |- raises _ (if ?c then _ else _) => destruct c
  | |- raises _ (match ?c with _ => _ end) => destruct c
  | |- raises _ _ => progress cbn [raises get_buf set_buf get set copy empty_slice lit_bytes lock unlock]
  | |- _ => first [assumption | exact I | match goal with H : forall _, _ |- _ => solve [apply H] end]
  end.
Ltac raises_tac := repeat raises_step.

(** ** v3 *)

Definition is_read {B} (o : opn B) : bool :=
  match o with OReadBit | OReadBits _ | OReadBytes _ | OReadByte | ORead _ _ => true | _ => false end.

Lemma raises_stores (P : err -> Prop) (HR : forall k, P (RuntimeError k)) bits w off i data l :
  raises P (stores bits w off i data l).
Proof.
  induction l as [|[k sh] l IH]; [exact I|]. cbn [stores]. destruct l; raises_tac; auto.
Qed.
Lemma raises_loads (P : err -> Prop) (HR : forall k, P (RuntimeError k)) {A} w off i ks (K : list Z -> prog A) :
  (forall x, raises P (K x)) -> forall acc, raises P (loads w off i ks acc K).
Proof. intro H. induction ks as [|k ks IH]; intro acc; cbn [loads]; raises_tac; auto. Qed.

Lemma raises_MiniWriteT (P : err -> Prop) (HR : forall k, P (RuntimeError k)) t off d : raises P (MiniWriteT t off d).
Proof. rewrite MiniWriteT_canon. raises_tac. now apply raises_stores. Qed.
Lemma raises_rbody (P : err -> Prop) (HR : forall k, P (RuntimeError k)) t off i a : raises P (rbody t off i a).
Proof. unfold rbody. apply raises_loads; auto. raises_tac; auto. Qed.
Lemma raises_mrbody (P : err -> Prop) (HR : forall k, P (RuntimeError k)) t off i : raises P (mrbody t off i).
Proof. unfold mrbody. apply raises_loads; auto. raises_tac; auto. Qed.

Lemma raises_WriteT (P : err -> Prop) (HR : forall k, P (RuntimeError k)) t off d :
  P BufferOverwriteError -> P BufferUnderwriteError -> raises P (WriteT t off d).
Proof. intros. rewrite WriteT_canon. raises_tac; auto. now apply raises_MiniWriteT. Qed.
Lemma raises_ReadT (P : err -> Prop) (HR : forall k, P (RuntimeError k)) t off n :
  P BufferOverreadError -> P BufferUnderreadError -> raises P (ReadT t off n).
Proof. intros. rewrite ReadT_canon. raises_tac; auto. now apply raises_rbody. Qed.
Lemma raises_MiniReadT (P : err -> Prop) (HR : forall k, P (RuntimeError k)) t off n : raises P (MiniReadT t off n).
Proof. intros. rewrite MiniReadT_canon. raises_tac; auto. now apply raises_mrbody. Qed.

Section V3.
Variable P : err -> Prop.
Hypothesis HR : forall k, P (RuntimeError k).

Lemma v3_read_raises off o : is_read o = true -> P BufferOverreadError -> P BufferUnderreadError ->
  raises P (do_at off o) /\ raises P (do_next o).
Proof using HR.
  intros R H1 H2. destruct o; try discriminate R; cbn [do_at do_next];
    try rewrite ReadTNext_canon;
    unfold ret_int, ret_bytes, ret_nums, V3Buffer.ReadBitNext, V3Buffer.ReadBitsNext, V3Buffer.ReadBits, V3Buffer.ReadBit,
      V3Buffer.ReadBytesNext, V3Buffer.ReadByteNext, V3Buffer.ReadByte, V3Buffer.ReadBytes, V3Buffer.SeekBit, V3Buffer.SeekByte;
    split; raises_tac; auto; now apply raises_ReadT.
Qed.

Lemma v3_write_raises off o : is_read o = false -> P BufferOverwriteError -> P BufferUnderwriteError ->
  raises P (do_at off o) /\ raises P (do_next o).
Proof using HR.
  intros R H1 H2. destruct o; try discriminate R; cbn [do_at do_next];
    try rewrite WriteTNext_canon;
    unfold ret_unit, V3Buffer.SetBitsNext, V3Buffer.SetBits, V3Buffer.SetBitNext, V3Buffer.ClearBitNext, V3Buffer.FlipBitNext,
      V3Buffer.SetBit, V3Buffer.ClearBit, V3Buffer.FlipBit, V3Buffer.WriteBytesNext, V3Buffer.WriteByteNext, V3Buffer.WriteByte,
      V3Buffer.WriteBytes, V3Buffer.SeekBit, V3Buffer.SeekByte;
    split; raises_tac; auto; now apply raises_WriteT.
Qed.
End V3.

Lemma mini_raises c : raises runtime (mini_call c).
Proof.
  assert (HR : forall k, runtime (RuntimeError k)) by (intro; exact I).
  destruct c as [off o|o| | | | | | | | | | | | | | | | | | | ]; cbn [mini_call]; try destruct o; cbn [mini_at mini_next];
    try rewrite MiniWriteTNext_canon; try rewrite MiniReadTNext_canon;
    unfold ret_int, ret_bytes, ret_nums, ret_unit, out_int, out_nums,
      V3Mini.ReadBitNext, V3Mini.ReadBitsNext, V3Mini.ReadBits, V3Mini.ReadBit,
      V3Mini.ReadBytesNext, V3Mini.ReadBytes,
      V3Mini.SetBitsNext, V3Mini.SetBits, V3Mini.SetBitNext, V3Mini.ClearBitNext, V3Mini.FlipBitNext,
      V3Mini.SetBit, V3Mini.ClearBit, V3Mini.FlipBit, V3Mini.WriteBytesNext, V3Mini.WriteBytes,
      V3Mini.ClearAllBits, V3Mini.SetAllBits, V3Mini.FlipAllBits, V3Mini.AfterBit, V3Mini.AfterByte,
      V3Mini.AlignBit, V3Mini.AlignByte, V3Mini.TruncateLeft, V3Mini.TruncateRight, V3Mini.Grow, V3Mini.Refresh,
      V3Mini.Reset, V3Mini.Bytes, V3Mini.ByteCapacity, V3Mini.BitCapacity, V3Mini.ByteOffset, V3Mini.BitOffset, V3Mini.SeekBit, V3Mini.SeekByte;
    raises_tac; auto; try (now apply raises_MiniWriteT); try (now apply raises_MiniReadT).
Qed.

(** ** v2 and v1 *)

Definition is_read2 {B} (o : op2 B) : bool :=
  match o with PReadBit | PReadBits _ | PReadBytes _ | PReadByte | PRead _ _ => true | _ => false end.

Section Old.
Variable P : err -> Prop.
Hypothesis HR : forall k, P (RuntimeError k).

Lemma raises_WriteU t off d : P BufferOverwriteError -> P BufferUnderwriteError -> raises P (WriteU t off d).
Proof using HR. intros. rewrite WriteU_canon. raises_tac; auto. now apply raises_MiniWriteT. Qed.
Lemma raises_ReadU t off n : P BufferOverreadError -> P BufferUnderreadError -> raises P (ReadU t off n).
Proof using HR. intros. rewrite ReadU_canon. raises_tac; auto. now apply raises_rbody. Qed.

Lemma v2_read_raises off o : is_read2 o = true -> P BufferOverreadError -> P BufferUnderreadError ->
  raises P (do2_at off o) /\ raises P (do2_next o).
Proof using HR.
  intros R H1 H2. destruct o; try discriminate R; cbn [do2_at do2_next];
    try rewrite ReadUNext_canon;
    unfold ret_int, ret_bytes, ret_nums, V2Buffer.ReadBitNext, V2Buffer.ReadBitsNext, V2Buffer.ReadBits, V2Buffer.ReadBit,
      
      V2Buffer.ReadBytesNext, V2Buffer.ReadByteNext, V2Buffer.ReadByte, V2Buffer.ReadBytes, V2Buffer.readbits, V2Buffer.readbit, V2Buffer.read, V2Buffer.seekbit, V2Buffer.seek;
    split; raises_tac; auto; now apply raises_ReadU.
Qed.

Lemma land1 x : byte (Z.land x 1) = 0 \/ byte (Z.land x 1) = 1.
Proof using. clear. assert (L : Z.land x 1 = x mod 2) by (change 1 with (Z.ones 1); now rewrite Z.land_ones by lia).
  rewrite L.
  pose proof (Z.mod_pos_bound x 2 ltac:(lia)). assert (E : x mod 2 = 0 \/ x mod 2 = 1) by lia.
  destruct E as [-> | ->]; auto. Qed.
Lemma raises_setbit2 off d : P BufferOverwriteError -> P BufferUnderwriteError -> d = 0 \/ d = 1 ->
  raises P (V2Buffer.setbit off d).
Proof using HR. intros H1 H2 [-> | ->]; unfold V2Buffer.setbit; change (0 =? 0) with true; change (1 =? 0) with false; change (1 =? 1) with true; cbv iota; raises_tac. Qed.
Lemma raises_setbit1 off d : P BufferOverwriteError -> P BufferUnderwriteError -> d = 0 \/ d = 1 ->
  raises P (V1Buffer.setbit off d).
Proof using HR. intros H1 H2 [-> | ->]; unfold V1Buffer.setbit; change (0 =? 0) with true; change (1 =? 0) with false; change (1 =? 1) with true; cbv iota; raises_tac. Qed.

Lemma v2_write_raises off o : is_read2 o = false -> P BufferOverwriteError -> P BufferUnderwriteError ->
  ((exists d, o = PSetBit d) -> P BufferInvalidBitError) ->
  raises P (do2_at off o) /\ raises P (do2_next o).
Proof using HR.
  intros R H1 H2 H3. destruct o; try discriminate R; cbn [do2_at do2_next];
    try rewrite WriteUNext_canon;
    unfold ret_unit, V2Buffer.SetBitsNext, V2Buffer.SetBits, V2Buffer.setbits, V2Buffer.SetBitNext, V2Buffer.FlipBitNext,
      V2Buffer.SetBit, V2Buffer.FlipBit, V2Buffer.flipbit, V2Buffer.WriteBytesNext, V2Buffer.WriteByteNext, V2Buffer.WriteByte,
      V2Buffer.WriteBytes, V2Buffer.write, V2Buffer.seekbit, V2Buffer.seek;
    split; raises_tac; try (now apply raises_WriteU); try (apply raises_setbit2; auto; apply land1);
    unfold V2Buffer.setbit; raises_tac; eauto.
Qed.

Lemma raises_copy_digits data tdata w i ks : raises P (V1Buffer.copy_digits data tdata w i ks).
Proof using HR. induction ks as [|k ks IH]; cbn [V1Buffer.copy_digits]; raises_tac; apply IH. Qed.
Lemma raises_store_all b l : forall k, raises P (GoBinary.store_all b k l).
Proof using HR. induction l as [|x l IH]; intro k; cbn [GoBinary.store_all]; raises_tac; apply IH. Qed.

Lemma raises_complex_bytes x size e : P BufferInvalidIntegerSizeError \/ valid_size size = true ->
  raises P (V1Buffer.complex_bytes x size e).
Proof using HR.
  intro H. unfold V1Buffer.complex_bytes.
  destruct (size =? V1Buffer.Unsigned8) eqn:E1; [unfold V1Buffer.as_bytes; raises_tac|].
  destruct (size =? V1Buffer.Unsigned16) eqn:E2;
    [unfold V1Buffer.as_u16, V1Buffer.put_loop; raises_tac; first [apply raises_copy_digits | apply raises_store_all]|].
  destruct (size =? V1Buffer.Unsigned32) eqn:E3;
    [unfold V1Buffer.as_u32, V1Buffer.put_loop; raises_tac; first [apply raises_copy_digits | apply raises_store_all]|].
  destruct (size =? V1Buffer.Unsigned64) eqn:E4;
    [unfold V1Buffer.as_u64, V1Buffer.put_loop; raises_tac; first [apply raises_copy_digits | apply raises_store_all]|].
  cbn [raises]. destruct H as [H|H]; auto.
  unfold valid_size, V1Buffer.Unsigned8, V1Buffer.Unsigned16, V1Buffer.Unsigned32, V1Buffer.Unsigned64 in *. lia.
Qed.

Lemma raises_v1_write off d : P BufferOverwriteError -> P BufferUnderwriteError -> raises P (V1Buffer.write off d).
Proof using HR. intros. unfold V1Buffer.write. raises_tac. Qed.
Lemma raises_v1_read off n : P BufferOverreadError -> P BufferUnderreadError -> raises P (V1Buffer.read off n).
Proof using HR. intros. unfold V1Buffer.read. raises_tac. Qed.
Lemma raises_readComplex off n size e : P BufferOverreadError -> P BufferUnderreadError ->
  P BufferInvalidIntegerSizeError \/ valid_size size = true ->
  raises P (V1Buffer.readComplex off n size e).
Proof using HR.
  intros H1 H2 H. unfold V1Buffer.readComplex. apply raises_bind. now apply raises_v1_read. intro d.
  destruct (size =? V1Buffer.Unsigned8) eqn:E1; [exact I|].
  destruct (size =? V1Buffer.Unsigned16) eqn:E2;
    [unfold V1Buffer.decode_loop, GoBinary.uint16; raises_tac|].
  destruct (size =? V1Buffer.Unsigned32) eqn:E3;
    [unfold V1Buffer.decode_loop, GoBinary.uint32; raises_tac|].
  destruct (size =? V1Buffer.Unsigned64) eqn:E4;
    [unfold V1Buffer.decode_loop, GoBinary.uint64; raises_tac|].
  cbn [raises]. destruct H as [H|H]; auto.
  unfold valid_size, V1Buffer.Unsigned8, V1Buffer.Unsigned16, V1Buffer.Unsigned32, V1Buffer.Unsigned64 in *. lia.
Qed.
Lemma raises_WriteComplex off x size e : P BufferOverwriteError -> P BufferUnderwriteError ->
  P BufferInvalidIntegerSizeError \/ valid_size size = true ->
  raises P (V1Buffer.WriteComplex off x size e) /\ raises P (V1Buffer.WriteComplexNext x size e).
Proof using HR.
  intros H1 H2 H. unfold V1Buffer.WriteComplex, V1Buffer.WriteComplexNext, V1Buffer.writeComplex.
  split; raises_tac; try (now apply raises_complex_bytes); try (now apply raises_v1_write);
    unfold V1Buffer.as_bytes, V1Buffer.as_u16, V1Buffer.as_u32, V1Buffer.as_u64, V1Buffer.seek; raises_tac.
Qed.

Lemma valid_tsize t : valid_size (tsize (fmt t)) = true.
Proof using. destruct t; reflexivity. Qed.

Lemma v1_read_raises off o : is_read2 o = true -> P BufferOverreadError -> P BufferUnderreadError ->
  raises P (do1_at off o) /\ raises P (do1_next o).
Proof using HR.
  intros R H1 H2. destruct o; try discriminate R; cbn [do1_at do1_next];
    unfold ret_int, ret_bytes, ret_nums, ret_idata, V1Buffer.ReadBitNext, V1Buffer.ReadBitsNext, V1Buffer.ReadBits, V1Buffer.ReadBit,
      V1Buffer.ReadBytesNext, V1Buffer.ReadByteNext, V1Buffer.ReadByte, V1Buffer.ReadBytes,
      V1Buffer.ReadComplex, V1Buffer.ReadComplexNext, V1Buffer.readbits, V1Buffer.readbit, V1Buffer.seekbit, V1Buffer.seek;
    split; raises_tac; try (now apply raises_v1_read);
    try (apply raises_readComplex; auto using valid_tsize).
Qed.

Lemma v1_write_raises off o : is_read2 o = false -> P BufferOverwriteError -> P BufferUnderwriteError ->
  ((exists d, o = PSetBit d) -> P BufferInvalidBitError) ->
  raises P (do1_at off o) /\ raises P (do1_next o).
Proof using HR.
  intros R H1 H2 H3. destruct o; try discriminate R; cbn [do1_at do1_next];
    try (unfold ret_unit; split; apply raises_bind; [apply raises_WriteComplex; auto using valid_tsize | intros; exact I
        | apply (raises_WriteComplex 0); auto using valid_tsize | intros; exact I]);
    unfold ret_unit, V1Buffer.SetBitsNext, V1Buffer.SetBits, V1Buffer.setbits, V1Buffer.SetBitNext, V1Buffer.FlipBitNext,
      V1Buffer.SetBit, V1Buffer.FlipBit, V1Buffer.flipbit, V1Buffer.WriteBytesNext, V1Buffer.WriteByteNext, V1Buffer.WriteByte,
      V1Buffer.WriteBytes, V1Buffer.seekbit, V1Buffer.seek;
    split; raises_tac; try (now apply raises_v1_write); try (apply raises_setbit1; auto; apply land1);
    unfold V1Buffer.setbit; raises_tac; eauto.
Qed.
End Old.
