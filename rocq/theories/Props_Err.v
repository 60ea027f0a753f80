(** * Props_Err: the errors (C53). *)
From Coq Require Import ZArith List Bool Lia String.
From Verif Require Import GoSem Errors Spec GoLemmas Calls OldCalls V1Lemmas V1Calls MiniAbs ErrLemmas Witness.
From Verif Require V3Buffer V2Buffer V1Buffer.
Import ListNotations.
Open Scope Z_scope.

(** ** The exported values: v3/errors.go:28-72, v2/errors.go:28-72, v1/errors.go:28-86 *)

Definition exported3 : list err :=
  [BufferOverreadError; BufferUnderreadError; BufferOverwriteError; BufferUnderwriteError;
   BufferInvalidByteCountError; BytesBufNegativeReadError].
Definition exported2 : list err :=
  [BufferOverreadError; BufferUnderreadError; BufferOverwriteError; BufferUnderwriteError;
   BufferInvalidByteCountError; BufferInvalidBitError].
Definition exported1 : list err :=
  [BufferOverreadError; BufferUnderreadError; BufferOverwriteError; BufferUnderwriteError;
   BufferInvalidIntegerSizeError; BufferInvalidEndiannessError; BufferInvalidByteCountError; BufferInvalidBitError].

(** Two exported errors of one version at different places of the list are
    different values, and so are their texts. *)
Definition distinguishable (l : list err) : Prop :=
  forall i j e1 e2, nth_error l i = Some e1 -> nth_error l j = Some e2 -> i <> j ->
    e1 <> e2 /\ error_string e1 <> error_string e2.

Lemma distinguishable_nodup l : NoDup (map error_string l) -> distinguishable l.
Proof.
  intros N i j e1 e2 H1 H2 D.
  assert (X : error_string e1 <> error_string e2).
  { intro E. apply D. rewrite NoDup_nth_error in N. apply N.
    - rewrite map_length. apply nth_error_Some. congruence.
    - rewrite !nth_error_map, H1, H2. cbn. now rewrite E. }
  split; [intros -> | exact X]. now apply X.
Qed.
Ltac nodup := repeat constructor; cbn; intuition congruence.

Theorem C53_distinct : distinguishable exported1 /\ distinguishable exported2 /\ distinguishable exported3.
Proof. split; [|split]; apply distinguishable_nodup; nodup. Qed.
Print Assumptions C53_distinct.

(** The text is "crunch: ", the scope, ": " and the message. *)
Theorem C53_text e : In e (exported1 ++ exported2 ++ exported3) ->
  exists scope message, e = CrunchError scope message /\
    error_string e = Some ("crunch: " ++ scope ++ ": " ++ message)%string.
Proof.
  intro H. destruct e as [a b|k]; [now exists a, b|].
  exfalso. revert H. vm_compute. intuition discriminate.
Qed.
Print Assumptions C53_text.

(** ** Which call can raise which error, from any state with any arguments *)

(** v3: readers raise the read errors, writers the write errors, the calls that
    take a byte count the byte count error; nothing else raises a crunch error. *)
Definition documented3 {B} (c : call B) : list err :=
  match c with
  | At _ o | Next o =>
      if is_read o then [BufferOverreadError; BufferUnderreadError]
      else [BufferOverwriteError; BufferUnderwriteError]
  | CTruncateLeft _ | CTruncateRight _ | CGrow _ => [BufferInvalidByteCountError]
  | _ => []
  end.

(** v2 and v1: the same; SetBit and SetBitNext can also reject the bit value. *)
Definition documented2 {B} (c : call2 B) : list err :=
  match c with
  | At2 _ (PSetBit _) | Next2 (PSetBit _) => [BufferOverwriteError; BufferUnderwriteError; BufferInvalidBitError]
  | At2 _ o | Next2 o =>
      if is_read2 o then [BufferOverreadError; BufferUnderreadError]
      else [BufferOverwriteError; BufferUnderwriteError]
  | _ => []
  end.

Definition a_runtime_error (e : err) : Prop := exists k, e = RuntimeError k.

Theorem C53_v3_raises c s e s' : run (do_call c) s = Panicked e s' ->
  In e (documented3 c) \/ a_runtime_error e.
Proof.
  apply (run_raises (fun e => In e (documented3 c) \/ a_runtime_error e)).
  assert (HR : forall k, In (RuntimeError k) (documented3 c) \/ a_runtime_error (RuntimeError k)) by (right; now eexists).
  destruct c as [off o|o| | | | | | | | | | | | | | | | | | | ]; cbn [do_call documented3] in *.
  1, 2: destruct (is_read o) eqn:R;
    [ apply (v3_read_raises _ HR) | apply (v3_write_raises _ HR) ]; cbn; auto; try exact 0.
  all: unfold ret_unit, ret_int, ret_bytes,
      V3Buffer.ClearAllBits, V3Buffer.SetAllBits, V3Buffer.FlipAllBits, V3Buffer.AfterBit, V3Buffer.AfterByte,
      V3Buffer.AlignBit, V3Buffer.AlignByte, V3Buffer.TruncateLeft, V3Buffer.TruncateRight, V3Buffer.Grow, V3Buffer.Refresh,
      V3Buffer.Reset, V3Buffer.Bytes, V3Buffer.ByteCapacity, V3Buffer.BitCapacity, V3Buffer.ByteOffset, V3Buffer.BitOffset,
      V3Buffer.SeekBit, V3Buffer.SeekByte; raises_tac; cbn; auto.
Qed.
Print Assumptions C53_v3_raises.

(** A v3 MiniBuffer never raises a crunch error. *)
Theorem C53_mini_raises c s e s' : run (mini_call c) s = Panicked e s' -> a_runtime_error e.
Proof.
  intro E. pose proof (run_raises runtime _ (mini_raises c) _ _ _ E) as R.
  destruct e; [destruct R | now eexists].
Qed.
Print Assumptions C53_mini_raises.

Theorem C53_v2_raises pol c s e s' : run (do2_call pol c) s = Panicked e s' ->
  In e (documented2 c) \/ a_runtime_error e.
Proof.
  apply (run_raises (fun e => In e (documented2 c) \/ a_runtime_error e)).
  assert (HR : forall k, In (RuntimeError k) (documented2 c) \/ a_runtime_error (RuntimeError k)) by (right; now eexists).
  destruct c as [off o|o| | | | | | | | | | | | | | | | | ]; cbn [do2_call documented2] in *.
  1, 2: destruct o; cbn [is_read2] in *;
    lazymatch goal with
    | |- raises ?P (_ ?f ?o) =>
        first [ apply (v2_read_raises P HR f o eq_refl) | apply (v2_write_raises P HR f o eq_refl) ]
    | |- raises ?P (_ ?o) =>
        first [ apply (v2_read_raises P HR 0 o eq_refl) | apply (v2_write_raises P HR 0 o eq_refl) ]
    end; cbn; auto; intros [? Z]; discriminate Z.
  all: unfold ret_unit, ret_int, ret_bytes,
      V2Buffer.ClearAllBits, V2Buffer.SetAllBits, V2Buffer.FlipAllBits, V2Buffer.AfterBit, V2Buffer.After,
      V2Buffer.AlignBit, V2Buffer.AlignByte, V2Buffer.Grow, V2Buffer.Refresh,
      V2Buffer.Reset, V2Buffer.Bytes, V2Buffer.Capacity, V2Buffer.BitCapacity, V2Buffer.Offset, V2Buffer.BitOffset,
      V2Buffer.SeekBit, V2Buffer.Seek,
      V2Buffer.clearallbits, V2Buffer.setallbits, V2Buffer.flipallbits, V2Buffer.afterbit, V2Buffer.after,
      V2Buffer.alignbit, V2Buffer.alignbyte, V2Buffer.grow, V2Buffer.reset, V2Buffer.seekbit, V2Buffer.seek, V2Buffer.refresh;
      raises_tac; cbn; auto.
Qed.
Print Assumptions C53_v2_raises.

Theorem C53_v1_raises pol c p s e s' : do1_call pol c = Some p -> run p s = Panicked e s' ->
  In e (documented2 c) \/ a_runtime_error e.
Proof.
  intro D. apply (run_raises (fun e => In e (documented2 c) \/ a_runtime_error e)).
  assert (HR : forall k, In (RuntimeError k) (documented2 c) \/ a_runtime_error (RuntimeError k)) by (right; now eexists).
  destruct c as [off o|o| | | | | | | | | | | | | | | | | ]; cbn [do1_call documented2] in *;
    try discriminate D; injection D as <-.
  1, 2: destruct o; cbn [is_read2] in *;
    lazymatch goal with
    | |- raises ?P (_ ?f ?o) =>
        first [ apply (v1_read_raises P HR f o eq_refl) | apply (v1_write_raises P HR f o eq_refl) ]
    | |- raises ?P (_ ?o) =>
        first [ apply (v1_read_raises P HR 0 o eq_refl) | apply (v1_write_raises P HR 0 o eq_refl) ]
    end; cbn; auto; intros [? Z]; discriminate Z.
  all: unfold ret_unit, ret_int, ret_bytes,
      V1Buffer.ClearAllBits, V1Buffer.SetAllBits, V1Buffer.FlipAllBits, V1Buffer.AfterBit, V1Buffer.After,
      V1Buffer.AlignBit, V1Buffer.AlignByte, V1Buffer.Grow, V1Buffer.Refresh,
      V1Buffer.Bytes, V1Buffer.Capacity, V1Buffer.BitCapacity, V1Buffer.Offset, V1Buffer.BitOffset,
      V1Buffer.SeekBit, V1Buffer.Seek,
      V1Buffer.clearallbits, V1Buffer.setallbits, V1Buffer.flipallbits, V1Buffer.afterbit, V1Buffer.after,
      V1Buffer.alignbit, V1Buffer.alignbyte, V1Buffer.grow, V1Buffer.seekbit, V1Buffer.seek, V1Buffer.refresh;
      raises_tac; cbn; auto.
Qed.
Print Assumptions C53_v1_raises.

(** v1 WriteComplex and ReadComplex with any size argument: only a size other
    than 1, 2, 4, 8 is rejected as an integer size. *)
Theorem C53_v1_complex off x n size e s s' err_ :
  run (V1Buffer.WriteComplex off x size e) s = Panicked err_ s' \/
  (exists s0, run (V1Buffer.ReadComplex off n size e) s0 = Panicked err_ s') ->
  In err_ [BufferOverwriteError; BufferUnderwriteError; BufferOverreadError; BufferUnderreadError] \/
  (err_ = BufferInvalidIntegerSizeError /\ ~ In size [1; 2; 4; 8]) \/ a_runtime_error err_.
Proof.
  set (P := fun err_ => In err_ [BufferOverwriteError; BufferUnderwriteError; BufferOverreadError; BufferUnderreadError] \/
    (err_ = BufferInvalidIntegerSizeError /\ ~ In size [1; 2; 4; 8]) \/ a_runtime_error err_).
  assert (HR : forall k, P (RuntimeError k)) by (right; right; now eexists).
  assert (V : P BufferInvalidIntegerSizeError \/ valid_size size = true).
  { destruct (valid_size size) eqn:E; auto. left. right. left. split; auto. unfold valid_size in E. cbn. lia. }
  intros [E | [s0 E]]; revert E; apply (run_raises P).
  - apply (raises_WriteComplex P HR); unfold P; cbn; auto.
  - apply (raises_readComplex P HR); unfold P; cbn; auto 6.
Qed.
Print Assumptions C53_v1_complex.

(** Every documented error does occur. *)
Example C53_case :
  (exists s, run (do_call (At 9 (ORead U16LE 1))) ex = Panicked BufferOverreadError s) /\
  (exists s, run (do_call (At (-1) OSetBit)) ex = Panicked BufferUnderwriteError s) /\
  (exists s, run (do_call (CGrow (-1))) ex = Panicked BufferInvalidByteCountError s) /\
  (exists s, run (do2_call Z.max (At2 3 (PSetBit 2))) ex = Panicked BufferInvalidBitError s) /\
  (exists s, run (V1Buffer.WriteComplex 0 (V1Buffer.IU16 [1]) 3 LE) ex = Panicked BufferInvalidIntegerSizeError s) /\
  error_string BufferOverreadError = Some "crunch: buffer: read exceeds buffer capacity"%string.
Proof. vm_all. Qed.
