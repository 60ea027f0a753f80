(** * Calls: the public API of the v3 [Buffer] as data.

    A [call] is a method name with its arguments; [do_call] runs the transcribed
    method.  [B] is the type of byte strings exchanged with the caller: slices
    for the real API, lists of bytes for the abstract machine of Abs.v. *)
From Coq Require Import ZArith List Bool.
From Verif Require Import GoSem Spec Typed.
From Verif Require V3Buffer.
Import ListNotations.
Open Scope Z_scope.
Open Scope go_scope.

(** The operations that exist both with an explicit offset and as [...Next]. *)
Inductive opn (B : Type) : Type :=
| OReadBit | OReadBits (n : Z) | OSetBit | OClearBit | OFlipBit | OSetBits (data n : Z)
| OWriteBytes (d : B) | OWriteByte (v : Z) | OReadBytes (n : Z) | OReadByte
| OWrite (t : numty) (d : list Z) | ORead (t : numty) (n : Z).
Arguments OReadBit {B}. Arguments OReadBits {B} n. Arguments OSetBit {B}. Arguments OClearBit {B}.
Arguments OFlipBit {B}. Arguments OSetBits {B} data n. Arguments OWriteBytes {B} d.
Arguments OWriteByte {B} v. Arguments OReadBytes {B} n. Arguments OReadByte {B}.
Arguments OWrite {B} t d. Arguments ORead {B} t n.

Inductive call (B : Type) : Type :=
| At (off : Z) (o : opn B)
| Next (o : opn B)
| CClearAllBits | CSetAllBits | CFlipAllBits
| CSeekBit (off : Z) (relative : bool) | CSeekByte (off : Z) (relative : bool)
| CAfterBit (off : option Z) | CAfterByte (off : option Z)
| CAlignBit | CAlignByte
| CTruncateLeft (n : Z) | CTruncateRight (n : Z) | CGrow (n : Z)
| CRefresh | CReset
| CBytes | CByteCapacity | CBitCapacity | CByteOffset | CBitOffset.
Arguments At {B} off o. Arguments Next {B} o. Arguments CClearAllBits {B}.
Arguments CSetAllBits {B}. Arguments CFlipAllBits {B}. Arguments CSeekBit {B} off relative.
Arguments CSeekByte {B} off relative. Arguments CAfterBit {B} off. Arguments CAfterByte {B} off.
Arguments CAlignBit {B}. Arguments CAlignByte {B}. Arguments CTruncateLeft {B} n.
Arguments CTruncateRight {B} n. Arguments CGrow {B} n. Arguments CRefresh {B}. Arguments CReset {B}.
Arguments CBytes {B}. Arguments CByteCapacity {B}. Arguments CBitCapacity {B}.
Arguments CByteOffset {B}. Arguments CBitOffset {B}.

(** Results. *)
Inductive rv (B : Type) : Type := RUnit | RInt (z : Z) | RBytes (b : B) | RNums (l : list Z).
Arguments RUnit {B}. Arguments RInt {B} z. Arguments RBytes {B} b. Arguments RNums {B} l.

Definition ret_unit (p : prog unit) : prog (rv slice) := p ;; Ret RUnit.
Definition ret_int (p : prog Z) : prog (rv slice) := x <- p ;; Ret (RInt x).
Definition ret_bytes (p : prog slice) : prog (rv slice) := x <- p ;; Ret (RBytes x).
Definition ret_nums (p : prog (list Z)) : prog (rv slice) := x <- p ;; Ret (RNums x).

Definition do_at (off : Z) (o : opn slice) : prog (rv slice) :=
  match o with
  | OReadBit => ret_int (V3Buffer.ReadBit off)
  | OReadBits n => ret_int (V3Buffer.ReadBits off n)
  | OSetBit => ret_unit (V3Buffer.SetBit off)
  | OClearBit => ret_unit (V3Buffer.ClearBit off)
  | OFlipBit => ret_unit (V3Buffer.FlipBit off)
  | OSetBits data n => ret_unit (V3Buffer.SetBits off data n)
  | OWriteBytes d => ret_unit (V3Buffer.WriteBytes off d)
  | OWriteByte v => ret_unit (V3Buffer.WriteByte off v)
  | OReadBytes n => ret_bytes (V3Buffer.ReadBytes off n)
  | OReadByte => ret_int (V3Buffer.ReadByte off)
  | OWrite t d => ret_unit (WriteT t off d)
  | ORead t n => ret_nums (ReadT t off n)
  end.

Definition do_next (o : opn slice) : prog (rv slice) :=
  match o with
  | OReadBit => ret_int V3Buffer.ReadBitNext
  | OReadBits n => ret_int (V3Buffer.ReadBitsNext n)
  | OSetBit => ret_unit V3Buffer.SetBitNext
  | OClearBit => ret_unit V3Buffer.ClearBitNext
  | OFlipBit => ret_unit V3Buffer.FlipBitNext
  | OSetBits data n => ret_unit (V3Buffer.SetBitsNext data n)
  | OWriteBytes d => ret_unit (V3Buffer.WriteBytesNext d)
  | OWriteByte v => ret_unit (V3Buffer.WriteByteNext v)
  | OReadBytes n => ret_bytes (V3Buffer.ReadBytesNext n)
  | OReadByte => ret_int V3Buffer.ReadByteNext
  | OWrite t d => ret_unit (WriteTNext t d)
  | ORead t n => ret_nums (ReadTNext t n)
  end.

Definition do_call (c : call slice) : prog (rv slice) :=
  match c with
  | At off o => do_at off o
  | Next o => do_next o
  | CClearAllBits => ret_unit V3Buffer.ClearAllBits
  | CSetAllBits => ret_unit V3Buffer.SetAllBits
  | CFlipAllBits => ret_unit V3Buffer.FlipAllBits
  | CSeekBit off r => ret_unit (V3Buffer.SeekBit off r)
  | CSeekByte off r => ret_unit (V3Buffer.SeekByte off r)
  | CAfterBit off => ret_int (V3Buffer.AfterBit off)
  | CAfterByte off => ret_int (V3Buffer.AfterByte off)
  | CAlignBit => ret_unit V3Buffer.AlignBit
  | CAlignByte => ret_unit V3Buffer.AlignByte
  | CTruncateLeft n => ret_unit (V3Buffer.TruncateLeft n)
  | CTruncateRight n => ret_unit (V3Buffer.TruncateRight n)
  | CGrow n => ret_unit (V3Buffer.Grow n)
  | CRefresh => ret_unit V3Buffer.Refresh
  | CReset => ret_unit V3Buffer.Reset
  | CBytes => ret_bytes V3Buffer.Bytes
  | CByteCapacity => ret_int V3Buffer.ByteCapacity
  | CBitCapacity => ret_int V3Buffer.BitCapacity
  | CByteOffset => ret_int V3Buffer.ByteOffset
  | CBitOffset => ret_int V3Buffer.BitOffset
  end.

(** ** Arguments a Go program can pass *)

Definition valid_opn (s : St) (o : opn slice) : Prop :=
  match o with
  | OReadBits n | OReadBytes n | ORead _ n => is_i64 n
  | OSetBits data n => is_u64 data /\ is_i64 n
  | OWriteBytes d => wf_arg s d
  | OWriteByte v => is_byte v
  | OWrite t d => wf_data (tsize t) d
  | _ => True
  end.

Definition valid_call (s : St) (c : call slice) : Prop :=
  match c with
  | At off o => is_i64 off /\ valid_opn s o
  | Next o => valid_opn s o
  | CSeekBit off _ | CSeekByte off _ | CAfterBit (Some off) | CAfterByte (Some off) => is_i64 off
  | CTruncateLeft n | CTruncateRight n | CGrow n => is_i64 n
  | _ => True
  end.

(** Is the operation addressed in bits, and how far does its Next variant move? *)
Definition bit_addressed {B} (o : opn B) : bool :=
  match o with
  | OReadBit | OReadBits _ | OSetBit | OClearBit | OFlipBit | OSetBits _ _ => true
  | _ => false
  end.
Definition advance_of {B} (len : B -> Z) (o : opn B) : Z :=
  match o with
  | OReadBit | OSetBit | OClearBit | OFlipBit | OWriteByte _ | OReadByte => 1
  | OReadBits n | OSetBits _ n | OReadBytes n => n
  | OWriteBytes d => len d
  | OWrite t d => zlen d * tsize t
  | ORead t n => n * tsize t
  end.
