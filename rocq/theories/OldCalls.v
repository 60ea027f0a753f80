(** * OldCalls: the public API of the v2 [Buffer] as data.

    [op2] and [call2] are method names with their arguments; [do2_call] runs the
    transcribed method.  As in Calls.v, [B] is the type of byte strings exchanged
    with the caller. *)
From Coq Require Import ZArith List Bool.
From Verif Require Import GoSem Spec Calls.
From Verif Require V2Buffer V2BufferTyped V2Mini V2MiniTyped.
Import ListNotations.
Open Scope Z_scope.
Open Scope go_scope.

(** The integer formats of v2 (all unsigned) and their v3 names. *)
Inductive uty : Set := NU16LE | NU16BE | NU32LE | NU32BE | NU64LE | NU64BE.
Definition fmt (t : uty) : numty :=
  match t with
  | NU16LE => U16LE | NU16BE => U16BE | NU32LE => U32LE
  | NU32BE => U32BE | NU64LE => U64LE | NU64BE => U64BE
  end.

(** v2/buffer.go:316-556, 582-822 and the public wrappers 1029-1260. *)
Definition WriteU (t : uty) : Z -> list Z -> prog unit :=
  match t with
  | NU16LE => V2BufferTyped.WriteU16LE | NU16BE => V2BufferTyped.WriteU16BE | NU32LE => V2BufferTyped.WriteU32LE | NU32BE => V2BufferTyped.WriteU32BE | NU64LE => V2BufferTyped.WriteU64LE | NU64BE => V2BufferTyped.WriteU64BE
  end.
Definition WriteUNext (t : uty) : list Z -> prog unit :=
  match t with
  | NU16LE => V2BufferTyped.WriteU16LENext | NU16BE => V2BufferTyped.WriteU16BENext | NU32LE => V2BufferTyped.WriteU32LENext | NU32BE => V2BufferTyped.WriteU32BENext | NU64LE => V2BufferTyped.WriteU64LENext | NU64BE => V2BufferTyped.WriteU64BENext
  end.
Definition ReadU (t : uty) : Z -> Z -> prog (list Z) :=
  match t with
  | NU16LE => V2BufferTyped.ReadU16LE | NU16BE => V2BufferTyped.ReadU16BE | NU32LE => V2BufferTyped.ReadU32LE | NU32BE => V2BufferTyped.ReadU32BE | NU64LE => V2BufferTyped.ReadU64LE | NU64BE => V2BufferTyped.ReadU64BE
  end.
Definition ReadUNext (t : uty) : Z -> prog (list Z) :=
  match t with
  | NU16LE => V2BufferTyped.ReadU16LENext | NU16BE => V2BufferTyped.ReadU16BENext | NU32LE => V2BufferTyped.ReadU32LENext | NU32BE => V2BufferTyped.ReadU32BENext | NU64LE => V2BufferTyped.ReadU64LENext | NU64BE => V2BufferTyped.ReadU64BENext
  end.

(** v2/minibuf.go, the same for the MiniBuffer. *)
Definition MiniWriteU (t : uty) : Z -> list Z -> prog unit :=
  match t with
  | NU16LE => V2MiniTyped.WriteU16LE | NU16BE => V2MiniTyped.WriteU16BE | NU32LE => V2MiniTyped.WriteU32LE | NU32BE => V2MiniTyped.WriteU32BE | NU64LE => V2MiniTyped.WriteU64LE | NU64BE => V2MiniTyped.WriteU64BE
  end.
Definition MiniWriteUNext (t : uty) : list Z -> prog unit :=
  match t with
  | NU16LE => V2MiniTyped.WriteU16LENext | NU16BE => V2MiniTyped.WriteU16BENext | NU32LE => V2MiniTyped.WriteU32LENext | NU32BE => V2MiniTyped.WriteU32BENext | NU64LE => V2MiniTyped.WriteU64LENext | NU64BE => V2MiniTyped.WriteU64BENext
  end.
Definition MiniReadU (t : uty) : Z -> Z -> prog unit :=
  match t with
  | NU16LE => V2MiniTyped.ReadU16LE | NU16BE => V2MiniTyped.ReadU16BE | NU32LE => V2MiniTyped.ReadU32LE | NU32BE => V2MiniTyped.ReadU32BE | NU64LE => V2MiniTyped.ReadU64LE | NU64BE => V2MiniTyped.ReadU64BE
  end.
Definition MiniReadUNext (t : uty) : Z -> prog unit :=
  match t with
  | NU16LE => V2MiniTyped.ReadU16LENext | NU16BE => V2MiniTyped.ReadU16BENext | NU32LE => V2MiniTyped.ReadU32LENext | NU32BE => V2MiniTyped.ReadU32BENext | NU64LE => V2MiniTyped.ReadU64LENext | NU64BE => V2MiniTyped.ReadU64BENext
  end.

Inductive op2 (B : Type) : Type :=
| PReadBit | PReadBits (n : Z) | PSetBit (data : Z) | PSetBits (data n : Z) | PFlipBit
| PWriteBytes (d : B) | PWriteByte (v : Z) | PReadBytes (n : Z) | PReadByte
| PWrite (t : uty) (d : list Z) | PRead (t : uty) (n : Z).
Arguments PReadBit {B}. Arguments PReadBits {B} n. Arguments PSetBit {B} data.
Arguments PSetBits {B} data n. Arguments PFlipBit {B}. Arguments PWriteBytes {B} d.
Arguments PWriteByte {B} v. Arguments PReadBytes {B} n. Arguments PReadByte {B}.
Arguments PWrite {B} t d. Arguments PRead {B} t n.

Inductive call2 (B : Type) : Type :=
| At2 (off : Z) (o : op2 B)
| Next2 (o : op2 B)
| KClearAllBits | KSetAllBits | KFlipAllBits
| KSeekBit (off : Z) (relative : bool) | KSeek (off : Z) (relative : bool)
| KAfterBit (off : option Z) | KAfter (off : option Z)
| KAlignBit | KAlignByte
| KGrow (n : Z) | KRefresh | KReset
| KBytes | KCapacity | KBitCapacity | KOffset | KBitOffset.
Arguments At2 {B} off o. Arguments Next2 {B} o. Arguments KClearAllBits {B}.
Arguments KSetAllBits {B}. Arguments KFlipAllBits {B}. Arguments KSeekBit {B} off relative.
Arguments KSeek {B} off relative. Arguments KAfterBit {B} off. Arguments KAfter {B} off.
Arguments KAlignBit {B}. Arguments KAlignByte {B}. Arguments KGrow {B} n. Arguments KRefresh {B}.
Arguments KReset {B}. Arguments KBytes {B}. Arguments KCapacity {B}. Arguments KBitCapacity {B}.
Arguments KOffset {B}. Arguments KBitOffset {B}.

Definition do2_at (off : Z) (o : op2 slice) : prog (rv slice) :=
  match o with
  | PReadBit => ret_int (V2Buffer.ReadBit off)
  | PReadBits n => ret_int (V2Buffer.ReadBits off n)
  | PSetBit data => ret_unit (V2Buffer.SetBit off data)
  | PSetBits data n => ret_unit (V2Buffer.SetBits off data n)
  | PFlipBit => ret_unit (V2Buffer.FlipBit off)
  | PWriteBytes d => ret_unit (V2Buffer.WriteBytes off d)
  | PWriteByte v => ret_unit (V2Buffer.WriteByte off v)
  | PReadBytes n => ret_bytes (V2Buffer.ReadBytes off n)
  | PReadByte => ret_int (V2Buffer.ReadByte off)
  | PWrite t d => ret_unit (WriteU t off d)
  | PRead t n => ret_nums (ReadU t off n)
  end.

Definition do2_next (o : op2 slice) : prog (rv slice) :=
  match o with
  | PReadBit => ret_int V2Buffer.ReadBitNext
  | PReadBits n => ret_int (V2Buffer.ReadBitsNext n)
  | PSetBit data => ret_unit (V2Buffer.SetBitNext data)
  | PSetBits data n => ret_unit (V2Buffer.SetBitsNext data n)
  | PFlipBit => ret_unit V2Buffer.FlipBitNext
  | PWriteBytes d => ret_unit (V2Buffer.WriteBytesNext d)
  | PWriteByte v => ret_unit (V2Buffer.WriteByteNext v)
  | PReadBytes n => ret_bytes (V2Buffer.ReadBytesNext n)
  | PReadByte => ret_int V2Buffer.ReadByteNext
  | PWrite t d => ret_unit (WriteUNext t d)
  | PRead t n => ret_nums (ReadUNext t n)
  end.

(** [pol] is the runtime's growth policy for [append] (used by Grow only). *)
Definition do2_call (pol : Z -> Z -> Z) (c : call2 slice) : prog (rv slice) :=
  match c with
  | At2 off o => do2_at off o
  | Next2 o => do2_next o
  | KClearAllBits => ret_unit V2Buffer.ClearAllBits
  | KSetAllBits => ret_unit V2Buffer.SetAllBits
  | KFlipAllBits => ret_unit V2Buffer.FlipAllBits
  | KSeekBit off r => ret_unit (V2Buffer.SeekBit off r)
  | KSeek off r => ret_unit (V2Buffer.Seek off r)
  | KAfterBit off => ret_int (V2Buffer.AfterBit off)
  | KAfter off => ret_int (V2Buffer.After off)
  | KAlignBit => ret_unit V2Buffer.AlignBit
  | KAlignByte => ret_unit V2Buffer.AlignByte
  | KGrow n => ret_unit (V2Buffer.Grow pol n)
  | KRefresh => ret_unit V2Buffer.Refresh
  | KReset => ret_unit V2Buffer.Reset
  | KBytes => ret_bytes V2Buffer.Bytes
  | KCapacity => ret_int V2Buffer.Capacity
  | KBitCapacity => ret_int V2Buffer.BitCapacity
  | KOffset => ret_int V2Buffer.Offset
  | KBitOffset => ret_int V2Buffer.BitOffset
  end.

(** The v3 operation of the same meaning, if there is one. *)
Definition op3 {B} (o : op2 B) : option (opn B) :=
  match o with
  | PReadBit => Some OReadBit
  | PReadBits n => Some (OReadBits n)
  | PSetBit data => if data =? 0 then Some OClearBit else if data =? 1 then Some OSetBit else None
  | PSetBits data n => Some (OSetBits data n)
  | PFlipBit => Some OFlipBit
  | PWriteBytes d => Some (OWriteBytes d)
  | PWriteByte v => Some (OWriteByte v)
  | PReadBytes n => Some (OReadBytes n)
  | PReadByte => Some OReadByte
  | PWrite t d => Some (OWrite (fmt t) d)
  | PRead t n => Some (ORead (fmt t) n)
  end.

(** [None] for SetBit with an invalid bit, and for Grow and Reset, which differ. *)
Definition call3 {B} (c : call2 B) : option (call B) :=
  match c with
  | At2 off o => option_map (At off) (op3 o)
  | Next2 o => option_map Next (op3 o)
  | KClearAllBits => Some CClearAllBits
  | KSetAllBits => Some CSetAllBits
  | KFlipAllBits => Some CFlipAllBits
  | KSeekBit off r => Some (CSeekBit off r)
  | KSeek off r => Some (CSeekByte off r)
  | KAfterBit off => Some (CAfterBit off)
  | KAfter off => Some (CAfterByte off)
  | KAlignBit => Some CAlignBit
  | KAlignByte => Some CAlignByte
  | KGrow _ | KReset => None
  | KRefresh => Some CRefresh
  | KBytes => Some CBytes
  | KCapacity => Some CByteCapacity
  | KBitCapacity => Some CBitCapacity
  | KOffset => Some CByteOffset
  | KBitOffset => Some CBitOffset
  end.

(** ** Arguments a Go program can pass *)
Definition valid_op2 (s : St) (o : op2 slice) : Prop :=
  match o with
  | PReadBits n | PReadBytes n | PRead _ n => is_i64 n
  | PSetBit data => is_byte data
  | PSetBits data n => is_u64 data /\ is_i64 n
  | PWriteBytes d => wf_arg s d
  | PWriteByte v => is_byte v
  | PWrite t d => wf_data (tsize (fmt t)) d
  | _ => True
  end.
Definition valid_call2 (s : St) (c : call2 slice) : Prop :=
  match c with
  | At2 off o => is_i64 off /\ valid_op2 s o
  | Next2 o => valid_op2 s o
  | KSeekBit off _ | KSeek off _ | KAfterBit (Some off) | KAfter (Some off) => is_i64 off
  | KGrow n => is_i64 n
  | _ => True
  end.

(** ** Vocabulary of the comparison with v3 *)

(** How far the destination [off] of a copy starts behind its source, in the same
    memory: 0 when source and destination are unrelated or the source is ahead. *)
Definition lag (s : St) (off : Z) (d : slice) : Z :=
  if Nat.eqb (s_blk d) (s_blk (b_buf (bb s))) then Z.max 0 (s_off (b_buf (bb s)) + off - s_off d) else 0.

(** A copy that goes byte by byte, front to back, is exact when the source does
    not start less than its own length before the destination. *)
Definition clean (s : St) (off : Z) (d : slice) : Prop := lag s off d = 0 \/ s_len d <= lag s off d.

(** The bytes such a copy stores: the first [k] bytes of the source, repeated. *)
Definition smear (k : Z) (src : list Z) : list Z :=
  map (fun j => byte_at src (if 0 <? k then Z.of_nat j mod k else Z.of_nat j)) (seq 0 (length src)).

(** WriteBytes calls for which v2 and v3 are meant to agree. *)
Definition plain_op (s : St) (off : Z) (o : op2 slice) : Prop :=
  match o with PWriteBytes d => 1 <= s_len d /\ clean s off d | _ => True end.
Definition plain_call (s : St) (c : call2 slice) : Prop :=
  match c with
  | At2 off o => plain_op s off o
  | Next2 o => plain_op s (b_off (bb s)) o
  | _ => True
  end.

(** The methods that hold the mutex without [defer]: Grow and every write of bytes
    or integers. *)
Definition writes_op (o : op2 slice) : bool :=
  match o with PWriteBytes _ | PWriteByte _ | PWrite _ _ => true | _ => false end.
Definition undeferred (c : call2 slice) : bool :=
  match c with At2 _ o | Next2 o => writes_op o | KGrow _ => true | _ => false end.

(** The methods that take the mutex at all. *)
Definition locks (c : call2 slice) : bool :=
  match c with
  | KAfterBit _ | KAfter _ | KBytes | KCapacity | KBitCapacity | KOffset | KBitOffset => false
  | _ => true
  end.
