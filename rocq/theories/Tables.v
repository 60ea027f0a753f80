(** * Tables: every function of the Go files with its model.

    A row says: the call [name(args x)] of the Go code is [model x], and returns
    [res v] where the model returns [v].  Written by tools/gen_tables.py; the
    rows are in the order of the Go file. *)
From Coq Require Import ZArith List Bool String.
From Verif Require Import GoSem GoEval Front.
From Verif Require Spec V3Buffer V3BufferTyped V3Mini V3MiniTyped V2Buffer V2BufferTyped V2Mini V2MiniTyped V1Buffer V1Mini.
Import ListNotations.
Open Scope Z_scope.
Open Scope string_scope.

Record entry : Type := Entry {
  e_dom : Type; e_ans : Type;
  e_name : string;
  e_args : e_dom -> list val;
  e_res : e_ans -> val;
  e_ok : e_dom -> Prop;
  e_model : e_dom -> prog e_ans }.
(** A row without condition on the arguments. *)
Definition row {X A : Type} (name : string) (args : X -> list val) (res : A -> val) (model : X -> prog A) : entry :=
  Entry X A name args res (fun _ => True) model.
(** [NewBuffer] and [NewMiniBuffer]: fewer than 2^63 slices. *)
Definition row_new (name : string) (args : list slice -> list val) (model : list slice -> prog unit) : entry :=
  Entry (list slice) unit name args self_ (fun l => is_i64 (zlen l)) model.

Section Tables.
Variable pol : Z -> Z -> Z.

(** v3/buffer.generated.go *)
Definition v3_buffer_table : list entry := [
  row_new "NewBuffer" (fun slices => [VSlices slices]) (fun slices => (V3Buffer.NewBuffer pol slices));
  row (X := Z) "ReadBit" (fun off : Z => [VInt I64 off]) (VInt U8) (fun off : Z => (V3Buffer.ReadBit off));
  row (X := unit) "ReadBitNext" (fun _ : unit => []) (VInt U8) (fun _ : unit => V3Buffer.ReadBitNext);
  row (X := Z * Z) "ReadBits" (fun '(off, n) => [VInt I64 off; VInt I64 n]) (VInt U64) (fun '(off, n) => (V3Buffer.ReadBits off n));
  row (X := Z) "ReadBitsNext" (fun n : Z => [VInt I64 n]) (VInt U64) (fun n : Z => (V3Buffer.ReadBitsNext n));
  row (X := Z) "SetBit" (fun off : Z => [VInt I64 off]) unit_ (fun off : Z => (V3Buffer.SetBit off));
  row (X := unit) "SetBitNext" (fun _ : unit => []) unit_ (fun _ : unit => V3Buffer.SetBitNext);
  row (X := Z) "ClearBit" (fun off : Z => [VInt I64 off]) unit_ (fun off : Z => (V3Buffer.ClearBit off));
  row (X := unit) "ClearBitNext" (fun _ : unit => []) unit_ (fun _ : unit => V3Buffer.ClearBitNext);
  row (X := Z * Z * Z) "SetBits" (fun '(off, data, n) => [VInt I64 off; VInt U64 data; VInt I64 n]) unit_ (fun '(off, data, n) => (V3Buffer.SetBits off data n));
  row (X := Z * Z) "SetBitsNext" (fun '(data, n) => [VInt U64 data; VInt I64 n]) unit_ (fun '(data, n) => (V3Buffer.SetBitsNext data n));
  row (X := Z) "FlipBit" (fun off : Z => [VInt I64 off]) unit_ (fun off : Z => (V3Buffer.FlipBit off));
  row (X := unit) "FlipBitNext" (fun _ : unit => []) unit_ (fun _ : unit => V3Buffer.FlipBitNext);
  row (X := unit) "ClearAllBits" (fun _ : unit => []) unit_ (fun _ : unit => V3Buffer.ClearAllBits);
  row (X := unit) "SetAllBits" (fun _ : unit => []) unit_ (fun _ : unit => V3Buffer.SetAllBits);
  row (X := unit) "FlipAllBits" (fun _ : unit => []) unit_ (fun _ : unit => V3Buffer.FlipAllBits);
  row (X := Z * bool) "SeekBit" (fun '(off, r) => [VInt I64 off; VBool r]) unit_ (fun '(off, r) => (V3Buffer.SeekBit off r));
  row (X := list Z) "AfterBit" (fun off : list Z => [VInts I64 off]) (VInt I64) (fun off : list Z => (V3Buffer.AfterBit (hd_error off)));
  row (X := unit) "AlignBit" (fun _ : unit => []) unit_ (fun _ : unit => V3Buffer.AlignBit);
  row (X := Z * slice) "WriteBytes" (fun '(off, data) => [VInt I64 off; VBytes data]) unit_ (fun '(off, data) => (V3Buffer.WriteBytes off data));
  row (X := slice) "WriteBytesNext" (fun data : slice => [VBytes data]) unit_ (fun data : slice => (V3Buffer.WriteBytesNext data));
  row (X := Z * Z) "WriteByte" (fun '(off, data) => [VInt I64 off; VInt U8 data]) unit_ (fun '(off, data) => (V3Buffer.WriteByte off data));
  row (X := Z) "WriteByteNext" (fun data : Z => [VInt U8 data]) unit_ (fun data : Z => (V3Buffer.WriteByteNext data));
  row (X := Z * list Z) "WriteU16LE" (fun '(off, data) => [VInt I64 off; VInts U16 data]) unit_ (fun '(off, data) => (V3BufferTyped.WriteU16LE off data));
  row (X := list Z) "WriteU16LENext" (fun data : list Z => [VInts U16 data]) unit_ (fun data : list Z => (V3BufferTyped.WriteU16LENext data));
  row (X := Z * list Z) "WriteU16BE" (fun '(off, data) => [VInt I64 off; VInts U16 data]) unit_ (fun '(off, data) => (V3BufferTyped.WriteU16BE off data));
  row (X := list Z) "WriteU16BENext" (fun data : list Z => [VInts U16 data]) unit_ (fun data : list Z => (V3BufferTyped.WriteU16BENext data));
  row (X := Z * list Z) "WriteU32LE" (fun '(off, data) => [VInt I64 off; VInts U32 data]) unit_ (fun '(off, data) => (V3BufferTyped.WriteU32LE off data));
  row (X := list Z) "WriteU32LENext" (fun data : list Z => [VInts U32 data]) unit_ (fun data : list Z => (V3BufferTyped.WriteU32LENext data));
  row (X := Z * list Z) "WriteU32BE" (fun '(off, data) => [VInt I64 off; VInts U32 data]) unit_ (fun '(off, data) => (V3BufferTyped.WriteU32BE off data));
  row (X := list Z) "WriteU32BENext" (fun data : list Z => [VInts U32 data]) unit_ (fun data : list Z => (V3BufferTyped.WriteU32BENext data));
  row (X := Z * list Z) "WriteU64LE" (fun '(off, data) => [VInt I64 off; VInts U64 data]) unit_ (fun '(off, data) => (V3BufferTyped.WriteU64LE off data));
  row (X := list Z) "WriteU64LENext" (fun data : list Z => [VInts U64 data]) unit_ (fun data : list Z => (V3BufferTyped.WriteU64LENext data));
  row (X := Z * list Z) "WriteU64BE" (fun '(off, data) => [VInt I64 off; VInts U64 data]) unit_ (fun '(off, data) => (V3BufferTyped.WriteU64BE off data));
  row (X := list Z) "WriteU64BENext" (fun data : list Z => [VInts U64 data]) unit_ (fun data : list Z => (V3BufferTyped.WriteU64BENext data));
  row (X := Z * list Z) "WriteI16LE" (fun '(off, data) => [VInt I64 off; VInts I16 data]) unit_ (fun '(off, data) => (V3BufferTyped.WriteI16LE off data));
  row (X := list Z) "WriteI16LENext" (fun data : list Z => [VInts I16 data]) unit_ (fun data : list Z => (V3BufferTyped.WriteI16LENext data));
  row (X := Z * list Z) "WriteI16BE" (fun '(off, data) => [VInt I64 off; VInts I16 data]) unit_ (fun '(off, data) => (V3BufferTyped.WriteI16BE off data));
  row (X := list Z) "WriteI16BENext" (fun data : list Z => [VInts I16 data]) unit_ (fun data : list Z => (V3BufferTyped.WriteI16BENext data));
  row (X := Z * list Z) "WriteI32LE" (fun '(off, data) => [VInt I64 off; VInts I32 data]) unit_ (fun '(off, data) => (V3BufferTyped.WriteI32LE off data));
  row (X := list Z) "WriteI32LENext" (fun data : list Z => [VInts I32 data]) unit_ (fun data : list Z => (V3BufferTyped.WriteI32LENext data));
  row (X := Z * list Z) "WriteI32BE" (fun '(off, data) => [VInt I64 off; VInts I32 data]) unit_ (fun '(off, data) => (V3BufferTyped.WriteI32BE off data));
  row (X := list Z) "WriteI32BENext" (fun data : list Z => [VInts I32 data]) unit_ (fun data : list Z => (V3BufferTyped.WriteI32BENext data));
  row (X := Z * list Z) "WriteI64LE" (fun '(off, data) => [VInt I64 off; VInts I64 data]) unit_ (fun '(off, data) => (V3BufferTyped.WriteI64LE off data));
  row (X := list Z) "WriteI64LENext" (fun data : list Z => [VInts I64 data]) unit_ (fun data : list Z => (V3BufferTyped.WriteI64LENext data));
  row (X := Z * list Z) "WriteI64BE" (fun '(off, data) => [VInt I64 off; VInts I64 data]) unit_ (fun '(off, data) => (V3BufferTyped.WriteI64BE off data));
  row (X := list Z) "WriteI64BENext" (fun data : list Z => [VInts I64 data]) unit_ (fun data : list Z => (V3BufferTyped.WriteI64BENext data));
  row (X := Z * list Z) "WriteF32LE" (fun '(off, data) => [VInt I64 off; VInts F32 data]) unit_ (fun '(off, data) => (V3BufferTyped.WriteF32LE off data));
  row (X := list Z) "WriteF32LENext" (fun data : list Z => [VInts F32 data]) unit_ (fun data : list Z => (V3BufferTyped.WriteF32LENext data));
  row (X := Z * list Z) "WriteF32BE" (fun '(off, data) => [VInt I64 off; VInts F32 data]) unit_ (fun '(off, data) => (V3BufferTyped.WriteF32BE off data));
  row (X := list Z) "WriteF32BENext" (fun data : list Z => [VInts F32 data]) unit_ (fun data : list Z => (V3BufferTyped.WriteF32BENext data));
  row (X := Z * list Z) "WriteF64LE" (fun '(off, data) => [VInt I64 off; VInts F64 data]) unit_ (fun '(off, data) => (V3BufferTyped.WriteF64LE off data));
  row (X := list Z) "WriteF64LENext" (fun data : list Z => [VInts F64 data]) unit_ (fun data : list Z => (V3BufferTyped.WriteF64LENext data));
  row (X := Z * list Z) "WriteF64BE" (fun '(off, data) => [VInt I64 off; VInts F64 data]) unit_ (fun '(off, data) => (V3BufferTyped.WriteF64BE off data));
  row (X := list Z) "WriteF64BENext" (fun data : list Z => [VInts F64 data]) unit_ (fun data : list Z => (V3BufferTyped.WriteF64BENext data));
  row (X := Z * Z) "ReadBytes" (fun '(off, n) => [VInt I64 off; VInt I64 n]) VBytes (fun '(off, n) => (V3Buffer.ReadBytes off n));
  row (X := Z) "ReadBytesNext" (fun n : Z => [VInt I64 n]) VBytes (fun n : Z => (V3Buffer.ReadBytesNext n));
  row (X := Z) "ReadByte" (fun off : Z => [VInt I64 off]) (VInt U8) (fun off : Z => (V3Buffer.ReadByte off));
  row (X := unit) "ReadByteNext" (fun _ : unit => []) (VInt U8) (fun _ : unit => V3Buffer.ReadByteNext);
  row (X := Z * Z) "ReadU16LE" (fun '(off, n) => [VInt I64 off; VInt I64 n]) (VInts U16) (fun '(off, n) => (V3BufferTyped.ReadU16LE off n));
  row (X := Z) "ReadU16LENext" (fun n : Z => [VInt I64 n]) (VInts U16) (fun n : Z => (V3BufferTyped.ReadU16LENext n));
  row (X := Z * Z) "ReadU16BE" (fun '(off, n) => [VInt I64 off; VInt I64 n]) (VInts U16) (fun '(off, n) => (V3BufferTyped.ReadU16BE off n));
  row (X := Z) "ReadU16BENext" (fun n : Z => [VInt I64 n]) (VInts U16) (fun n : Z => (V3BufferTyped.ReadU16BENext n));
  row (X := Z * Z) "ReadU32LE" (fun '(off, n) => [VInt I64 off; VInt I64 n]) (VInts U32) (fun '(off, n) => (V3BufferTyped.ReadU32LE off n));
  row (X := Z) "ReadU32LENext" (fun n : Z => [VInt I64 n]) (VInts U32) (fun n : Z => (V3BufferTyped.ReadU32LENext n));
  row (X := Z * Z) "ReadU32BE" (fun '(off, n) => [VInt I64 off; VInt I64 n]) (VInts U32) (fun '(off, n) => (V3BufferTyped.ReadU32BE off n));
  row (X := Z) "ReadU32BENext" (fun n : Z => [VInt I64 n]) (VInts U32) (fun n : Z => (V3BufferTyped.ReadU32BENext n));
  row (X := Z * Z) "ReadU64LE" (fun '(off, n) => [VInt I64 off; VInt I64 n]) (VInts U64) (fun '(off, n) => (V3BufferTyped.ReadU64LE off n));
  row (X := Z) "ReadU64LENext" (fun n : Z => [VInt I64 n]) (VInts U64) (fun n : Z => (V3BufferTyped.ReadU64LENext n));
  row (X := Z * Z) "ReadU64BE" (fun '(off, n) => [VInt I64 off; VInt I64 n]) (VInts U64) (fun '(off, n) => (V3BufferTyped.ReadU64BE off n));
  row (X := Z) "ReadU64BENext" (fun n : Z => [VInt I64 n]) (VInts U64) (fun n : Z => (V3BufferTyped.ReadU64BENext n));
  row (X := Z * Z) "ReadI16LE" (fun '(off, n) => [VInt I64 off; VInt I64 n]) (VInts I16) (fun '(off, n) => (V3BufferTyped.ReadI16LE off n));
  row (X := Z) "ReadI16LENext" (fun n : Z => [VInt I64 n]) (VInts I16) (fun n : Z => (V3BufferTyped.ReadI16LENext n));
  row (X := Z * Z) "ReadI16BE" (fun '(off, n) => [VInt I64 off; VInt I64 n]) (VInts I16) (fun '(off, n) => (V3BufferTyped.ReadI16BE off n));
  row (X := Z) "ReadI16BENext" (fun n : Z => [VInt I64 n]) (VInts I16) (fun n : Z => (V3BufferTyped.ReadI16BENext n));
  row (X := Z * Z) "ReadI32LE" (fun '(off, n) => [VInt I64 off; VInt I64 n]) (VInts I32) (fun '(off, n) => (V3BufferTyped.ReadI32LE off n));
  row (X := Z) "ReadI32LENext" (fun n : Z => [VInt I64 n]) (VInts I32) (fun n : Z => (V3BufferTyped.ReadI32LENext n));
  row (X := Z * Z) "ReadI32BE" (fun '(off, n) => [VInt I64 off; VInt I64 n]) (VInts I32) (fun '(off, n) => (V3BufferTyped.ReadI32BE off n));
  row (X := Z) "ReadI32BENext" (fun n : Z => [VInt I64 n]) (VInts I32) (fun n : Z => (V3BufferTyped.ReadI32BENext n));
  row (X := Z * Z) "ReadI64LE" (fun '(off, n) => [VInt I64 off; VInt I64 n]) (VInts I64) (fun '(off, n) => (V3BufferTyped.ReadI64LE off n));
  row (X := Z) "ReadI64LENext" (fun n : Z => [VInt I64 n]) (VInts I64) (fun n : Z => (V3BufferTyped.ReadI64LENext n));
  row (X := Z * Z) "ReadI64BE" (fun '(off, n) => [VInt I64 off; VInt I64 n]) (VInts I64) (fun '(off, n) => (V3BufferTyped.ReadI64BE off n));
  row (X := Z) "ReadI64BENext" (fun n : Z => [VInt I64 n]) (VInts I64) (fun n : Z => (V3BufferTyped.ReadI64BENext n));
  row (X := Z * Z) "ReadF32LE" (fun '(off, n) => [VInt I64 off; VInt I64 n]) (VInts F32) (fun '(off, n) => (V3BufferTyped.ReadF32LE off n));
  row (X := Z) "ReadF32LENext" (fun n : Z => [VInt I64 n]) (VInts F32) (fun n : Z => (V3BufferTyped.ReadF32LENext n));
  row (X := Z * Z) "ReadF32BE" (fun '(off, n) => [VInt I64 off; VInt I64 n]) (VInts F32) (fun '(off, n) => (V3BufferTyped.ReadF32BE off n));
  row (X := Z) "ReadF32BENext" (fun n : Z => [VInt I64 n]) (VInts F32) (fun n : Z => (V3BufferTyped.ReadF32BENext n));
  row (X := Z * Z) "ReadF64LE" (fun '(off, n) => [VInt I64 off; VInt I64 n]) (VInts F64) (fun '(off, n) => (V3BufferTyped.ReadF64LE off n));
  row (X := Z) "ReadF64LENext" (fun n : Z => [VInt I64 n]) (VInts F64) (fun n : Z => (V3BufferTyped.ReadF64LENext n));
  row (X := Z * Z) "ReadF64BE" (fun '(off, n) => [VInt I64 off; VInt I64 n]) (VInts F64) (fun '(off, n) => (V3BufferTyped.ReadF64BE off n));
  row (X := Z) "ReadF64BENext" (fun n : Z => [VInt I64 n]) (VInts F64) (fun n : Z => (V3BufferTyped.ReadF64BENext n));
  row (X := Z * bool) "SeekByte" (fun '(off, r) => [VInt I64 off; VBool r]) unit_ (fun '(off, r) => (V3Buffer.SeekByte off r));
  row (X := list Z) "AfterByte" (fun off : list Z => [VInts I64 off]) (VInt I64) (fun off : list Z => (V3Buffer.AfterByte (hd_error off)));
  row (X := unit) "AlignByte" (fun _ : unit => []) unit_ (fun _ : unit => V3Buffer.AlignByte);
  row (X := Z) "TruncateLeft" (fun n : Z => [VInt I64 n]) unit_ (fun n : Z => (V3Buffer.TruncateLeft n));
  row (X := Z) "TruncateRight" (fun n : Z => [VInt I64 n]) unit_ (fun n : Z => (V3Buffer.TruncateRight n));
  row (X := Z) "Grow" (fun n : Z => [VInt I64 n]) unit_ (fun n : Z => (V3Buffer.Grow n));
  row (X := unit) "Refresh" (fun _ : unit => []) unit_ (fun _ : unit => V3Buffer.Refresh);
  row (X := unit) "Reset" (fun _ : unit => []) unit_ (fun _ : unit => V3Buffer.Reset);
  row (X := unit) "Bytes" (fun _ : unit => []) VBytes (fun _ : unit => V3Buffer.Bytes);
  row (X := unit) "ByteCapacity" (fun _ : unit => []) (VInt I64) (fun _ : unit => V3Buffer.ByteCapacity);
  row (X := unit) "BitCapacity" (fun _ : unit => []) (VInt I64) (fun _ : unit => V3Buffer.BitCapacity);
  row (X := unit) "ByteOffset" (fun _ : unit => []) (VInt I64) (fun _ : unit => V3Buffer.ByteOffset);
  row (X := unit) "BitOffset" (fun _ : unit => []) (VInt I64) (fun _ : unit => V3Buffer.BitOffset)].
(** v3/minibuf.generated.go *)
Definition v3_minibuf_table : list entry := [
  row_new "NewMiniBuffer" (fun slices => [VCell; VSlices slices]) (fun slices => (V3Mini.NewMiniBuffer pol slices));
  row (X := Z) "ReadBit" (fun off : Z => [VCell; VInt I64 off]) (VInt U8) (fun off : Z => (V3Mini.ReadBit off));
  row (X := unit) "ReadBitNext" (fun _ : unit => [VCell]) (VInt U8) (fun _ : unit => V3Mini.ReadBitNext);
  row (X := Z * Z) "ReadBits" (fun '(off, n) => [VOutWord U64; VInt I64 off; VInt I64 n]) unit_ (fun '(off, n) => (V3Mini.ReadBits off n));
  row (X := Z) "ReadBitsNext" (fun n : Z => [VOutWord U64; VInt I64 n]) unit_ (fun n : Z => (V3Mini.ReadBitsNext n));
  row (X := Z) "SetBit" (fun off : Z => [VInt I64 off]) unit_ (fun off : Z => (V3Mini.SetBit off));
  row (X := unit) "SetBitNext" (fun _ : unit => []) unit_ (fun _ : unit => V3Mini.SetBitNext);
  row (X := Z) "ClearBit" (fun off : Z => [VInt I64 off]) unit_ (fun off : Z => (V3Mini.ClearBit off));
  row (X := unit) "ClearBitNext" (fun _ : unit => []) unit_ (fun _ : unit => V3Mini.ClearBitNext);
  row (X := Z * Z * Z) "SetBits" (fun '(off, data, n) => [VInt I64 off; VInt U64 data; VInt I64 n]) unit_ (fun '(off, data, n) => (V3Mini.SetBits off data n));
  row (X := Z * Z) "SetBitsNext" (fun '(data, n) => [VInt U64 data; VInt I64 n]) unit_ (fun '(data, n) => (V3Mini.SetBitsNext data n));
  row (X := Z) "FlipBit" (fun off : Z => [VInt I64 off]) unit_ (fun off : Z => (V3Mini.FlipBit off));
  row (X := unit) "FlipBitNext" (fun _ : unit => []) unit_ (fun _ : unit => V3Mini.FlipBitNext);
  row (X := unit) "ClearAllBits" (fun _ : unit => []) unit_ (fun _ : unit => V3Mini.ClearAllBits);
  row (X := unit) "SetAllBits" (fun _ : unit => []) unit_ (fun _ : unit => V3Mini.SetAllBits);
  row (X := unit) "FlipAllBits" (fun _ : unit => []) unit_ (fun _ : unit => V3Mini.FlipAllBits);
  row (X := Z * bool) "SeekBit" (fun '(off, r) => [VInt I64 off; VBool r]) unit_ (fun '(off, r) => (V3Mini.SeekBit off r));
  row (X := list Z) "AfterBit" (fun off : list Z => [VCell; VInts I64 off]) (VInt I64) (fun off : list Z => (V3Mini.AfterBit (hd_error off)));
  row (X := unit) "AlignBit" (fun _ : unit => []) unit_ (fun _ : unit => V3Mini.AlignBit);
  row (X := Z * slice) "WriteBytes" (fun '(off, data) => [VInt I64 off; VBytes data]) unit_ (fun '(off, data) => (V3Mini.WriteBytes off data));
  row (X := slice) "WriteBytesNext" (fun data : slice => [VBytes data]) unit_ (fun data : slice => (V3Mini.WriteBytesNext data));
  row (X := Z * list Z) "WriteU16LE" (fun '(off, data) => [VInt I64 off; VInts U16 data]) unit_ (fun '(off, data) => (V3MiniTyped.WriteU16LE off data));
  row (X := list Z) "WriteU16LENext" (fun data : list Z => [VInts U16 data]) unit_ (fun data : list Z => (V3MiniTyped.WriteU16LENext data));
  row (X := Z * list Z) "WriteU16BE" (fun '(off, data) => [VInt I64 off; VInts U16 data]) unit_ (fun '(off, data) => (V3MiniTyped.WriteU16BE off data));
  row (X := list Z) "WriteU16BENext" (fun data : list Z => [VInts U16 data]) unit_ (fun data : list Z => (V3MiniTyped.WriteU16BENext data));
  row (X := Z * list Z) "WriteU32LE" (fun '(off, data) => [VInt I64 off; VInts U32 data]) unit_ (fun '(off, data) => (V3MiniTyped.WriteU32LE off data));
  row (X := list Z) "WriteU32LENext" (fun data : list Z => [VInts U32 data]) unit_ (fun data : list Z => (V3MiniTyped.WriteU32LENext data));
  row (X := Z * list Z) "WriteU32BE" (fun '(off, data) => [VInt I64 off; VInts U32 data]) unit_ (fun '(off, data) => (V3MiniTyped.WriteU32BE off data));
  row (X := list Z) "WriteU32BENext" (fun data : list Z => [VInts U32 data]) unit_ (fun data : list Z => (V3MiniTyped.WriteU32BENext data));
  row (X := Z * list Z) "WriteU64LE" (fun '(off, data) => [VInt I64 off; VInts U64 data]) unit_ (fun '(off, data) => (V3MiniTyped.WriteU64LE off data));
  row (X := list Z) "WriteU64LENext" (fun data : list Z => [VInts U64 data]) unit_ (fun data : list Z => (V3MiniTyped.WriteU64LENext data));
  row (X := Z * list Z) "WriteU64BE" (fun '(off, data) => [VInt I64 off; VInts U64 data]) unit_ (fun '(off, data) => (V3MiniTyped.WriteU64BE off data));
  row (X := list Z) "WriteU64BENext" (fun data : list Z => [VInts U64 data]) unit_ (fun data : list Z => (V3MiniTyped.WriteU64BENext data));
  row (X := Z * list Z) "WriteI16LE" (fun '(off, data) => [VInt I64 off; VInts I16 data]) unit_ (fun '(off, data) => (V3MiniTyped.WriteI16LE off data));
  row (X := list Z) "WriteI16LENext" (fun data : list Z => [VInts I16 data]) unit_ (fun data : list Z => (V3MiniTyped.WriteI16LENext data));
  row (X := Z * list Z) "WriteI16BE" (fun '(off, data) => [VInt I64 off; VInts I16 data]) unit_ (fun '(off, data) => (V3MiniTyped.WriteI16BE off data));
  row (X := list Z) "WriteI16BENext" (fun data : list Z => [VInts I16 data]) unit_ (fun data : list Z => (V3MiniTyped.WriteI16BENext data));
  row (X := Z * list Z) "WriteI32LE" (fun '(off, data) => [VInt I64 off; VInts I32 data]) unit_ (fun '(off, data) => (V3MiniTyped.WriteI32LE off data));
  row (X := list Z) "WriteI32LENext" (fun data : list Z => [VInts I32 data]) unit_ (fun data : list Z => (V3MiniTyped.WriteI32LENext data));
  row (X := Z * list Z) "WriteI32BE" (fun '(off, data) => [VInt I64 off; VInts I32 data]) unit_ (fun '(off, data) => (V3MiniTyped.WriteI32BE off data));
  row (X := list Z) "WriteI32BENext" (fun data : list Z => [VInts I32 data]) unit_ (fun data : list Z => (V3MiniTyped.WriteI32BENext data));
  row (X := Z * list Z) "WriteI64LE" (fun '(off, data) => [VInt I64 off; VInts I64 data]) unit_ (fun '(off, data) => (V3MiniTyped.WriteI64LE off data));
  row (X := list Z) "WriteI64LENext" (fun data : list Z => [VInts I64 data]) unit_ (fun data : list Z => (V3MiniTyped.WriteI64LENext data));
  row (X := Z * list Z) "WriteI64BE" (fun '(off, data) => [VInt I64 off; VInts I64 data]) unit_ (fun '(off, data) => (V3MiniTyped.WriteI64BE off data));
  row (X := list Z) "WriteI64BENext" (fun data : list Z => [VInts I64 data]) unit_ (fun data : list Z => (V3MiniTyped.WriteI64BENext data));
  row (X := Z * list Z) "WriteF32LE" (fun '(off, data) => [VInt I64 off; VInts F32 data]) unit_ (fun '(off, data) => (V3MiniTyped.WriteF32LE off data));
  row (X := list Z) "WriteF32LENext" (fun data : list Z => [VInts F32 data]) unit_ (fun data : list Z => (V3MiniTyped.WriteF32LENext data));
  row (X := Z * list Z) "WriteF32BE" (fun '(off, data) => [VInt I64 off; VInts F32 data]) unit_ (fun '(off, data) => (V3MiniTyped.WriteF32BE off data));
  row (X := list Z) "WriteF32BENext" (fun data : list Z => [VInts F32 data]) unit_ (fun data : list Z => (V3MiniTyped.WriteF32BENext data));
  row (X := Z * list Z) "WriteF64LE" (fun '(off, data) => [VInt I64 off; VInts F64 data]) unit_ (fun '(off, data) => (V3MiniTyped.WriteF64LE off data));
  row (X := list Z) "WriteF64LENext" (fun data : list Z => [VInts F64 data]) unit_ (fun data : list Z => (V3MiniTyped.WriteF64LENext data));
  row (X := Z * list Z) "WriteF64BE" (fun '(off, data) => [VInt I64 off; VInts F64 data]) unit_ (fun '(off, data) => (V3MiniTyped.WriteF64BE off data));
  row (X := list Z) "WriteF64BENext" (fun data : list Z => [VInts F64 data]) unit_ (fun data : list Z => (V3MiniTyped.WriteF64BENext data));
  row (X := Z * Z) "ReadBytes" (fun '(off, n) => [VCell; VInt I64 off; VInt I64 n]) VBytes (fun '(off, n) => (V3Mini.ReadBytes off n));
  row (X := Z) "ReadBytesNext" (fun n : Z => [VCell; VInt I64 n]) VBytes (fun n : Z => (V3Mini.ReadBytesNext n));
  row (X := Z * Z) "ReadU16LE" (fun '(off, n) => [VOutSlice U16; VInt I64 off; VInt I64 n]) unit_ (fun '(off, n) => (V3MiniTyped.ReadU16LE off n));
  row (X := Z) "ReadU16LENext" (fun n : Z => [VOutSlice U16; VInt I64 n]) unit_ (fun n : Z => (V3MiniTyped.ReadU16LENext n));
  row (X := Z * Z) "ReadU16BE" (fun '(off, n) => [VOutSlice U16; VInt I64 off; VInt I64 n]) unit_ (fun '(off, n) => (V3MiniTyped.ReadU16BE off n));
  row (X := Z) "ReadU16BENext" (fun n : Z => [VOutSlice U16; VInt I64 n]) unit_ (fun n : Z => (V3MiniTyped.ReadU16BENext n));
  row (X := Z * Z) "ReadU32LE" (fun '(off, n) => [VOutSlice U32; VInt I64 off; VInt I64 n]) unit_ (fun '(off, n) => (V3MiniTyped.ReadU32LE off n));
  row (X := Z) "ReadU32LENext" (fun n : Z => [VOutSlice U32; VInt I64 n]) unit_ (fun n : Z => (V3MiniTyped.ReadU32LENext n));
  row (X := Z * Z) "ReadU32BE" (fun '(off, n) => [VOutSlice U32; VInt I64 off; VInt I64 n]) unit_ (fun '(off, n) => (V3MiniTyped.ReadU32BE off n));
  row (X := Z) "ReadU32BENext" (fun n : Z => [VOutSlice U32; VInt I64 n]) unit_ (fun n : Z => (V3MiniTyped.ReadU32BENext n));
  row (X := Z * Z) "ReadU64LE" (fun '(off, n) => [VOutSlice U64; VInt I64 off; VInt I64 n]) unit_ (fun '(off, n) => (V3MiniTyped.ReadU64LE off n));
  row (X := Z) "ReadU64LENext" (fun n : Z => [VOutSlice U64; VInt I64 n]) unit_ (fun n : Z => (V3MiniTyped.ReadU64LENext n));
  row (X := Z * Z) "ReadU64BE" (fun '(off, n) => [VOutSlice U64; VInt I64 off; VInt I64 n]) unit_ (fun '(off, n) => (V3MiniTyped.ReadU64BE off n));
  row (X := Z) "ReadU64BENext" (fun n : Z => [VOutSlice U64; VInt I64 n]) unit_ (fun n : Z => (V3MiniTyped.ReadU64BENext n));
  row (X := Z * Z) "ReadI16LE" (fun '(off, n) => [VOutSlice I16; VInt I64 off; VInt I64 n]) unit_ (fun '(off, n) => (V3MiniTyped.ReadI16LE off n));
  row (X := Z) "ReadI16LENext" (fun n : Z => [VOutSlice I16; VInt I64 n]) unit_ (fun n : Z => (V3MiniTyped.ReadI16LENext n));
  row (X := Z * Z) "ReadI16BE" (fun '(off, n) => [VOutSlice I16; VInt I64 off; VInt I64 n]) unit_ (fun '(off, n) => (V3MiniTyped.ReadI16BE off n));
  row (X := Z) "ReadI16BENext" (fun n : Z => [VOutSlice I16; VInt I64 n]) unit_ (fun n : Z => (V3MiniTyped.ReadI16BENext n));
  row (X := Z * Z) "ReadI32LE" (fun '(off, n) => [VOutSlice I32; VInt I64 off; VInt I64 n]) unit_ (fun '(off, n) => (V3MiniTyped.ReadI32LE off n));
  row (X := Z) "ReadI32LENext" (fun n : Z => [VOutSlice I32; VInt I64 n]) unit_ (fun n : Z => (V3MiniTyped.ReadI32LENext n));
  row (X := Z * Z) "ReadI32BE" (fun '(off, n) => [VOutSlice I32; VInt I64 off; VInt I64 n]) unit_ (fun '(off, n) => (V3MiniTyped.ReadI32BE off n));
  row (X := Z) "ReadI32BENext" (fun n : Z => [VOutSlice I32; VInt I64 n]) unit_ (fun n : Z => (V3MiniTyped.ReadI32BENext n));
  row (X := Z * Z) "ReadI64LE" (fun '(off, n) => [VOutSlice I64; VInt I64 off; VInt I64 n]) unit_ (fun '(off, n) => (V3MiniTyped.ReadI64LE off n));
  row (X := Z) "ReadI64LENext" (fun n : Z => [VOutSlice I64; VInt I64 n]) unit_ (fun n : Z => (V3MiniTyped.ReadI64LENext n));
  row (X := Z * Z) "ReadI64BE" (fun '(off, n) => [VOutSlice I64; VInt I64 off; VInt I64 n]) unit_ (fun '(off, n) => (V3MiniTyped.ReadI64BE off n));
  row (X := Z) "ReadI64BENext" (fun n : Z => [VOutSlice I64; VInt I64 n]) unit_ (fun n : Z => (V3MiniTyped.ReadI64BENext n));
  row (X := Z * Z) "ReadF32LE" (fun '(off, n) => [VOutSlice F32; VInt I64 off; VInt I64 n]) unit_ (fun '(off, n) => (V3MiniTyped.ReadF32LE off n));
  row (X := Z) "ReadF32LENext" (fun n : Z => [VOutSlice F32; VInt I64 n]) unit_ (fun n : Z => (V3MiniTyped.ReadF32LENext n));
  row (X := Z * Z) "ReadF32BE" (fun '(off, n) => [VOutSlice F32; VInt I64 off; VInt I64 n]) unit_ (fun '(off, n) => (V3MiniTyped.ReadF32BE off n));
  row (X := Z) "ReadF32BENext" (fun n : Z => [VOutSlice F32; VInt I64 n]) unit_ (fun n : Z => (V3MiniTyped.ReadF32BENext n));
  row (X := Z * Z) "ReadF64LE" (fun '(off, n) => [VOutSlice F64; VInt I64 off; VInt I64 n]) unit_ (fun '(off, n) => (V3MiniTyped.ReadF64LE off n));
  row (X := Z) "ReadF64LENext" (fun n : Z => [VOutSlice F64; VInt I64 n]) unit_ (fun n : Z => (V3MiniTyped.ReadF64LENext n));
  row (X := Z * Z) "ReadF64BE" (fun '(off, n) => [VOutSlice F64; VInt I64 off; VInt I64 n]) unit_ (fun '(off, n) => (V3MiniTyped.ReadF64BE off n));
  row (X := Z) "ReadF64BENext" (fun n : Z => [VOutSlice F64; VInt I64 n]) unit_ (fun n : Z => (V3MiniTyped.ReadF64BENext n));
  row (X := Z * bool) "SeekByte" (fun '(off, r) => [VInt I64 off; VBool r]) unit_ (fun '(off, r) => (V3Mini.SeekByte off r));
  row (X := list Z) "AfterByte" (fun off : list Z => [VCell; VInts I64 off]) (VInt I64) (fun off : list Z => (V3Mini.AfterByte (hd_error off)));
  row (X := unit) "AlignByte" (fun _ : unit => []) unit_ (fun _ : unit => V3Mini.AlignByte);
  row (X := Z) "TruncateLeft" (fun n : Z => [VInt I64 n]) unit_ (fun n : Z => (V3Mini.TruncateLeft n));
  row (X := Z) "TruncateRight" (fun n : Z => [VInt I64 n]) unit_ (fun n : Z => (V3Mini.TruncateRight n));
  row (X := Z) "Grow" (fun n : Z => [VInt I64 n]) unit_ (fun n : Z => (V3Mini.Grow n));
  row (X := unit) "Refresh" (fun _ : unit => []) unit_ (fun _ : unit => V3Mini.Refresh);
  row (X := unit) "Reset" (fun _ : unit => []) unit_ (fun _ : unit => V3Mini.Reset);
  row (X := unit) "Bytes" (fun _ : unit => [VCell]) VBytes (fun _ : unit => V3Mini.Bytes);
  row (X := unit) "ByteCapacity" (fun _ : unit => [VCell]) (VInt I64) (fun _ : unit => V3Mini.ByteCapacity);
  row (X := unit) "BitCapacity" (fun _ : unit => [VCell]) (VInt I64) (fun _ : unit => V3Mini.BitCapacity);
  row (X := unit) "ByteOffset" (fun _ : unit => [VCell]) (VInt I64) (fun _ : unit => V3Mini.ByteOffset);
  row (X := unit) "BitOffset" (fun _ : unit => [VCell]) (VInt I64) (fun _ : unit => V3Mini.BitOffset)].
(** v2/buffer.go *)
Definition v2_buffer_table : list entry := [
  row_new "NewBuffer" (fun slices => [VSlices slices]) (fun slices => (V2Buffer.NewBuffer pol slices));
  row (X := Z) "readbit" (fun off : Z => [VInt I64 off]) (VInt U8) (fun off : Z => (V2Buffer.readbit off));
  row (X := Z * Z) "readbits" (fun '(off, n) => [VInt I64 off; VInt I64 n]) (VInt U64) (fun '(off, n) => (V2Buffer.readbits off n));
  row (X := Z * Z) "setbit" (fun '(off, data) => [VInt I64 off; VInt U8 data]) unit_ (fun '(off, data) => (V2Buffer.setbit off data));
  row (X := Z * Z * Z) "setbits" (fun '(off, data, n) => [VInt I64 off; VInt U64 data; VInt I64 n]) unit_ (fun '(off, data, n) => (V2Buffer.setbits off data n));
  row (X := Z) "flipbit" (fun off : Z => [VInt I64 off]) unit_ (fun off : Z => (V2Buffer.flipbit off));
  row (X := unit) "clearallbits" (fun _ : unit => []) unit_ (fun _ : unit => V2Buffer.clearallbits);
  row (X := unit) "setallbits" (fun _ : unit => []) unit_ (fun _ : unit => V2Buffer.setallbits);
  row (X := unit) "flipallbits" (fun _ : unit => []) unit_ (fun _ : unit => V2Buffer.flipallbits);
  row (X := Z * bool) "seekbit" (fun '(off, r) => [VInt I64 off; VBool r]) unit_ (fun '(off, r) => (V2Buffer.seekbit off r));
  row (X := list Z) "afterbit" (fun off : list Z => [VInts I64 off]) (VInt I64) (fun off : list Z => (V2Buffer.afterbit (hd_error off)));
  row (X := Z * slice) "write" (fun '(off, data) => [VInt I64 off; VBytes data]) unit_ (fun '(off, data) => (V2Buffer.write off data));
  row (X := Z * list Z) "writeU16LE" (fun '(off, data) => [VInt I64 off; VInts U16 data]) unit_ (fun '(off, data) => (V2BufferTyped.writeU16LE off data));
  row (X := Z * list Z) "writeU16BE" (fun '(off, data) => [VInt I64 off; VInts U16 data]) unit_ (fun '(off, data) => (V2BufferTyped.writeU16BE off data));
  row (X := Z * list Z) "writeU32LE" (fun '(off, data) => [VInt I64 off; VInts U32 data]) unit_ (fun '(off, data) => (V2BufferTyped.writeU32LE off data));
  row (X := Z * list Z) "writeU32BE" (fun '(off, data) => [VInt I64 off; VInts U32 data]) unit_ (fun '(off, data) => (V2BufferTyped.writeU32BE off data));
  row (X := Z * list Z) "writeU64LE" (fun '(off, data) => [VInt I64 off; VInts U64 data]) unit_ (fun '(off, data) => (V2BufferTyped.writeU64LE off data));
  row (X := Z * list Z) "writeU64BE" (fun '(off, data) => [VInt I64 off; VInts U64 data]) unit_ (fun '(off, data) => (V2BufferTyped.writeU64BE off data));
  row (X := Z * Z) "read" (fun '(off, n) => [VInt I64 off; VInt I64 n]) VBytes (fun '(off, n) => (V2Buffer.read off n));
  row (X := Z * Z) "readU16LE" (fun '(off, n) => [VInt I64 off; VInt I64 n]) (VInts U16) (fun '(off, n) => (V2BufferTyped.readU16LE off n));
  row (X := Z * Z) "readU16BE" (fun '(off, n) => [VInt I64 off; VInt I64 n]) (VInts U16) (fun '(off, n) => (V2BufferTyped.readU16BE off n));
  row (X := Z * Z) "readU32LE" (fun '(off, n) => [VInt I64 off; VInt I64 n]) (VInts U32) (fun '(off, n) => (V2BufferTyped.readU32LE off n));
  row (X := Z * Z) "readU32BE" (fun '(off, n) => [VInt I64 off; VInt I64 n]) (VInts U32) (fun '(off, n) => (V2BufferTyped.readU32BE off n));
  row (X := Z * Z) "readU64LE" (fun '(off, n) => [VInt I64 off; VInt I64 n]) (VInts U64) (fun '(off, n) => (V2BufferTyped.readU64LE off n));
  row (X := Z * Z) "readU64BE" (fun '(off, n) => [VInt I64 off; VInt I64 n]) (VInts U64) (fun '(off, n) => (V2BufferTyped.readU64BE off n));
  row (X := Z * bool) "seek" (fun '(off, r) => [VInt I64 off; VBool r]) unit_ (fun '(off, r) => (V2Buffer.seek off r));
  row (X := list Z) "after" (fun off : list Z => [VInts I64 off]) (VInt I64) (fun off : list Z => (V2Buffer.after (hd_error off)));
  row (X := Z) "grow" (fun n : Z => [VInt I64 n]) unit_ (fun n : Z => (V2Buffer.grow pol n));
  row (X := unit) "refresh" (fun _ : unit => []) unit_ (fun _ : unit => V2Buffer.refresh);
  row (X := unit) "alignbit" (fun _ : unit => []) unit_ (fun _ : unit => V2Buffer.alignbit);
  row (X := unit) "alignbyte" (fun _ : unit => []) unit_ (fun _ : unit => V2Buffer.alignbyte);
  row (X := unit) "reset" (fun _ : unit => []) unit_ (fun _ : unit => V2Buffer.reset);
  row (X := unit) "Bytes" (fun _ : unit => []) VBytes (fun _ : unit => V2Buffer.Bytes);
  row (X := unit) "Capacity" (fun _ : unit => []) (VInt I64) (fun _ : unit => V2Buffer.Capacity);
  row (X := unit) "BitCapacity" (fun _ : unit => []) (VInt I64) (fun _ : unit => V2Buffer.BitCapacity);
  row (X := unit) "Offset" (fun _ : unit => []) (VInt I64) (fun _ : unit => V2Buffer.Offset);
  row (X := unit) "BitOffset" (fun _ : unit => []) (VInt I64) (fun _ : unit => V2Buffer.BitOffset);
  row (X := unit) "Refresh" (fun _ : unit => []) unit_ (fun _ : unit => V2Buffer.Refresh);
  row (X := unit) "Reset" (fun _ : unit => []) unit_ (fun _ : unit => V2Buffer.Reset);
  row (X := Z) "Grow" (fun n : Z => [VInt I64 n]) unit_ (fun n : Z => (V2Buffer.Grow pol n));
  row (X := Z * bool) "Seek" (fun '(off, r) => [VInt I64 off; VBool r]) unit_ (fun '(off, r) => (V2Buffer.Seek off r));
  row (X := Z * bool) "SeekBit" (fun '(off, r) => [VInt I64 off; VBool r]) unit_ (fun '(off, r) => (V2Buffer.SeekBit off r));
  row (X := unit) "AlignBit" (fun _ : unit => []) unit_ (fun _ : unit => V2Buffer.AlignBit);
  row (X := unit) "AlignByte" (fun _ : unit => []) unit_ (fun _ : unit => V2Buffer.AlignByte);
  row (X := list Z) "After" (fun off : list Z => [VInts I64 off]) (VInt I64) (fun off : list Z => (V2Buffer.After (hd_error off)));
  row (X := list Z) "AfterBit" (fun off : list Z => [VInts I64 off]) (VInt I64) (fun off : list Z => (V2Buffer.AfterBit (hd_error off)));
  row (X := Z) "ReadByte" (fun off : Z => [VInt I64 off]) (VInt U8) (fun off : Z => (V2Buffer.ReadByte off));
  row (X := Z * Z) "ReadBytes" (fun '(off, n) => [VInt I64 off; VInt I64 n]) VBytes (fun '(off, n) => (V2Buffer.ReadBytes off n));
  row (X := Z * Z) "ReadU16LE" (fun '(off, n) => [VInt I64 off; VInt I64 n]) (VInts U16) (fun '(off, n) => (V2BufferTyped.ReadU16LE off n));
  row (X := Z * Z) "ReadU16BE" (fun '(off, n) => [VInt I64 off; VInt I64 n]) (VInts U16) (fun '(off, n) => (V2BufferTyped.ReadU16BE off n));
  row (X := Z * Z) "ReadU32LE" (fun '(off, n) => [VInt I64 off; VInt I64 n]) (VInts U32) (fun '(off, n) => (V2BufferTyped.ReadU32LE off n));
  row (X := Z * Z) "ReadU32BE" (fun '(off, n) => [VInt I64 off; VInt I64 n]) (VInts U32) (fun '(off, n) => (V2BufferTyped.ReadU32BE off n));
  row (X := Z * Z) "ReadU64LE" (fun '(off, n) => [VInt I64 off; VInt I64 n]) (VInts U64) (fun '(off, n) => (V2BufferTyped.ReadU64LE off n));
  row (X := Z * Z) "ReadU64BE" (fun '(off, n) => [VInt I64 off; VInt I64 n]) (VInts U64) (fun '(off, n) => (V2BufferTyped.ReadU64BE off n));
  row (X := unit) "ReadByteNext" (fun _ : unit => []) (VInt U8) (fun _ : unit => V2Buffer.ReadByteNext);
  row (X := Z) "ReadBytesNext" (fun n : Z => [VInt I64 n]) VBytes (fun n : Z => (V2Buffer.ReadBytesNext n));
  row (X := Z) "ReadU16LENext" (fun n : Z => [VInt I64 n]) (VInts U16) (fun n : Z => (V2BufferTyped.ReadU16LENext n));
  row (X := Z) "ReadU16BENext" (fun n : Z => [VInt I64 n]) (VInts U16) (fun n : Z => (V2BufferTyped.ReadU16BENext n));
  row (X := Z) "ReadU32LENext" (fun n : Z => [VInt I64 n]) (VInts U32) (fun n : Z => (V2BufferTyped.ReadU32LENext n));
  row (X := Z) "ReadU32BENext" (fun n : Z => [VInt I64 n]) (VInts U32) (fun n : Z => (V2BufferTyped.ReadU32BENext n));
  row (X := Z) "ReadU64LENext" (fun n : Z => [VInt I64 n]) (VInts U64) (fun n : Z => (V2BufferTyped.ReadU64LENext n));
  row (X := Z) "ReadU64BENext" (fun n : Z => [VInt I64 n]) (VInts U64) (fun n : Z => (V2BufferTyped.ReadU64BENext n));
  row (X := Z * Z) "WriteByte" (fun '(off, data) => [VInt I64 off; VInt U8 data]) unit_ (fun '(off, data) => (V2Buffer.WriteByte off data));
  row (X := Z * slice) "WriteBytes" (fun '(off, data) => [VInt I64 off; VBytes data]) unit_ (fun '(off, data) => (V2Buffer.WriteBytes off data));
  row (X := Z * list Z) "WriteU16LE" (fun '(off, data) => [VInt I64 off; VInts U16 data]) unit_ (fun '(off, data) => (V2BufferTyped.WriteU16LE off data));
  row (X := Z * list Z) "WriteU16BE" (fun '(off, data) => [VInt I64 off; VInts U16 data]) unit_ (fun '(off, data) => (V2BufferTyped.WriteU16BE off data));
  row (X := Z * list Z) "WriteU32LE" (fun '(off, data) => [VInt I64 off; VInts U32 data]) unit_ (fun '(off, data) => (V2BufferTyped.WriteU32LE off data));
  row (X := Z * list Z) "WriteU32BE" (fun '(off, data) => [VInt I64 off; VInts U32 data]) unit_ (fun '(off, data) => (V2BufferTyped.WriteU32BE off data));
  row (X := Z * list Z) "WriteU64LE" (fun '(off, data) => [VInt I64 off; VInts U64 data]) unit_ (fun '(off, data) => (V2BufferTyped.WriteU64LE off data));
  row (X := Z * list Z) "WriteU64BE" (fun '(off, data) => [VInt I64 off; VInts U64 data]) unit_ (fun '(off, data) => (V2BufferTyped.WriteU64BE off data));
  row (X := Z) "WriteByteNext" (fun data : Z => [VInt U8 data]) unit_ (fun data : Z => (V2Buffer.WriteByteNext data));
  row (X := slice) "WriteBytesNext" (fun data : slice => [VBytes data]) unit_ (fun data : slice => (V2Buffer.WriteBytesNext data));
  row (X := list Z) "WriteU16LENext" (fun data : list Z => [VInts U16 data]) unit_ (fun data : list Z => (V2BufferTyped.WriteU16LENext data));
  row (X := list Z) "WriteU16BENext" (fun data : list Z => [VInts U16 data]) unit_ (fun data : list Z => (V2BufferTyped.WriteU16BENext data));
  row (X := list Z) "WriteU32LENext" (fun data : list Z => [VInts U32 data]) unit_ (fun data : list Z => (V2BufferTyped.WriteU32LENext data));
  row (X := list Z) "WriteU32BENext" (fun data : list Z => [VInts U32 data]) unit_ (fun data : list Z => (V2BufferTyped.WriteU32BENext data));
  row (X := list Z) "WriteU64LENext" (fun data : list Z => [VInts U64 data]) unit_ (fun data : list Z => (V2BufferTyped.WriteU64LENext data));
  row (X := list Z) "WriteU64BENext" (fun data : list Z => [VInts U64 data]) unit_ (fun data : list Z => (V2BufferTyped.WriteU64BENext data));
  row (X := Z) "ReadBit" (fun off : Z => [VInt I64 off]) (VInt U8) (fun off : Z => (V2Buffer.ReadBit off));
  row (X := Z * Z) "ReadBits" (fun '(off, n) => [VInt I64 off; VInt I64 n]) (VInt U64) (fun '(off, n) => (V2Buffer.ReadBits off n));
  row (X := unit) "ReadBitNext" (fun _ : unit => []) (VInt U8) (fun _ : unit => V2Buffer.ReadBitNext);
  row (X := Z) "ReadBitsNext" (fun n : Z => [VInt I64 n]) (VInt U64) (fun n : Z => (V2Buffer.ReadBitsNext n));
  row (X := Z * Z) "SetBit" (fun '(off, data) => [VInt I64 off; VInt U8 data]) unit_ (fun '(off, data) => (V2Buffer.SetBit off data));
  row (X := Z * Z * Z) "SetBits" (fun '(off, data, n) => [VInt I64 off; VInt U64 data; VInt I64 n]) unit_ (fun '(off, data, n) => (V2Buffer.SetBits off data n));
  row (X := Z) "SetBitNext" (fun data : Z => [VInt U8 data]) unit_ (fun data : Z => (V2Buffer.SetBitNext data));
  row (X := Z * Z) "SetBitsNext" (fun '(data, n) => [VInt U64 data; VInt I64 n]) unit_ (fun '(data, n) => (V2Buffer.SetBitsNext data n));
  row (X := Z) "FlipBit" (fun off : Z => [VInt I64 off]) unit_ (fun off : Z => (V2Buffer.FlipBit off));
  row (X := unit) "FlipBitNext" (fun _ : unit => []) unit_ (fun _ : unit => V2Buffer.FlipBitNext);
  row (X := unit) "ClearAllBits" (fun _ : unit => []) unit_ (fun _ : unit => V2Buffer.ClearAllBits);
  row (X := unit) "SetAllBits" (fun _ : unit => []) unit_ (fun _ : unit => V2Buffer.SetAllBits);
  row (X := unit) "FlipAllBits" (fun _ : unit => []) unit_ (fun _ : unit => V2Buffer.FlipAllBits)].
(** v2/minibuf.go *)
Definition v2_minibuf_table : list entry := [
  row_new "NewMiniBuffer" (fun slices => [VCell; VSlices slices]) (fun slices => (V2Mini.NewMiniBuffer pol slices));
  row (X := Z) "readbit" (fun off : Z => [VCell; VInt I64 off]) (VInt U8) (fun off : Z => (V2Mini.readbit off));
  row (X := Z * Z) "readbits" (fun '(off, n) => [VOutWord U64; VInt I64 off; VInt I64 n]) unit_ (fun '(off, n) => (V2Mini.readbits off n));
  row (X := Z * Z) "setbit" (fun '(off, data) => [VInt I64 off; VInt U8 data]) unit_ (fun '(off, data) => (V2Mini.setbit off data));
  row (X := Z * Z * Z) "setbits" (fun '(off, data, n) => [VInt I64 off; VInt U64 data; VInt I64 n]) unit_ (fun '(off, data, n) => (V2Mini.setbits off data n));
  row (X := Z) "flipbit" (fun off : Z => [VInt I64 off]) unit_ (fun off : Z => (V2Mini.flipbit off));
  row (X := unit) "clearallbits" (fun _ : unit => []) unit_ (fun _ : unit => V2Mini.clearallbits);
  row (X := unit) "setallbits" (fun _ : unit => []) unit_ (fun _ : unit => V2Mini.setallbits);
  row (X := unit) "flipallbits" (fun _ : unit => []) unit_ (fun _ : unit => V2Mini.flipallbits);
  row (X := Z * bool) "seekbit" (fun '(off, r) => [VInt I64 off; VBool r]) unit_ (fun '(off, r) => (V2Mini.seekbit off r));
  row (X := list Z) "afterbit" (fun off : list Z => [VCell; VInts I64 off]) (VInt I64) (fun off : list Z => (V2Mini.afterbit (hd_error off)));
  row (X := Z * slice) "write" (fun '(off, data) => [VInt I64 off; VBytes data]) unit_ (fun '(off, data) => (V2Mini.write off data));
  row (X := Z * list Z) "writeU16LE" (fun '(off, data) => [VInt I64 off; VInts U16 data]) unit_ (fun '(off, data) => (V2MiniTyped.writeU16LE off data));
  row (X := Z * list Z) "writeU16BE" (fun '(off, data) => [VInt I64 off; VInts U16 data]) unit_ (fun '(off, data) => (V2MiniTyped.writeU16BE off data));
  row (X := Z * list Z) "writeU32LE" (fun '(off, data) => [VInt I64 off; VInts U32 data]) unit_ (fun '(off, data) => (V2MiniTyped.writeU32LE off data));
  row (X := Z * list Z) "writeU32BE" (fun '(off, data) => [VInt I64 off; VInts U32 data]) unit_ (fun '(off, data) => (V2MiniTyped.writeU32BE off data));
  row (X := Z * list Z) "writeU64LE" (fun '(off, data) => [VInt I64 off; VInts U64 data]) unit_ (fun '(off, data) => (V2MiniTyped.writeU64LE off data));
  row (X := Z * list Z) "writeU64BE" (fun '(off, data) => [VInt I64 off; VInts U64 data]) unit_ (fun '(off, data) => (V2MiniTyped.writeU64BE off data));
  row (X := Z * Z) "read" (fun '(off, n) => [VCell; VInt I64 off; VInt I64 n]) VBytes (fun '(off, n) => (V2Mini.read off n));
  row (X := Z * Z) "readU16LE" (fun '(off, n) => [VOutSlice U16; VInt I64 off; VInt I64 n]) unit_ (fun '(off, n) => (V2MiniTyped.readU16LE off n));
  row (X := Z * Z) "readU16BE" (fun '(off, n) => [VOutSlice U16; VInt I64 off; VInt I64 n]) unit_ (fun '(off, n) => (V2MiniTyped.readU16BE off n));
  row (X := Z * Z) "readU32LE" (fun '(off, n) => [VOutSlice U32; VInt I64 off; VInt I64 n]) unit_ (fun '(off, n) => (V2MiniTyped.readU32LE off n));
  row (X := Z * Z) "readU32BE" (fun '(off, n) => [VOutSlice U32; VInt I64 off; VInt I64 n]) unit_ (fun '(off, n) => (V2MiniTyped.readU32BE off n));
  row (X := Z * Z) "readU64LE" (fun '(off, n) => [VOutSlice U64; VInt I64 off; VInt I64 n]) unit_ (fun '(off, n) => (V2MiniTyped.readU64LE off n));
  row (X := Z * Z) "readU64BE" (fun '(off, n) => [VOutSlice U64; VInt I64 off; VInt I64 n]) unit_ (fun '(off, n) => (V2MiniTyped.readU64BE off n));
  row (X := Z * bool) "seek" (fun '(off, r) => [VInt I64 off; VBool r]) unit_ (fun '(off, r) => (V2Mini.seek off r));
  row (X := list Z) "after" (fun off : list Z => [VCell; VInts I64 off]) (VInt I64) (fun off : list Z => (V2Mini.after (hd_error off)));
  row (X := Z) "grow" (fun n : Z => [VInt I64 n]) unit_ (fun n : Z => (V2Mini.grow pol n));
  row (X := unit) "refresh" (fun _ : unit => []) unit_ (fun _ : unit => V2Mini.refresh);
  row (X := unit) "alignbit" (fun _ : unit => []) unit_ (fun _ : unit => V2Mini.alignbit);
  row (X := unit) "alignbyte" (fun _ : unit => []) unit_ (fun _ : unit => V2Mini.alignbyte);
  row (X := unit) "reset" (fun _ : unit => []) unit_ (fun _ : unit => V2Mini.reset);
  row (X := unit) "Bytes" (fun _ : unit => [VCell]) VBytes (fun _ : unit => V2Mini.Bytes);
  row (X := unit) "Capacity" (fun _ : unit => [VCell]) (VInt I64) (fun _ : unit => V2Mini.Capacity);
  row (X := unit) "BitCapacity" (fun _ : unit => [VCell]) (VInt I64) (fun _ : unit => V2Mini.BitCapacity);
  row (X := unit) "Offset" (fun _ : unit => [VCell]) (VInt I64) (fun _ : unit => V2Mini.Offset);
  row (X := unit) "BitOffset" (fun _ : unit => [VCell]) (VInt I64) (fun _ : unit => V2Mini.BitOffset);
  row (X := unit) "Refresh" (fun _ : unit => []) unit_ (fun _ : unit => V2Mini.Refresh);
  row (X := unit) "Reset" (fun _ : unit => []) unit_ (fun _ : unit => V2Mini.Reset);
  row (X := Z) "Grow" (fun n : Z => [VInt I64 n]) unit_ (fun n : Z => (V2Mini.Grow pol n));
  row (X := Z * bool) "Seek" (fun '(off, r) => [VInt I64 off; VBool r]) unit_ (fun '(off, r) => (V2Mini.Seek off r));
  row (X := Z * bool) "SeekBit" (fun '(off, r) => [VInt I64 off; VBool r]) unit_ (fun '(off, r) => (V2Mini.SeekBit off r));
  row (X := unit) "AlignBit" (fun _ : unit => []) unit_ (fun _ : unit => V2Mini.AlignBit);
  row (X := unit) "AlignByte" (fun _ : unit => []) unit_ (fun _ : unit => V2Mini.AlignByte);
  row (X := list Z) "After" (fun off : list Z => [VCell; VInts I64 off]) (VInt I64) (fun off : list Z => (V2Mini.After (hd_error off)));
  row (X := list Z) "AfterBit" (fun off : list Z => [VCell; VInts I64 off]) (VInt I64) (fun off : list Z => (V2Mini.AfterBit (hd_error off)));
  row (X := Z * Z) "ReadBytes" (fun '(off, n) => [VCell; VInt I64 off; VInt I64 n]) VBytes (fun '(off, n) => (V2Mini.ReadBytes off n));
  row (X := Z * Z) "ReadU16LE" (fun '(off, n) => [VOutSlice U16; VInt I64 off; VInt I64 n]) unit_ (fun '(off, n) => (V2MiniTyped.ReadU16LE off n));
  row (X := Z * Z) "ReadU16BE" (fun '(off, n) => [VOutSlice U16; VInt I64 off; VInt I64 n]) unit_ (fun '(off, n) => (V2MiniTyped.ReadU16BE off n));
  row (X := Z * Z) "ReadU32LE" (fun '(off, n) => [VOutSlice U32; VInt I64 off; VInt I64 n]) unit_ (fun '(off, n) => (V2MiniTyped.ReadU32LE off n));
  row (X := Z * Z) "ReadU32BE" (fun '(off, n) => [VOutSlice U32; VInt I64 off; VInt I64 n]) unit_ (fun '(off, n) => (V2MiniTyped.ReadU32BE off n));
  row (X := Z * Z) "ReadU64LE" (fun '(off, n) => [VOutSlice U64; VInt I64 off; VInt I64 n]) unit_ (fun '(off, n) => (V2MiniTyped.ReadU64LE off n));
  row (X := Z * Z) "ReadU64BE" (fun '(off, n) => [VOutSlice U64; VInt I64 off; VInt I64 n]) unit_ (fun '(off, n) => (V2MiniTyped.ReadU64BE off n));
  row (X := Z) "ReadBytesNext" (fun n : Z => [VCell; VInt I64 n]) VBytes (fun n : Z => (V2Mini.ReadBytesNext n));
  row (X := Z) "ReadU16LENext" (fun n : Z => [VOutSlice U16; VInt I64 n]) unit_ (fun n : Z => (V2MiniTyped.ReadU16LENext n));
  row (X := Z) "ReadU16BENext" (fun n : Z => [VOutSlice U16; VInt I64 n]) unit_ (fun n : Z => (V2MiniTyped.ReadU16BENext n));
  row (X := Z) "ReadU32LENext" (fun n : Z => [VOutSlice U32; VInt I64 n]) unit_ (fun n : Z => (V2MiniTyped.ReadU32LENext n));
  row (X := Z) "ReadU32BENext" (fun n : Z => [VOutSlice U32; VInt I64 n]) unit_ (fun n : Z => (V2MiniTyped.ReadU32BENext n));
  row (X := Z) "ReadU64LENext" (fun n : Z => [VOutSlice U64; VInt I64 n]) unit_ (fun n : Z => (V2MiniTyped.ReadU64LENext n));
  row (X := Z) "ReadU64BENext" (fun n : Z => [VOutSlice U64; VInt I64 n]) unit_ (fun n : Z => (V2MiniTyped.ReadU64BENext n));
  row (X := Z * slice) "WriteBytes" (fun '(off, data) => [VInt I64 off; VBytes data]) unit_ (fun '(off, data) => (V2Mini.WriteBytes off data));
  row (X := Z * list Z) "WriteU16LE" (fun '(off, data) => [VInt I64 off; VInts U16 data]) unit_ (fun '(off, data) => (V2MiniTyped.WriteU16LE off data));
  row (X := Z * list Z) "WriteU16BE" (fun '(off, data) => [VInt I64 off; VInts U16 data]) unit_ (fun '(off, data) => (V2MiniTyped.WriteU16BE off data));
  row (X := Z * list Z) "WriteU32LE" (fun '(off, data) => [VInt I64 off; VInts U32 data]) unit_ (fun '(off, data) => (V2MiniTyped.WriteU32LE off data));
  row (X := Z * list Z) "WriteU32BE" (fun '(off, data) => [VInt I64 off; VInts U32 data]) unit_ (fun '(off, data) => (V2MiniTyped.WriteU32BE off data));
  row (X := Z * list Z) "WriteU64LE" (fun '(off, data) => [VInt I64 off; VInts U64 data]) unit_ (fun '(off, data) => (V2MiniTyped.WriteU64LE off data));
  row (X := Z * list Z) "WriteU64BE" (fun '(off, data) => [VInt I64 off; VInts U64 data]) unit_ (fun '(off, data) => (V2MiniTyped.WriteU64BE off data));
  row (X := slice) "WriteBytesNext" (fun data : slice => [VBytes data]) unit_ (fun data : slice => (V2Mini.WriteBytesNext data));
  row (X := list Z) "WriteU16LENext" (fun data : list Z => [VInts U16 data]) unit_ (fun data : list Z => (V2MiniTyped.WriteU16LENext data));
  row (X := list Z) "WriteU16BENext" (fun data : list Z => [VInts U16 data]) unit_ (fun data : list Z => (V2MiniTyped.WriteU16BENext data));
  row (X := list Z) "WriteU32LENext" (fun data : list Z => [VInts U32 data]) unit_ (fun data : list Z => (V2MiniTyped.WriteU32LENext data));
  row (X := list Z) "WriteU32BENext" (fun data : list Z => [VInts U32 data]) unit_ (fun data : list Z => (V2MiniTyped.WriteU32BENext data));
  row (X := list Z) "WriteU64LENext" (fun data : list Z => [VInts U64 data]) unit_ (fun data : list Z => (V2MiniTyped.WriteU64LENext data));
  row (X := list Z) "WriteU64BENext" (fun data : list Z => [VInts U64 data]) unit_ (fun data : list Z => (V2MiniTyped.WriteU64BENext data));
  row (X := Z) "ReadBit" (fun off : Z => [VCell; VInt I64 off]) (VInt U8) (fun off : Z => (V2Mini.ReadBit off));
  row (X := Z * Z) "ReadBits" (fun '(off, n) => [VOutWord U64; VInt I64 off; VInt I64 n]) unit_ (fun '(off, n) => (V2Mini.ReadBits off n));
  row (X := unit) "ReadBitNext" (fun _ : unit => [VCell]) (VInt U8) (fun _ : unit => V2Mini.ReadBitNext);
  row (X := Z) "ReadBitsNext" (fun n : Z => [VOutWord U64; VInt I64 n]) unit_ (fun n : Z => (V2Mini.ReadBitsNext n));
  row (X := Z * Z) "SetBit" (fun '(off, data) => [VInt I64 off; VInt U8 data]) unit_ (fun '(off, data) => (V2Mini.SetBit off data));
  row (X := Z * Z * Z) "SetBits" (fun '(off, data, n) => [VInt I64 off; VInt U64 data; VInt I64 n]) unit_ (fun '(off, data, n) => (V2Mini.SetBits off data n));
  row (X := Z) "SetBitNext" (fun data : Z => [VInt U8 data]) unit_ (fun data : Z => (V2Mini.SetBitNext data));
  row (X := Z * Z) "SetBitsNext" (fun '(data, n) => [VInt U64 data; VInt I64 n]) unit_ (fun '(data, n) => (V2Mini.SetBitsNext data n));
  row (X := Z) "FlipBit" (fun off : Z => [VInt I64 off]) unit_ (fun off : Z => (V2Mini.FlipBit off));
  row (X := unit) "FlipBitNext" (fun _ : unit => []) unit_ (fun _ : unit => V2Mini.FlipBitNext);
  row (X := unit) "ClearAllBits" (fun _ : unit => []) unit_ (fun _ : unit => V2Mini.ClearAllBits);
  row (X := unit) "SetAllBits" (fun _ : unit => []) unit_ (fun _ : unit => V2Mini.SetAllBits);
  row (X := unit) "FlipAllBits" (fun _ : unit => []) unit_ (fun _ : unit => V2Mini.FlipAllBits)].
(** v1/buffer.go *)
Definition v1_buffer_table : list entry := [
  row_new "NewBuffer" (fun slices => [VSlices slices]) (fun slices => (V1Buffer.NewBuffer pol slices));
  row (X := Z) "readbit" (fun off : Z => [VInt I64 off]) (VInt U8) (fun off : Z => (V1Buffer.readbit off));
  row (X := Z * Z) "readbits" (fun '(off, n) => [VInt I64 off; VInt I64 n]) (VInt U64) (fun '(off, n) => (V1Buffer.readbits off n));
  row (X := Z * Z) "setbit" (fun '(off, data) => [VInt I64 off; VInt U8 data]) unit_ (fun '(off, data) => (V1Buffer.setbit off data));
  row (X := Z * Z * Z) "setbits" (fun '(off, data, n) => [VInt I64 off; VInt U64 data; VInt I64 n]) unit_ (fun '(off, data, n) => (V1Buffer.setbits off data n));
  row (X := Z) "flipbit" (fun off : Z => [VInt I64 off]) unit_ (fun off : Z => (V1Buffer.flipbit off));
  row (X := unit) "clearallbits" (fun _ : unit => []) unit_ (fun _ : unit => V1Buffer.clearallbits);
  row (X := unit) "setallbits" (fun _ : unit => []) unit_ (fun _ : unit => V1Buffer.setallbits);
  row (X := unit) "flipallbits" (fun _ : unit => []) unit_ (fun _ : unit => V1Buffer.flipallbits);
  row (X := Z * bool) "seekbit" (fun '(off, r) => [VInt I64 off; VBool r]) unit_ (fun '(off, r) => (V1Buffer.seekbit off r));
  row (X := list Z) "afterbit" (fun off : list Z => [VInts I64 off]) (VInt I64) (fun off : list Z => (V1Buffer.afterbit (hd_error off)));
  row (X := Z * slice) "write" (fun '(off, data) => [VInt I64 off; VBytes data]) unit_ (fun '(off, data) => (V1Buffer.write off data));
  row (X := Z * V1Buffer.idata * Z * Spec.endian) "writeComplex" (fun '(off, x, size, e) => [VInt I64 off; VAny (dyn x); VInt IInt size; VEndian e]) unit_ (fun '(off, x, size, e) => (V1Buffer.writeComplex off x size e));
  row (X := Z * Z) "read" (fun '(off, n) => [VInt I64 off; VInt I64 n]) VBytes (fun '(off, n) => (V1Buffer.read off n));
  row (X := Z * Z * Z * Spec.endian) "readComplex" (fun '(off, n, size, e) => [VInt I64 off; VInt I64 n; VInt IInt size; VEndian e]) any_ (fun '(off, n, size, e) => (V1Buffer.readComplex off n size e));
  row (X := Z * bool) "seek" (fun '(off, r) => [VInt I64 off; VBool r]) unit_ (fun '(off, r) => (V1Buffer.seek off r));
  row (X := list Z) "after" (fun off : list Z => [VInts I64 off]) (VInt I64) (fun off : list Z => (V1Buffer.after (hd_error off)));
  row (X := Z) "grow" (fun n : Z => [VInt I64 n]) unit_ (fun n : Z => (V1Buffer.grow pol n));
  row (X := unit) "refresh" (fun _ : unit => []) unit_ (fun _ : unit => V1Buffer.refresh);
  row (X := unit) "alignbit" (fun _ : unit => []) unit_ (fun _ : unit => V1Buffer.alignbit);
  row (X := unit) "alignbyte" (fun _ : unit => []) unit_ (fun _ : unit => V1Buffer.alignbyte);
  row (X := unit) "Bytes" (fun _ : unit => []) VBytes (fun _ : unit => V1Buffer.Bytes);
  row (X := unit) "Capacity" (fun _ : unit => []) (VInt I64) (fun _ : unit => V1Buffer.Capacity);
  row (X := unit) "BitCapacity" (fun _ : unit => []) (VInt I64) (fun _ : unit => V1Buffer.BitCapacity);
  row (X := unit) "Offset" (fun _ : unit => []) (VInt I64) (fun _ : unit => V1Buffer.Offset);
  row (X := unit) "BitOffset" (fun _ : unit => []) (VInt I64) (fun _ : unit => V1Buffer.BitOffset);
  row (X := unit) "Refresh" (fun _ : unit => []) unit_ (fun _ : unit => V1Buffer.Refresh);
  row (X := Z) "Grow" (fun n : Z => [VInt I64 n]) unit_ (fun n : Z => (V1Buffer.Grow pol n));
  row (X := Z * bool) "Seek" (fun '(off, r) => [VInt I64 off; VBool r]) unit_ (fun '(off, r) => (V1Buffer.Seek off r));
  row (X := Z * bool) "SeekBit" (fun '(off, r) => [VInt I64 off; VBool r]) unit_ (fun '(off, r) => (V1Buffer.SeekBit off r));
  row (X := unit) "AlignBit" (fun _ : unit => []) unit_ (fun _ : unit => V1Buffer.AlignBit);
  row (X := unit) "AlignByte" (fun _ : unit => []) unit_ (fun _ : unit => V1Buffer.AlignByte);
  row (X := list Z) "After" (fun off : list Z => [VInts I64 off]) (VInt I64) (fun off : list Z => (V1Buffer.After (hd_error off)));
  row (X := list Z) "AfterBit" (fun off : list Z => [VInts I64 off]) (VInt I64) (fun off : list Z => (V1Buffer.AfterBit (hd_error off)));
  row (X := Z) "ReadByte" (fun off : Z => [VInt I64 off]) (VInt U8) (fun off : Z => (V1Buffer.ReadByte off));
  row (X := Z * Z) "ReadBytes" (fun '(off, n) => [VInt I64 off; VInt I64 n]) VBytes (fun '(off, n) => (V1Buffer.ReadBytes off n));
  row (X := Z * Z * Z * Spec.endian) "ReadComplex" (fun '(off, n, size, e) => [VInt I64 off; VInt I64 n; VInt IInt size; VEndian e]) any_ (fun '(off, n, size, e) => (V1Buffer.ReadComplex off n size e));
  row (X := unit) "ReadByteNext" (fun _ : unit => []) (VInt U8) (fun _ : unit => V1Buffer.ReadByteNext);
  row (X := Z) "ReadBytesNext" (fun n : Z => [VInt I64 n]) VBytes (fun n : Z => (V1Buffer.ReadBytesNext n));
  row (X := Z * Z * Spec.endian) "ReadComplexNext" (fun '(n, size, e) => [VInt I64 n; VInt IInt size; VEndian e]) any_ (fun '(n, size, e) => (V1Buffer.ReadComplexNext n size e));
  row (X := Z * Z) "WriteByte" (fun '(off, data) => [VInt I64 off; VInt U8 data]) unit_ (fun '(off, data) => (V1Buffer.WriteByte off data));
  row (X := Z * slice) "WriteBytes" (fun '(off, data) => [VInt I64 off; VBytes data]) unit_ (fun '(off, data) => (V1Buffer.WriteBytes off data));
  row (X := Z * V1Buffer.idata * Z * Spec.endian) "WriteComplex" (fun '(off, x, size, e) => [VInt I64 off; VAny (dyn x); VInt IInt size; VEndian e]) unit_ (fun '(off, x, size, e) => (V1Buffer.WriteComplex off x size e));
  row (X := Z) "WriteByteNext" (fun data : Z => [VInt U8 data]) unit_ (fun data : Z => (V1Buffer.WriteByteNext data));
  row (X := slice) "WriteBytesNext" (fun data : slice => [VBytes data]) unit_ (fun data : slice => (V1Buffer.WriteBytesNext data));
  row (X := V1Buffer.idata * Z * Spec.endian) "WriteComplexNext" (fun '(x, size, e) => [VAny (dyn x); VInt IInt size; VEndian e]) unit_ (fun '(x, size, e) => (V1Buffer.WriteComplexNext x size e));
  row (X := Z) "ReadBit" (fun off : Z => [VInt I64 off]) (VInt U8) (fun off : Z => (V1Buffer.ReadBit off));
  row (X := Z * Z) "ReadBits" (fun '(off, n) => [VInt I64 off; VInt I64 n]) (VInt U64) (fun '(off, n) => (V1Buffer.ReadBits off n));
  row (X := unit) "ReadBitNext" (fun _ : unit => []) (VInt U8) (fun _ : unit => V1Buffer.ReadBitNext);
  row (X := Z) "ReadBitsNext" (fun n : Z => [VInt I64 n]) (VInt U64) (fun n : Z => (V1Buffer.ReadBitsNext n));
  row (X := Z * Z) "SetBit" (fun '(off, data) => [VInt I64 off; VInt U8 data]) unit_ (fun '(off, data) => (V1Buffer.SetBit off data));
  row (X := Z * Z * Z) "SetBits" (fun '(off, data, n) => [VInt I64 off; VInt U64 data; VInt I64 n]) unit_ (fun '(off, data, n) => (V1Buffer.SetBits off data n));
  row (X := Z) "SetBitNext" (fun data : Z => [VInt U8 data]) unit_ (fun data : Z => (V1Buffer.SetBitNext data));
  row (X := Z * Z) "SetBitsNext" (fun '(data, n) => [VInt U64 data; VInt I64 n]) unit_ (fun '(data, n) => (V1Buffer.SetBitsNext data n));
  row (X := Z) "FlipBit" (fun off : Z => [VInt I64 off]) unit_ (fun off : Z => (V1Buffer.FlipBit off));
  row (X := unit) "FlipBitNext" (fun _ : unit => []) unit_ (fun _ : unit => V1Buffer.FlipBitNext);
  row (X := unit) "ClearAllBits" (fun _ : unit => []) unit_ (fun _ : unit => V1Buffer.ClearAllBits);
  row (X := unit) "SetAllBits" (fun _ : unit => []) unit_ (fun _ : unit => V1Buffer.SetAllBits);
  row (X := unit) "FlipAllBits" (fun _ : unit => []) unit_ (fun _ : unit => V1Buffer.FlipAllBits)].
(** v1/minibuf.go *)
Definition v1_minibuf_table : list entry := [
  row_new "NewMiniBuffer" (fun slices => [VCell; VSlices slices]) (fun slices => (V1Mini.NewMiniBuffer pol slices));
  row (X := Z) "readbit" (fun off : Z => [VCell; VInt I64 off]) (VInt U8) (fun off : Z => (V1Mini.readbit off));
  row (X := Z * Z) "readbits" (fun '(off, n) => [VOutWord U64; VInt I64 off; VInt I64 n]) unit_ (fun '(off, n) => (V1Mini.readbits off n));
  row (X := Z * Z) "setbit" (fun '(off, data) => [VInt I64 off; VInt U8 data]) unit_ (fun '(off, data) => (V1Mini.setbit off data));
  row (X := Z * Z * Z) "setbits" (fun '(off, data, n) => [VInt I64 off; VInt U64 data; VInt I64 n]) unit_ (fun '(off, data, n) => (V1Mini.setbits off data n));
  row (X := Z) "flipbit" (fun off : Z => [VInt I64 off]) unit_ (fun off : Z => (V1Mini.flipbit off));
  row (X := unit) "clearallbits" (fun _ : unit => []) unit_ (fun _ : unit => V1Mini.clearallbits);
  row (X := unit) "setallbits" (fun _ : unit => []) unit_ (fun _ : unit => V1Mini.setallbits);
  row (X := unit) "flipallbits" (fun _ : unit => []) unit_ (fun _ : unit => V1Mini.flipallbits);
  row (X := Z * bool) "seekbit" (fun '(off, r) => [VInt I64 off; VBool r]) unit_ (fun '(off, r) => (V1Mini.seekbit off r));
  row (X := list Z) "afterbit" (fun off : list Z => [VCell; VInts I64 off]) (VInt I64) (fun off : list Z => (V1Mini.afterbit (hd_error off)));
  row (X := Z * slice) "write" (fun '(off, data) => [VInt I64 off; VBytes data]) unit_ (fun '(off, data) => (V1Mini.write off data));
  row (X := Z * V1Buffer.idata * Z * Spec.endian) "writeComplex" (fun '(off, x, size, e) => [VInt I64 off; VAny (dyn x); VInt IInt size; VEndian e]) unit_ (fun '(off, x, size, e) => (V1Mini.writeComplex off x size e));
  row (X := Z * Z) "read" (fun '(off, n) => [VCell; VInt I64 off; VInt I64 n]) VBytes (fun '(off, n) => (V1Mini.read off n));
  row (X := Z * Z * Z * Spec.endian) "readComplex" (fun '(off, n, size, e) => [VCell; VInt I64 off; VInt I64 n; VInt IInt size; VEndian e]) any_ (fun '(off, n, size, e) => (V1Mini.readComplex off n size e));
  row (X := Z * bool) "seek" (fun '(off, r) => [VInt I64 off; VBool r]) unit_ (fun '(off, r) => (V1Mini.seek off r));
  row (X := list Z) "after" (fun off : list Z => [VCell; VInts I64 off]) (VInt I64) (fun off : list Z => (V1Mini.after (hd_error off)));
  row (X := Z) "grow" (fun n : Z => [VInt I64 n]) unit_ (fun n : Z => (V1Mini.grow pol n));
  row (X := unit) "refresh" (fun _ : unit => []) unit_ (fun _ : unit => V1Mini.refresh);
  row (X := unit) "alignbit" (fun _ : unit => []) unit_ (fun _ : unit => V1Mini.alignbit);
  row (X := unit) "alignbyte" (fun _ : unit => []) unit_ (fun _ : unit => V1Mini.alignbyte);
  row (X := unit) "Bytes" (fun _ : unit => [VCell]) VBytes (fun _ : unit => V1Mini.Bytes);
  row (X := unit) "Capacity" (fun _ : unit => [VCell]) (VInt I64) (fun _ : unit => V1Mini.Capacity);
  row (X := unit) "BitCapacity" (fun _ : unit => [VCell]) (VInt I64) (fun _ : unit => V1Mini.BitCapacity);
  row (X := unit) "Offset" (fun _ : unit => [VCell]) (VInt I64) (fun _ : unit => V1Mini.Offset);
  row (X := unit) "BitOffset" (fun _ : unit => [VCell]) (VInt I64) (fun _ : unit => V1Mini.BitOffset);
  row (X := unit) "Refresh" (fun _ : unit => []) unit_ (fun _ : unit => V1Mini.Refresh);
  row (X := Z) "Grow" (fun n : Z => [VInt I64 n]) unit_ (fun n : Z => (V1Mini.Grow pol n));
  row (X := Z * bool) "Seek" (fun '(off, r) => [VInt I64 off; VBool r]) unit_ (fun '(off, r) => (V1Mini.Seek off r));
  row (X := Z * bool) "SeekBit" (fun '(off, r) => [VInt I64 off; VBool r]) unit_ (fun '(off, r) => (V1Mini.SeekBit off r));
  row (X := unit) "AlignBit" (fun _ : unit => []) unit_ (fun _ : unit => V1Mini.AlignBit);
  row (X := unit) "AlignByte" (fun _ : unit => []) unit_ (fun _ : unit => V1Mini.AlignByte);
  row (X := list Z) "After" (fun off : list Z => [VCell; VInts I64 off]) (VInt I64) (fun off : list Z => (V1Mini.After (hd_error off)));
  row (X := list Z) "AfterBit" (fun off : list Z => [VCell; VInts I64 off]) (VInt I64) (fun off : list Z => (V1Mini.AfterBit (hd_error off)));
  row (X := Z * Z) "ReadBytes" (fun '(off, n) => [VCell; VInt I64 off; VInt I64 n]) VBytes (fun '(off, n) => (V1Mini.ReadBytes off n));
  row (X := Z * Z * Z * Spec.endian) "ReadComplex" (fun '(off, n, size, e) => [VCell; VInt I64 off; VInt I64 n; VInt IInt size; VEndian e]) any_ (fun '(off, n, size, e) => (V1Mini.ReadComplex off n size e));
  row (X := Z) "ReadBytesNext" (fun n : Z => [VCell; VInt I64 n]) VBytes (fun n : Z => (V1Mini.ReadBytesNext n));
  row (X := Z * Z * Spec.endian) "ReadComplexNext" (fun '(n, size, e) => [VCell; VInt I64 n; VInt IInt size; VEndian e]) any_ (fun '(n, size, e) => (V1Mini.ReadComplexNext n size e));
  row (X := Z * slice) "WriteBytes" (fun '(off, data) => [VInt I64 off; VBytes data]) unit_ (fun '(off, data) => (V1Mini.WriteBytes off data));
  row (X := Z * V1Buffer.idata * Z * Spec.endian) "WriteComplex" (fun '(off, x, size, e) => [VInt I64 off; VAny (dyn x); VInt IInt size; VEndian e]) unit_ (fun '(off, x, size, e) => (V1Mini.WriteComplex off x size e));
  row (X := slice) "WriteBytesNext" (fun data : slice => [VBytes data]) unit_ (fun data : slice => (V1Mini.WriteBytesNext data));
  row (X := V1Buffer.idata * Z * Spec.endian) "WriteComplexNext" (fun '(x, size, e) => [VAny (dyn x); VInt IInt size; VEndian e]) unit_ (fun '(x, size, e) => (V1Mini.WriteComplexNext x size e));
  row (X := Z) "ReadBit" (fun off : Z => [VCell; VInt I64 off]) (VInt U8) (fun off : Z => (V1Mini.ReadBit off));
  row (X := Z * Z) "ReadBits" (fun '(off, n) => [VOutWord U64; VInt I64 off; VInt I64 n]) unit_ (fun '(off, n) => (V1Mini.ReadBits off n));
  row (X := unit) "ReadBitNext" (fun _ : unit => [VCell]) (VInt U8) (fun _ : unit => V1Mini.ReadBitNext);
  row (X := Z) "ReadBitsNext" (fun n : Z => [VOutWord U64; VInt I64 n]) unit_ (fun n : Z => (V1Mini.ReadBitsNext n));
  row (X := Z * Z) "SetBit" (fun '(off, data) => [VInt I64 off; VInt U8 data]) unit_ (fun '(off, data) => (V1Mini.SetBit off data));
  row (X := Z * Z * Z) "SetBits" (fun '(off, data, n) => [VInt I64 off; VInt U64 data; VInt I64 n]) unit_ (fun '(off, data, n) => (V1Mini.SetBits off data n));
  row (X := Z) "SetBitNext" (fun data : Z => [VInt U8 data]) unit_ (fun data : Z => (V1Mini.SetBitNext data));
  row (X := Z * Z) "SetBitsNext" (fun '(data, n) => [VInt U64 data; VInt I64 n]) unit_ (fun '(data, n) => (V1Mini.SetBitsNext data n));
  row (X := Z) "FlipBit" (fun off : Z => [VInt I64 off]) unit_ (fun off : Z => (V1Mini.FlipBit off));
  row (X := unit) "FlipBitNext" (fun _ : unit => []) unit_ (fun _ : unit => V1Mini.FlipBitNext);
  row (X := unit) "ClearAllBits" (fun _ : unit => []) unit_ (fun _ : unit => V1Mini.ClearAllBits);
  row (X := unit) "SetAllBits" (fun _ : unit => []) unit_ (fun _ : unit => V1Mini.SetAllBits);
  row (X := unit) "FlipAllBits" (fun _ : unit => []) unit_ (fun _ : unit => V1Mini.FlipAllBits)].
End Tables.
