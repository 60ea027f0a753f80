(** * Typed: the typed methods indexed by their format.

    [WriteT U16LE] is [WriteU16LE] and so on: pure dispatch, so that one
    statement covers the 16 transcribed functions of a family. *)
From Coq Require Import ZArith List.
From Verif Require Import GoSem Spec.
From Verif Require V3BufferTyped V3MiniTyped.
Open Scope Z_scope.

(** ** v3 Buffer (v3/buffer.generated.go:403-942, 995-1510) *)

Definition WriteT (t : numty) : Z -> list Z -> prog unit :=
  match t with
  | U16LE => V3BufferTyped.WriteU16LE | U16BE => V3BufferTyped.WriteU16BE
  | U32LE => V3BufferTyped.WriteU32LE | U32BE => V3BufferTyped.WriteU32BE
  | U64LE => V3BufferTyped.WriteU64LE | U64BE => V3BufferTyped.WriteU64BE
  | I16LE => V3BufferTyped.WriteI16LE | I16BE => V3BufferTyped.WriteI16BE
  | I32LE => V3BufferTyped.WriteI32LE | I32BE => V3BufferTyped.WriteI32BE
  | I64LE => V3BufferTyped.WriteI64LE | I64BE => V3BufferTyped.WriteI64BE
  | F32LE => V3BufferTyped.WriteF32LE | F32BE => V3BufferTyped.WriteF32BE
  | F64LE => V3BufferTyped.WriteF64LE | F64BE => V3BufferTyped.WriteF64BE
  end.

Definition WriteTNext (t : numty) : list Z -> prog unit :=
  match t with
  | U16LE => V3BufferTyped.WriteU16LENext | U16BE => V3BufferTyped.WriteU16BENext
  | U32LE => V3BufferTyped.WriteU32LENext | U32BE => V3BufferTyped.WriteU32BENext
  | U64LE => V3BufferTyped.WriteU64LENext | U64BE => V3BufferTyped.WriteU64BENext
  | I16LE => V3BufferTyped.WriteI16LENext | I16BE => V3BufferTyped.WriteI16BENext
  | I32LE => V3BufferTyped.WriteI32LENext | I32BE => V3BufferTyped.WriteI32BENext
  | I64LE => V3BufferTyped.WriteI64LENext | I64BE => V3BufferTyped.WriteI64BENext
  | F32LE => V3BufferTyped.WriteF32LENext | F32BE => V3BufferTyped.WriteF32BENext
  | F64LE => V3BufferTyped.WriteF64LENext | F64BE => V3BufferTyped.WriteF64BENext
  end.

Definition ReadT (t : numty) : Z -> Z -> prog (list Z) :=
  match t with
  | U16LE => V3BufferTyped.ReadU16LE | U16BE => V3BufferTyped.ReadU16BE
  | U32LE => V3BufferTyped.ReadU32LE | U32BE => V3BufferTyped.ReadU32BE
  | U64LE => V3BufferTyped.ReadU64LE | U64BE => V3BufferTyped.ReadU64BE
  | I16LE => V3BufferTyped.ReadI16LE | I16BE => V3BufferTyped.ReadI16BE
  | I32LE => V3BufferTyped.ReadI32LE | I32BE => V3BufferTyped.ReadI32BE
  | I64LE => V3BufferTyped.ReadI64LE | I64BE => V3BufferTyped.ReadI64BE
  | F32LE => V3BufferTyped.ReadF32LE | F32BE => V3BufferTyped.ReadF32BE
  | F64LE => V3BufferTyped.ReadF64LE | F64BE => V3BufferTyped.ReadF64BE
  end.

Definition ReadTNext (t : numty) : Z -> prog (list Z) :=
  match t with
  | U16LE => V3BufferTyped.ReadU16LENext | U16BE => V3BufferTyped.ReadU16BENext
  | U32LE => V3BufferTyped.ReadU32LENext | U32BE => V3BufferTyped.ReadU32BENext
  | U64LE => V3BufferTyped.ReadU64LENext | U64BE => V3BufferTyped.ReadU64BENext
  | I16LE => V3BufferTyped.ReadI16LENext | I16BE => V3BufferTyped.ReadI16BENext
  | I32LE => V3BufferTyped.ReadI32LENext | I32BE => V3BufferTyped.ReadI32BENext
  | I64LE => V3BufferTyped.ReadI64LENext | I64BE => V3BufferTyped.ReadI64BENext
  | F32LE => V3BufferTyped.ReadF32LENext | F32BE => V3BufferTyped.ReadF32BENext
  | F64LE => V3BufferTyped.ReadF64LENext | F64BE => V3BufferTyped.ReadF64BENext
  end.

(** ** v3 MiniBuffer (v3/minibuf.generated.go:325-768, 790-1161) *)

Definition MiniWriteT (t : numty) : Z -> list Z -> prog unit :=
  match t with
  | U16LE => V3MiniTyped.WriteU16LE | U16BE => V3MiniTyped.WriteU16BE
  | U32LE => V3MiniTyped.WriteU32LE | U32BE => V3MiniTyped.WriteU32BE
  | U64LE => V3MiniTyped.WriteU64LE | U64BE => V3MiniTyped.WriteU64BE
  | I16LE => V3MiniTyped.WriteI16LE | I16BE => V3MiniTyped.WriteI16BE
  | I32LE => V3MiniTyped.WriteI32LE | I32BE => V3MiniTyped.WriteI32BE
  | I64LE => V3MiniTyped.WriteI64LE | I64BE => V3MiniTyped.WriteI64BE
  | F32LE => V3MiniTyped.WriteF32LE | F32BE => V3MiniTyped.WriteF32BE
  | F64LE => V3MiniTyped.WriteF64LE | F64BE => V3MiniTyped.WriteF64BE
  end.

Definition MiniWriteTNext (t : numty) : list Z -> prog unit :=
  match t with
  | U16LE => V3MiniTyped.WriteU16LENext | U16BE => V3MiniTyped.WriteU16BENext
  | U32LE => V3MiniTyped.WriteU32LENext | U32BE => V3MiniTyped.WriteU32BENext
  | U64LE => V3MiniTyped.WriteU64LENext | U64BE => V3MiniTyped.WriteU64BENext
  | I16LE => V3MiniTyped.WriteI16LENext | I16BE => V3MiniTyped.WriteI16BENext
  | I32LE => V3MiniTyped.WriteI32LENext | I32BE => V3MiniTyped.WriteI32BENext
  | I64LE => V3MiniTyped.WriteI64LENext | I64BE => V3MiniTyped.WriteI64BENext
  | F32LE => V3MiniTyped.WriteF32LENext | F32BE => V3MiniTyped.WriteF32BENext
  | F64LE => V3MiniTyped.WriteF64LENext | F64BE => V3MiniTyped.WriteF64BENext
  end.

Definition MiniReadT (t : numty) : Z -> Z -> prog unit :=
  match t with
  | U16LE => V3MiniTyped.ReadU16LE | U16BE => V3MiniTyped.ReadU16BE
  | U32LE => V3MiniTyped.ReadU32LE | U32BE => V3MiniTyped.ReadU32BE
  | U64LE => V3MiniTyped.ReadU64LE | U64BE => V3MiniTyped.ReadU64BE
  | I16LE => V3MiniTyped.ReadI16LE | I16BE => V3MiniTyped.ReadI16BE
  | I32LE => V3MiniTyped.ReadI32LE | I32BE => V3MiniTyped.ReadI32BE
  | I64LE => V3MiniTyped.ReadI64LE | I64BE => V3MiniTyped.ReadI64BE
  | F32LE => V3MiniTyped.ReadF32LE | F32BE => V3MiniTyped.ReadF32BE
  | F64LE => V3MiniTyped.ReadF64LE | F64BE => V3MiniTyped.ReadF64BE
  end.

Definition MiniReadTNext (t : numty) : Z -> prog unit :=
  match t with
  | U16LE => V3MiniTyped.ReadU16LENext | U16BE => V3MiniTyped.ReadU16BENext
  | U32LE => V3MiniTyped.ReadU32LENext | U32BE => V3MiniTyped.ReadU32BENext
  | U64LE => V3MiniTyped.ReadU64LENext | U64BE => V3MiniTyped.ReadU64BENext
  | I16LE => V3MiniTyped.ReadI16LENext | I16BE => V3MiniTyped.ReadI16BENext
  | I32LE => V3MiniTyped.ReadI32LENext | I32BE => V3MiniTyped.ReadI32BENext
  | I64LE => V3MiniTyped.ReadI64LENext | I64BE => V3MiniTyped.ReadI64BENext
  | F32LE => V3MiniTyped.ReadF32LENext | F32BE => V3MiniTyped.ReadF32BENext
  | F64LE => V3MiniTyped.ReadF64LENext | F64BE => V3MiniTyped.ReadF64BENext
  end.

