(** * FrontV3Typed: the models of the integer and float methods of the v3 [Buffer]
    are what the Go text means.  Written by tools/gen_front.py. *)
From Coq Require Import ZArith List Bool String.
From Verif Require Import GoSem GoLex GoParse GoEval Conv Front V3Buffer V3BufferTyped FrontV3.
Import ListNotations.
Open Scope Z_scope.

Section Typed.
Variable pol : Z -> Z -> Z.
#[local] Hint Resolve SeekByte_text : text.
Lemma WriteU16LE_text off data : text_of B3 pol "WriteU16LE" [VInt I64 off; VInts U16 data] unit_ (WriteU16LE off data).
Proof. text WriteU16LE. loop_i. Qed.
#[local] Hint Resolve WriteU16LE_text : text.
Lemma WriteU16LENext_text data : text_of B3 pol "WriteU16LENext" [VInts U16 data] unit_ (WriteU16LENext data).
Proof. text WriteU16LENext. Qed.
Lemma WriteU16BE_text off data : text_of B3 pol "WriteU16BE" [VInt I64 off; VInts U16 data] unit_ (WriteU16BE off data).
Proof. text WriteU16BE. loop_i. Qed.
#[local] Hint Resolve WriteU16BE_text : text.
Lemma WriteU16BENext_text data : text_of B3 pol "WriteU16BENext" [VInts U16 data] unit_ (WriteU16BENext data).
Proof. text WriteU16BENext. Qed.
Lemma WriteU32LE_text off data : text_of B3 pol "WriteU32LE" [VInt I64 off; VInts U32 data] unit_ (WriteU32LE off data).
Proof. text WriteU32LE. loop_i. Qed.
#[local] Hint Resolve WriteU32LE_text : text.
Lemma WriteU32LENext_text data : text_of B3 pol "WriteU32LENext" [VInts U32 data] unit_ (WriteU32LENext data).
Proof. text WriteU32LENext. Qed.
Lemma WriteU32BE_text off data : text_of B3 pol "WriteU32BE" [VInt I64 off; VInts U32 data] unit_ (WriteU32BE off data).
Proof. text WriteU32BE. loop_i. Qed.
#[local] Hint Resolve WriteU32BE_text : text.
Lemma WriteU32BENext_text data : text_of B3 pol "WriteU32BENext" [VInts U32 data] unit_ (WriteU32BENext data).
Proof. text WriteU32BENext. Qed.
Lemma WriteU64LE_text off data : text_of B3 pol "WriteU64LE" [VInt I64 off; VInts U64 data] unit_ (WriteU64LE off data).
Proof. text WriteU64LE. loop_i. Qed.
#[local] Hint Resolve WriteU64LE_text : text.
Lemma WriteU64LENext_text data : text_of B3 pol "WriteU64LENext" [VInts U64 data] unit_ (WriteU64LENext data).
Proof. text WriteU64LENext. Qed.
Lemma WriteU64BE_text off data : text_of B3 pol "WriteU64BE" [VInt I64 off; VInts U64 data] unit_ (WriteU64BE off data).
Proof. text WriteU64BE. loop_i. Qed.
#[local] Hint Resolve WriteU64BE_text : text.
Lemma WriteU64BENext_text data : text_of B3 pol "WriteU64BENext" [VInts U64 data] unit_ (WriteU64BENext data).
Proof. text WriteU64BENext. Qed.
Lemma WriteI16LE_text off data : text_of B3 pol "WriteI16LE" [VInt I64 off; VInts I16 data] unit_ (WriteI16LE off data).
Proof. text WriteI16LE. loop_i. Qed.
#[local] Hint Resolve WriteI16LE_text : text.
Lemma WriteI16LENext_text data : text_of B3 pol "WriteI16LENext" [VInts I16 data] unit_ (WriteI16LENext data).
Proof. text WriteI16LENext. Qed.
Lemma WriteI16BE_text off data : text_of B3 pol "WriteI16BE" [VInt I64 off; VInts I16 data] unit_ (WriteI16BE off data).
Proof. text WriteI16BE. loop_i. Qed.
#[local] Hint Resolve WriteI16BE_text : text.
Lemma WriteI16BENext_text data : text_of B3 pol "WriteI16BENext" [VInts I16 data] unit_ (WriteI16BENext data).
Proof. text WriteI16BENext. Qed.
Lemma WriteI32LE_text off data : text_of B3 pol "WriteI32LE" [VInt I64 off; VInts I32 data] unit_ (WriteI32LE off data).
Proof. text WriteI32LE. loop_i. Qed.
#[local] Hint Resolve WriteI32LE_text : text.
Lemma WriteI32LENext_text data : text_of B3 pol "WriteI32LENext" [VInts I32 data] unit_ (WriteI32LENext data).
Proof. text WriteI32LENext. Qed.
Lemma WriteI32BE_text off data : text_of B3 pol "WriteI32BE" [VInt I64 off; VInts I32 data] unit_ (WriteI32BE off data).
Proof. text WriteI32BE. loop_i. Qed.
#[local] Hint Resolve WriteI32BE_text : text.
Lemma WriteI32BENext_text data : text_of B3 pol "WriteI32BENext" [VInts I32 data] unit_ (WriteI32BENext data).
Proof. text WriteI32BENext. Qed.
Lemma WriteI64LE_text off data : text_of B3 pol "WriteI64LE" [VInt I64 off; VInts I64 data] unit_ (WriteI64LE off data).
Proof. text WriteI64LE. loop_i. Qed.
#[local] Hint Resolve WriteI64LE_text : text.
Lemma WriteI64LENext_text data : text_of B3 pol "WriteI64LENext" [VInts I64 data] unit_ (WriteI64LENext data).
Proof. text WriteI64LENext. Qed.
Lemma WriteI64BE_text off data : text_of B3 pol "WriteI64BE" [VInt I64 off; VInts I64 data] unit_ (WriteI64BE off data).
Proof. text WriteI64BE. loop_i. Qed.
#[local] Hint Resolve WriteI64BE_text : text.
Lemma WriteI64BENext_text data : text_of B3 pol "WriteI64BENext" [VInts I64 data] unit_ (WriteI64BENext data).
Proof. text WriteI64BENext. Qed.
Lemma WriteF32LE_text off data : text_of B3 pol "WriteF32LE" [VInt I64 off; VInts F32 data] unit_ (WriteF32LE off data).
Proof. text WriteF32LE. loop_i. Qed.
#[local] Hint Resolve WriteF32LE_text : text.
Lemma WriteF32LENext_text data : text_of B3 pol "WriteF32LENext" [VInts F32 data] unit_ (WriteF32LENext data).
Proof. text WriteF32LENext. Qed.
Lemma WriteF32BE_text off data : text_of B3 pol "WriteF32BE" [VInt I64 off; VInts F32 data] unit_ (WriteF32BE off data).
Proof. text WriteF32BE. loop_i. Qed.
#[local] Hint Resolve WriteF32BE_text : text.
Lemma WriteF32BENext_text data : text_of B3 pol "WriteF32BENext" [VInts F32 data] unit_ (WriteF32BENext data).
Proof. text WriteF32BENext. Qed.
Lemma WriteF64LE_text off data : text_of B3 pol "WriteF64LE" [VInt I64 off; VInts F64 data] unit_ (WriteF64LE off data).
Proof. text WriteF64LE. loop_i. Qed.
#[local] Hint Resolve WriteF64LE_text : text.
Lemma WriteF64LENext_text data : text_of B3 pol "WriteF64LENext" [VInts F64 data] unit_ (WriteF64LENext data).
Proof. text WriteF64LENext. Qed.
Lemma WriteF64BE_text off data : text_of B3 pol "WriteF64BE" [VInt I64 off; VInts F64 data] unit_ (WriteF64BE off data).
Proof. text WriteF64BE. loop_i. Qed.
#[local] Hint Resolve WriteF64BE_text : text.
Lemma WriteF64BENext_text data : text_of B3 pol "WriteF64BENext" [VInts F64 data] unit_ (WriteF64BENext data).
Proof. text WriteF64BENext. Qed.
Lemma ReadU16LE_text off n : text_of B3 pol "ReadU16LE" [VInt I64 off; VInt I64 n] (VInts U16) (ReadU16LE off n).
Proof. text ReadU16LE. loop_out. Qed.
#[local] Hint Resolve ReadU16LE_text : text.
Lemma ReadU16LENext_text n : text_of B3 pol "ReadU16LENext" [VInt I64 n] (VInts U16) (ReadU16LENext n).
Proof. text ReadU16LENext. Qed.
Lemma ReadU16BE_text off n : text_of B3 pol "ReadU16BE" [VInt I64 off; VInt I64 n] (VInts U16) (ReadU16BE off n).
Proof. text ReadU16BE. loop_out. Qed.
#[local] Hint Resolve ReadU16BE_text : text.
Lemma ReadU16BENext_text n : text_of B3 pol "ReadU16BENext" [VInt I64 n] (VInts U16) (ReadU16BENext n).
Proof. text ReadU16BENext. Qed.
Lemma ReadU32LE_text off n : text_of B3 pol "ReadU32LE" [VInt I64 off; VInt I64 n] (VInts U32) (ReadU32LE off n).
Proof. text ReadU32LE. loop_out. Qed.
#[local] Hint Resolve ReadU32LE_text : text.
Lemma ReadU32LENext_text n : text_of B3 pol "ReadU32LENext" [VInt I64 n] (VInts U32) (ReadU32LENext n).
Proof. text ReadU32LENext. Qed.
Lemma ReadU32BE_text off n : text_of B3 pol "ReadU32BE" [VInt I64 off; VInt I64 n] (VInts U32) (ReadU32BE off n).
Proof. text ReadU32BE. loop_out. Qed.
#[local] Hint Resolve ReadU32BE_text : text.
Lemma ReadU32BENext_text n : text_of B3 pol "ReadU32BENext" [VInt I64 n] (VInts U32) (ReadU32BENext n).
Proof. text ReadU32BENext. Qed.
Lemma ReadU64LE_text off n : text_of B3 pol "ReadU64LE" [VInt I64 off; VInt I64 n] (VInts U64) (ReadU64LE off n).
Proof. text ReadU64LE. loop_out. Qed.
#[local] Hint Resolve ReadU64LE_text : text.
Lemma ReadU64LENext_text n : text_of B3 pol "ReadU64LENext" [VInt I64 n] (VInts U64) (ReadU64LENext n).
Proof. text ReadU64LENext. Qed.
Lemma ReadU64BE_text off n : text_of B3 pol "ReadU64BE" [VInt I64 off; VInt I64 n] (VInts U64) (ReadU64BE off n).
Proof. text ReadU64BE. loop_out. Qed.
#[local] Hint Resolve ReadU64BE_text : text.
Lemma ReadU64BENext_text n : text_of B3 pol "ReadU64BENext" [VInt I64 n] (VInts U64) (ReadU64BENext n).
Proof. text ReadU64BENext. Qed.
Lemma ReadI16LE_text off n : text_of B3 pol "ReadI16LE" [VInt I64 off; VInt I64 n] (VInts I16) (ReadI16LE off n).
Proof. text ReadI16LE. loop_out. Qed.
#[local] Hint Resolve ReadI16LE_text : text.
Lemma ReadI16LENext_text n : text_of B3 pol "ReadI16LENext" [VInt I64 n] (VInts I16) (ReadI16LENext n).
Proof. text ReadI16LENext. Qed.
Lemma ReadI16BE_text off n : text_of B3 pol "ReadI16BE" [VInt I64 off; VInt I64 n] (VInts I16) (ReadI16BE off n).
Proof. text ReadI16BE. loop_out. Qed.
#[local] Hint Resolve ReadI16BE_text : text.
Lemma ReadI16BENext_text n : text_of B3 pol "ReadI16BENext" [VInt I64 n] (VInts I16) (ReadI16BENext n).
Proof. text ReadI16BENext. Qed.
Lemma ReadI32LE_text off n : text_of B3 pol "ReadI32LE" [VInt I64 off; VInt I64 n] (VInts I32) (ReadI32LE off n).
Proof. text ReadI32LE. loop_out. Qed.
#[local] Hint Resolve ReadI32LE_text : text.
Lemma ReadI32LENext_text n : text_of B3 pol "ReadI32LENext" [VInt I64 n] (VInts I32) (ReadI32LENext n).
Proof. text ReadI32LENext. Qed.
Lemma ReadI32BE_text off n : text_of B3 pol "ReadI32BE" [VInt I64 off; VInt I64 n] (VInts I32) (ReadI32BE off n).
Proof. text ReadI32BE. loop_out. Qed.
#[local] Hint Resolve ReadI32BE_text : text.
Lemma ReadI32BENext_text n : text_of B3 pol "ReadI32BENext" [VInt I64 n] (VInts I32) (ReadI32BENext n).
Proof. text ReadI32BENext. Qed.
Lemma ReadI64LE_text off n : text_of B3 pol "ReadI64LE" [VInt I64 off; VInt I64 n] (VInts I64) (ReadI64LE off n).
Proof. text ReadI64LE. loop_out. Qed.
#[local] Hint Resolve ReadI64LE_text : text.
Lemma ReadI64LENext_text n : text_of B3 pol "ReadI64LENext" [VInt I64 n] (VInts I64) (ReadI64LENext n).
Proof. text ReadI64LENext. Qed.
Lemma ReadI64BE_text off n : text_of B3 pol "ReadI64BE" [VInt I64 off; VInt I64 n] (VInts I64) (ReadI64BE off n).
Proof. text ReadI64BE. loop_out. Qed.
#[local] Hint Resolve ReadI64BE_text : text.
Lemma ReadI64BENext_text n : text_of B3 pol "ReadI64BENext" [VInt I64 n] (VInts I64) (ReadI64BENext n).
Proof. text ReadI64BENext. Qed.
Lemma ReadF32LE_text off n : text_of B3 pol "ReadF32LE" [VInt I64 off; VInt I64 n] (VInts F32) (ReadF32LE off n).
Proof. text ReadF32LE. loop_out_u. Qed.
#[local] Hint Resolve ReadF32LE_text : text.
Lemma ReadF32LENext_text n : text_of B3 pol "ReadF32LENext" [VInt I64 n] (VInts F32) (ReadF32LENext n).
Proof. text ReadF32LENext. Qed.
Lemma ReadF32BE_text off n : text_of B3 pol "ReadF32BE" [VInt I64 off; VInt I64 n] (VInts F32) (ReadF32BE off n).
Proof. text ReadF32BE. loop_out_u. Qed.
#[local] Hint Resolve ReadF32BE_text : text.
Lemma ReadF32BENext_text n : text_of B3 pol "ReadF32BENext" [VInt I64 n] (VInts F32) (ReadF32BENext n).
Proof. text ReadF32BENext. Qed.
Lemma ReadF64LE_text off n : text_of B3 pol "ReadF64LE" [VInt I64 off; VInt I64 n] (VInts F64) (ReadF64LE off n).
Proof. text ReadF64LE. loop_out_u. Qed.
#[local] Hint Resolve ReadF64LE_text : text.
Lemma ReadF64LENext_text n : text_of B3 pol "ReadF64LENext" [VInt I64 n] (VInts F64) (ReadF64LENext n).
Proof. text ReadF64LENext. Qed.
Lemma ReadF64BE_text off n : text_of B3 pol "ReadF64BE" [VInt I64 off; VInt I64 n] (VInts F64) (ReadF64BE off n).
Proof. text ReadF64BE. loop_out_u. Qed.
#[local] Hint Resolve ReadF64BE_text : text.
Lemma ReadF64BENext_text n : text_of B3 pol "ReadF64BENext" [VInt I64 n] (VInts F64) (ReadF64BENext n).
Proof. text ReadF64BENext. Qed.
End Typed.
