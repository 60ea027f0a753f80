(** * FrontV2Typed: the models of the integer and float methods of the v2 [Buffer]
    are what the Go text means.  Written by tools/gen_front.py. *)
From Coq Require Import ZArith List Bool String.
From Verif Require Import GoSem GoLex GoParse GoEval Conv Front V2Buffer V2BufferTyped FrontV2.
Import ListNotations.
Open Scope Z_scope.

Section Typed.
Variable pol : Z -> Z -> Z.
#[local] Hint Resolve seek_text : text.
Lemma writeU16LE_text off data : text_of B2 pol "writeU16LE" [VInt I64 off; VInts U16 data] unit_ (writeU16LE off data).
Proof. text writeU16LE. loop_i. Qed.
#[local] Hint Resolve writeU16LE_text : text.
Lemma WriteU16LE_text off data : text_of B2 pol "WriteU16LE" [VInt I64 off; VInts U16 data] unit_ (WriteU16LE off data).
Proof. text WriteU16LE. Qed.
#[local] Hint Resolve WriteU16LE_text : text.
Lemma WriteU16LENext_text data : text_of B2 pol "WriteU16LENext" [VInts U16 data] unit_ (WriteU16LENext data).
Proof. text WriteU16LENext. Qed.
#[local] Hint Resolve WriteU16LENext_text : text.
Lemma writeU16BE_text off data : text_of B2 pol "writeU16BE" [VInt I64 off; VInts U16 data] unit_ (writeU16BE off data).
Proof. text writeU16BE. loop_i. Qed.
#[local] Hint Resolve writeU16BE_text : text.
Lemma WriteU16BE_text off data : text_of B2 pol "WriteU16BE" [VInt I64 off; VInts U16 data] unit_ (WriteU16BE off data).
Proof. text WriteU16BE. Qed.
#[local] Hint Resolve WriteU16BE_text : text.
Lemma WriteU16BENext_text data : text_of B2 pol "WriteU16BENext" [VInts U16 data] unit_ (WriteU16BENext data).
Proof. text WriteU16BENext. Qed.
#[local] Hint Resolve WriteU16BENext_text : text.
Lemma writeU32LE_text off data : text_of B2 pol "writeU32LE" [VInt I64 off; VInts U32 data] unit_ (writeU32LE off data).
Proof. text writeU32LE. loop_i. Qed.
#[local] Hint Resolve writeU32LE_text : text.
Lemma WriteU32LE_text off data : text_of B2 pol "WriteU32LE" [VInt I64 off; VInts U32 data] unit_ (WriteU32LE off data).
Proof. text WriteU32LE. Qed.
#[local] Hint Resolve WriteU32LE_text : text.
Lemma WriteU32LENext_text data : text_of B2 pol "WriteU32LENext" [VInts U32 data] unit_ (WriteU32LENext data).
Proof. text WriteU32LENext. Qed.
#[local] Hint Resolve WriteU32LENext_text : text.
Lemma writeU32BE_text off data : text_of B2 pol "writeU32BE" [VInt I64 off; VInts U32 data] unit_ (writeU32BE off data).
Proof. text writeU32BE. loop_i. Qed.
#[local] Hint Resolve writeU32BE_text : text.
Lemma WriteU32BE_text off data : text_of B2 pol "WriteU32BE" [VInt I64 off; VInts U32 data] unit_ (WriteU32BE off data).
Proof. text WriteU32BE. Qed.
#[local] Hint Resolve WriteU32BE_text : text.
Lemma WriteU32BENext_text data : text_of B2 pol "WriteU32BENext" [VInts U32 data] unit_ (WriteU32BENext data).
Proof. text WriteU32BENext. Qed.
#[local] Hint Resolve WriteU32BENext_text : text.
Lemma writeU64LE_text off data : text_of B2 pol "writeU64LE" [VInt I64 off; VInts U64 data] unit_ (writeU64LE off data).
Proof. text writeU64LE. loop_i. Qed.
#[local] Hint Resolve writeU64LE_text : text.
Lemma WriteU64LE_text off data : text_of B2 pol "WriteU64LE" [VInt I64 off; VInts U64 data] unit_ (WriteU64LE off data).
Proof. text WriteU64LE. Qed.
#[local] Hint Resolve WriteU64LE_text : text.
Lemma WriteU64LENext_text data : text_of B2 pol "WriteU64LENext" [VInts U64 data] unit_ (WriteU64LENext data).
Proof. text WriteU64LENext. Qed.
#[local] Hint Resolve WriteU64LENext_text : text.
Lemma writeU64BE_text off data : text_of B2 pol "writeU64BE" [VInt I64 off; VInts U64 data] unit_ (writeU64BE off data).
Proof. text writeU64BE. loop_i. Qed.
#[local] Hint Resolve writeU64BE_text : text.
Lemma WriteU64BE_text off data : text_of B2 pol "WriteU64BE" [VInt I64 off; VInts U64 data] unit_ (WriteU64BE off data).
Proof. text WriteU64BE. Qed.
#[local] Hint Resolve WriteU64BE_text : text.
Lemma WriteU64BENext_text data : text_of B2 pol "WriteU64BENext" [VInts U64 data] unit_ (WriteU64BENext data).
Proof. text WriteU64BENext. Qed.
#[local] Hint Resolve WriteU64BENext_text : text.
Lemma readU16LE_text off n : text_of B2 pol "readU16LE" [VInt I64 off; VInt I64 n] (VInts U16) (readU16LE off n).
Proof. text readU16LE. loop_out. Qed.
#[local] Hint Resolve readU16LE_text : text.
Lemma ReadU16LE_text off n : text_of B2 pol "ReadU16LE" [VInt I64 off; VInt I64 n] (VInts U16) (ReadU16LE off n).
Proof. text ReadU16LE. Qed.
#[local] Hint Resolve ReadU16LE_text : text.
Lemma ReadU16LENext_text n : text_of B2 pol "ReadU16LENext" [VInt I64 n] (VInts U16) (ReadU16LENext n).
Proof. text ReadU16LENext. Qed.
#[local] Hint Resolve ReadU16LENext_text : text.
Lemma readU16BE_text off n : text_of B2 pol "readU16BE" [VInt I64 off; VInt I64 n] (VInts U16) (readU16BE off n).
Proof. text readU16BE. loop_out. Qed.
#[local] Hint Resolve readU16BE_text : text.
Lemma ReadU16BE_text off n : text_of B2 pol "ReadU16BE" [VInt I64 off; VInt I64 n] (VInts U16) (ReadU16BE off n).
Proof. text ReadU16BE. Qed.
#[local] Hint Resolve ReadU16BE_text : text.
Lemma ReadU16BENext_text n : text_of B2 pol "ReadU16BENext" [VInt I64 n] (VInts U16) (ReadU16BENext n).
Proof. text ReadU16BENext. Qed.
#[local] Hint Resolve ReadU16BENext_text : text.
Lemma readU32LE_text off n : text_of B2 pol "readU32LE" [VInt I64 off; VInt I64 n] (VInts U32) (readU32LE off n).
Proof. text readU32LE. loop_out. Qed.
#[local] Hint Resolve readU32LE_text : text.
Lemma ReadU32LE_text off n : text_of B2 pol "ReadU32LE" [VInt I64 off; VInt I64 n] (VInts U32) (ReadU32LE off n).
Proof. text ReadU32LE. Qed.
#[local] Hint Resolve ReadU32LE_text : text.
Lemma ReadU32LENext_text n : text_of B2 pol "ReadU32LENext" [VInt I64 n] (VInts U32) (ReadU32LENext n).
Proof. text ReadU32LENext. Qed.
#[local] Hint Resolve ReadU32LENext_text : text.
Lemma readU32BE_text off n : text_of B2 pol "readU32BE" [VInt I64 off; VInt I64 n] (VInts U32) (readU32BE off n).
Proof. text readU32BE. loop_out. Qed.
#[local] Hint Resolve readU32BE_text : text.
Lemma ReadU32BE_text off n : text_of B2 pol "ReadU32BE" [VInt I64 off; VInt I64 n] (VInts U32) (ReadU32BE off n).
Proof. text ReadU32BE. Qed.
#[local] Hint Resolve ReadU32BE_text : text.
Lemma ReadU32BENext_text n : text_of B2 pol "ReadU32BENext" [VInt I64 n] (VInts U32) (ReadU32BENext n).
Proof. text ReadU32BENext. Qed.
#[local] Hint Resolve ReadU32BENext_text : text.
Lemma readU64LE_text off n : text_of B2 pol "readU64LE" [VInt I64 off; VInt I64 n] (VInts U64) (readU64LE off n).
Proof. text readU64LE. loop_out. Qed.
#[local] Hint Resolve readU64LE_text : text.
Lemma ReadU64LE_text off n : text_of B2 pol "ReadU64LE" [VInt I64 off; VInt I64 n] (VInts U64) (ReadU64LE off n).
Proof. text ReadU64LE. Qed.
#[local] Hint Resolve ReadU64LE_text : text.
Lemma ReadU64LENext_text n : text_of B2 pol "ReadU64LENext" [VInt I64 n] (VInts U64) (ReadU64LENext n).
Proof. text ReadU64LENext. Qed.
#[local] Hint Resolve ReadU64LENext_text : text.
Lemma readU64BE_text off n : text_of B2 pol "readU64BE" [VInt I64 off; VInt I64 n] (VInts U64) (readU64BE off n).
Proof. text readU64BE. loop_out. Qed.
#[local] Hint Resolve readU64BE_text : text.
Lemma ReadU64BE_text off n : text_of B2 pol "ReadU64BE" [VInt I64 off; VInt I64 n] (VInts U64) (ReadU64BE off n).
Proof. text ReadU64BE. Qed.
#[local] Hint Resolve ReadU64BE_text : text.
Lemma ReadU64BENext_text n : text_of B2 pol "ReadU64BENext" [VInt I64 n] (VInts U64) (ReadU64BENext n).
Proof. text ReadU64BENext. Qed.
#[local] Hint Resolve ReadU64BENext_text : text.
End Typed.
