(** * TableProofs: the rows of the tables are right.  Written by tools/gen_tables.py. *)
From Coq Require Import ZArith List Bool String.
From Verif Require Import GoSem GoEval Front Tables.
From Verif Require FrontV3 FrontV3Typed FrontM3 FrontM3Typed FrontV2 FrontV2Typed FrontM2 FrontM2Typed FrontV1 FrontM1.
Import ListNotations.

(** The row is right. *)
Definition correct (p : part) (pol : Z -> Z -> Z) (e : entry) : Prop :=
  forall x, e_ok e x -> text_of p pol (e_name e) (e_args e x) (e_res e) (e_model e x).
Lemma row_correct p pol {X A} name args (res : A -> val) (model : X -> prog A) :
  (forall x, text_of p pol name (args x) res (model x)) -> correct p pol (row name args res model).
Proof. intros H x _. exact (H x). Qed.
Lemma row_new_correct p pol name args model :
  (forall x, is_i64 (zlen x) -> text_of p pol name (args x) self_ (model x)) -> correct p pol (row_new name args model).
Proof. intros H x Hx. exact (H x Hx). Qed.

Theorem v3_buffer_correct pol : Forall (correct B3 pol) (v3_buffer_table pol).
Proof.
  unfold v3_buffer_table.
  apply Forall_cons; [apply row_new_correct; intros x Hx; exact (FrontV3.NewBuffer_text pol x Hx)|].
  apply Forall_cons; [apply row_correct; intros x0; exact (FrontV3.ReadBit_text pol x0)|].
  apply Forall_cons; [apply row_correct; intros _; exact (FrontV3.ReadBitNext_text pol)|].
  apply Forall_cons; [apply row_correct; intros [x0 x1]; exact (FrontV3.ReadBits_text pol x0 x1)|].
  apply Forall_cons; [apply row_correct; intros x0; exact (FrontV3.ReadBitsNext_text pol x0)|].
  apply Forall_cons; [apply row_correct; intros x0; exact (FrontV3.SetBit_text pol x0)|].
  apply Forall_cons; [apply row_correct; intros _; exact (FrontV3.SetBitNext_text pol)|].
  apply Forall_cons; [apply row_correct; intros x0; exact (FrontV3.ClearBit_text pol x0)|].
  apply Forall_cons; [apply row_correct; intros _; exact (FrontV3.ClearBitNext_text pol)|].
  apply Forall_cons; [apply row_correct; intros [[x0 x1] x2]; exact (FrontV3.SetBits_text pol x0 x1 x2)|].
  apply Forall_cons; [apply row_correct; intros [x0 x1]; exact (FrontV3.SetBitsNext_text pol x0 x1)|].
  apply Forall_cons; [apply row_correct; intros x0; exact (FrontV3.FlipBit_text pol x0)|].
  apply Forall_cons; [apply row_correct; intros _; exact (FrontV3.FlipBitNext_text pol)|].
  apply Forall_cons; [apply row_correct; intros _; exact (FrontV3.ClearAllBits_text pol)|].
  apply Forall_cons; [apply row_correct; intros _; exact (FrontV3.SetAllBits_text pol)|].
  apply Forall_cons; [apply row_correct; intros _; exact (FrontV3.FlipAllBits_text pol)|].
  apply Forall_cons; [apply row_correct; intros [x0 x1]; exact (FrontV3.SeekBit_text pol x0 x1)|].
  apply Forall_cons; [apply row_correct; intros x0; exact (FrontV3.AfterBit_text pol x0)|].
  apply Forall_cons; [apply row_correct; intros _; exact (FrontV3.AlignBit_text pol)|].
  apply Forall_cons; [apply row_correct; intros [x0 x1]; exact (FrontV3.WriteBytes_text pol x0 x1)|].
  apply Forall_cons; [apply row_correct; intros x0; exact (FrontV3.WriteBytesNext_text pol x0)|].
  apply Forall_cons; [apply row_correct; intros [x0 x1]; exact (FrontV3.WriteByte_text pol x0 x1)|].
  apply Forall_cons; [apply row_correct; intros x0; exact (FrontV3.WriteByteNext_text pol x0)|].
  apply Forall_cons; [apply row_correct; intros [x0 x1]; exact (FrontV3Typed.WriteU16LE_text pol x0 x1)|].
  apply Forall_cons; [apply row_correct; intros x0; exact (FrontV3Typed.WriteU16LENext_text pol x0)|].
  apply Forall_cons; [apply row_correct; intros [x0 x1]; exact (FrontV3Typed.WriteU16BE_text pol x0 x1)|].
  apply Forall_cons; [apply row_correct; intros x0; exact (FrontV3Typed.WriteU16BENext_text pol x0)|].
  apply Forall_cons; [apply row_correct; intros [x0 x1]; exact (FrontV3Typed.WriteU32LE_text pol x0 x1)|].
  apply Forall_cons; [apply row_correct; intros x0; exact (FrontV3Typed.WriteU32LENext_text pol x0)|].
  apply Forall_cons; [apply row_correct; intros [x0 x1]; exact (FrontV3Typed.WriteU32BE_text pol x0 x1)|].
  apply Forall_cons; [apply row_correct; intros x0; exact (FrontV3Typed.WriteU32BENext_text pol x0)|].
  apply Forall_cons; [apply row_correct; intros [x0 x1]; exact (FrontV3Typed.WriteU64LE_text pol x0 x1)|].
  apply Forall_cons; [apply row_correct; intros x0; exact (FrontV3Typed.WriteU64LENext_text pol x0)|].
  apply Forall_cons; [apply row_correct; intros [x0 x1]; exact (FrontV3Typed.WriteU64BE_text pol x0 x1)|].
  apply Forall_cons; [apply row_correct; intros x0; exact (FrontV3Typed.WriteU64BENext_text pol x0)|].
  apply Forall_cons; [apply row_correct; intros [x0 x1]; exact (FrontV3Typed.WriteI16LE_text pol x0 x1)|].
  apply Forall_cons; [apply row_correct; intros x0; exact (FrontV3Typed.WriteI16LENext_text pol x0)|].
  apply Forall_cons; [apply row_correct; intros [x0 x1]; exact (FrontV3Typed.WriteI16BE_text pol x0 x1)|].
  apply Forall_cons; [apply row_correct; intros x0; exact (FrontV3Typed.WriteI16BENext_text pol x0)|].
  apply Forall_cons; [apply row_correct; intros [x0 x1]; exact (FrontV3Typed.WriteI32LE_text pol x0 x1)|].
  apply Forall_cons; [apply row_correct; intros x0; exact (FrontV3Typed.WriteI32LENext_text pol x0)|].
  apply Forall_cons; [apply row_correct; intros [x0 x1]; exact (FrontV3Typed.WriteI32BE_text pol x0 x1)|].
  apply Forall_cons; [apply row_correct; intros x0; exact (FrontV3Typed.WriteI32BENext_text pol x0)|].
  apply Forall_cons; [apply row_correct; intros [x0 x1]; exact (FrontV3Typed.WriteI64LE_text pol x0 x1)|].
  apply Forall_cons; [apply row_correct; intros x0; exact (FrontV3Typed.WriteI64LENext_text pol x0)|].
  apply Forall_cons; [apply row_correct; intros [x0 x1]; exact (FrontV3Typed.WriteI64BE_text pol x0 x1)|].
  apply Forall_cons; [apply row_correct; intros x0; exact (FrontV3Typed.WriteI64BENext_text pol x0)|].
  apply Forall_cons; [apply row_correct; intros [x0 x1]; exact (FrontV3Typed.WriteF32LE_text pol x0 x1)|].
  apply Forall_cons; [apply row_correct; intros x0; exact (FrontV3Typed.WriteF32LENext_text pol x0)|].
  apply Forall_cons; [apply row_correct; intros [x0 x1]; exact (FrontV3Typed.WriteF32BE_text pol x0 x1)|].
  apply Forall_cons; [apply row_correct; intros x0; exact (FrontV3Typed.WriteF32BENext_text pol x0)|].
  apply Forall_cons; [apply row_correct; intros [x0 x1]; exact (FrontV3Typed.WriteF64LE_text pol x0 x1)|].
  apply Forall_cons; [apply row_correct; intros x0; exact (FrontV3Typed.WriteF64LENext_text pol x0)|].
  apply Forall_cons; [apply row_correct; intros [x0 x1]; exact (FrontV3Typed.WriteF64BE_text pol x0 x1)|].
  apply Forall_cons; [apply row_correct; intros x0; exact (FrontV3Typed.WriteF64BENext_text pol x0)|].
  apply Forall_cons; [apply row_correct; intros [x0 x1]; exact (FrontV3.ReadBytes_text pol x0 x1)|].
  apply Forall_cons; [apply row_correct; intros x0; exact (FrontV3.ReadBytesNext_text pol x0)|].
  apply Forall_cons; [apply row_correct; intros x0; exact (FrontV3.ReadByte_text pol x0)|].
  apply Forall_cons; [apply row_correct; intros _; exact (FrontV3.ReadByteNext_text pol)|].
  apply Forall_cons; [apply row_correct; intros [x0 x1]; exact (FrontV3Typed.ReadU16LE_text pol x0 x1)|].
  apply Forall_cons; [apply row_correct; intros x0; exact (FrontV3Typed.ReadU16LENext_text pol x0)|].
  apply Forall_cons; [apply row_correct; intros [x0 x1]; exact (FrontV3Typed.ReadU16BE_text pol x0 x1)|].
  apply Forall_cons; [apply row_correct; intros x0; exact (FrontV3Typed.ReadU16BENext_text pol x0)|].
  apply Forall_cons; [apply row_correct; intros [x0 x1]; exact (FrontV3Typed.ReadU32LE_text pol x0 x1)|].
  apply Forall_cons; [apply row_correct; intros x0; exact (FrontV3Typed.ReadU32LENext_text pol x0)|].
  apply Forall_cons; [apply row_correct; intros [x0 x1]; exact (FrontV3Typed.ReadU32BE_text pol x0 x1)|].
  apply Forall_cons; [apply row_correct; intros x0; exact (FrontV3Typed.ReadU32BENext_text pol x0)|].
  apply Forall_cons; [apply row_correct; intros [x0 x1]; exact (FrontV3Typed.ReadU64LE_text pol x0 x1)|].
  apply Forall_cons; [apply row_correct; intros x0; exact (FrontV3Typed.ReadU64LENext_text pol x0)|].
  apply Forall_cons; [apply row_correct; intros [x0 x1]; exact (FrontV3Typed.ReadU64BE_text pol x0 x1)|].
  apply Forall_cons; [apply row_correct; intros x0; exact (FrontV3Typed.ReadU64BENext_text pol x0)|].
  apply Forall_cons; [apply row_correct; intros [x0 x1]; exact (FrontV3Typed.ReadI16LE_text pol x0 x1)|].
  apply Forall_cons; [apply row_correct; intros x0; exact (FrontV3Typed.ReadI16LENext_text pol x0)|].
  apply Forall_cons; [apply row_correct; intros [x0 x1]; exact (FrontV3Typed.ReadI16BE_text pol x0 x1)|].
  apply Forall_cons; [apply row_correct; intros x0; exact (FrontV3Typed.ReadI16BENext_text pol x0)|].
  apply Forall_cons; [apply row_correct; intros [x0 x1]; exact (FrontV3Typed.ReadI32LE_text pol x0 x1)|].
  apply Forall_cons; [apply row_correct; intros x0; exact (FrontV3Typed.ReadI32LENext_text pol x0)|].
  apply Forall_cons; [apply row_correct; intros [x0 x1]; exact (FrontV3Typed.ReadI32BE_text pol x0 x1)|].
  apply Forall_cons; [apply row_correct; intros x0; exact (FrontV3Typed.ReadI32BENext_text pol x0)|].
  apply Forall_cons; [apply row_correct; intros [x0 x1]; exact (FrontV3Typed.ReadI64LE_text pol x0 x1)|].
  apply Forall_cons; [apply row_correct; intros x0; exact (FrontV3Typed.ReadI64LENext_text pol x0)|].
  apply Forall_cons; [apply row_correct; intros [x0 x1]; exact (FrontV3Typed.ReadI64BE_text pol x0 x1)|].
  apply Forall_cons; [apply row_correct; intros x0; exact (FrontV3Typed.ReadI64BENext_text pol x0)|].
  apply Forall_cons; [apply row_correct; intros [x0 x1]; exact (FrontV3Typed.ReadF32LE_text pol x0 x1)|].
  apply Forall_cons; [apply row_correct; intros x0; exact (FrontV3Typed.ReadF32LENext_text pol x0)|].
  apply Forall_cons; [apply row_correct; intros [x0 x1]; exact (FrontV3Typed.ReadF32BE_text pol x0 x1)|].
  apply Forall_cons; [apply row_correct; intros x0; exact (FrontV3Typed.ReadF32BENext_text pol x0)|].
  apply Forall_cons; [apply row_correct; intros [x0 x1]; exact (FrontV3Typed.ReadF64LE_text pol x0 x1)|].
  apply Forall_cons; [apply row_correct; intros x0; exact (FrontV3Typed.ReadF64LENext_text pol x0)|].
  apply Forall_cons; [apply row_correct; intros [x0 x1]; exact (FrontV3Typed.ReadF64BE_text pol x0 x1)|].
  apply Forall_cons; [apply row_correct; intros x0; exact (FrontV3Typed.ReadF64BENext_text pol x0)|].
  apply Forall_cons; [apply row_correct; intros [x0 x1]; exact (FrontV3.SeekByte_text pol x0 x1)|].
  apply Forall_cons; [apply row_correct; intros x0; exact (FrontV3.AfterByte_text pol x0)|].
  apply Forall_cons; [apply row_correct; intros _; exact (FrontV3.AlignByte_text pol)|].
  apply Forall_cons; [apply row_correct; intros x0; exact (FrontV3.TruncateLeft_text pol x0)|].
  apply Forall_cons; [apply row_correct; intros x0; exact (FrontV3.TruncateRight_text pol x0)|].
  apply Forall_cons; [apply row_correct; intros x0; exact (FrontV3.Grow_text pol x0)|].
  apply Forall_cons; [apply row_correct; intros _; exact (FrontV3.Refresh_text pol)|].
  apply Forall_cons; [apply row_correct; intros _; exact (FrontV3.Reset_text pol)|].
  apply Forall_cons; [apply row_correct; intros _; exact (FrontV3.Bytes_text pol)|].
  apply Forall_cons; [apply row_correct; intros _; exact (FrontV3.ByteCapacity_text pol)|].
  apply Forall_cons; [apply row_correct; intros _; exact (FrontV3.BitCapacity_text pol)|].
  apply Forall_cons; [apply row_correct; intros _; exact (FrontV3.ByteOffset_text pol)|].
  apply Forall_cons; [apply row_correct; intros _; exact (FrontV3.BitOffset_text pol)|].
  apply Forall_nil.
Qed.
Theorem v3_minibuf_correct pol : Forall (correct M3 pol) (v3_minibuf_table pol).
Proof.
  unfold v3_minibuf_table.
  apply Forall_cons; [apply row_new_correct; intros x Hx; exact (FrontM3.NewMiniBuffer_text pol x Hx)|].
  apply Forall_cons; [apply row_correct; intros x0; exact (FrontM3.ReadBit_text pol x0)|].
  apply Forall_cons; [apply row_correct; intros _; exact (FrontM3.ReadBitNext_text pol)|].
  apply Forall_cons; [apply row_correct; intros [x0 x1]; exact (FrontM3.ReadBits_text pol x0 x1)|].
  apply Forall_cons; [apply row_correct; intros x0; exact (FrontM3.ReadBitsNext_text pol x0)|].
  apply Forall_cons; [apply row_correct; intros x0; exact (FrontM3.SetBit_text pol x0)|].
  apply Forall_cons; [apply row_correct; intros _; exact (FrontM3.SetBitNext_text pol)|].
  apply Forall_cons; [apply row_correct; intros x0; exact (FrontM3.ClearBit_text pol x0)|].
  apply Forall_cons; [apply row_correct; intros _; exact (FrontM3.ClearBitNext_text pol)|].
  apply Forall_cons; [apply row_correct; intros [[x0 x1] x2]; exact (FrontM3.SetBits_text pol x0 x1 x2)|].
  apply Forall_cons; [apply row_correct; intros [x0 x1]; exact (FrontM3.SetBitsNext_text pol x0 x1)|].
  apply Forall_cons; [apply row_correct; intros x0; exact (FrontM3.FlipBit_text pol x0)|].
  apply Forall_cons; [apply row_correct; intros _; exact (FrontM3.FlipBitNext_text pol)|].
  apply Forall_cons; [apply row_correct; intros _; exact (FrontM3.ClearAllBits_text pol)|].
  apply Forall_cons; [apply row_correct; intros _; exact (FrontM3.SetAllBits_text pol)|].
  apply Forall_cons; [apply row_correct; intros _; exact (FrontM3.FlipAllBits_text pol)|].
  apply Forall_cons; [apply row_correct; intros [x0 x1]; exact (FrontM3.SeekBit_text pol x0 x1)|].
  apply Forall_cons; [apply row_correct; intros x0; exact (FrontM3.AfterBit_text pol x0)|].
  apply Forall_cons; [apply row_correct; intros _; exact (FrontM3.AlignBit_text pol)|].
  apply Forall_cons; [apply row_correct; intros [x0 x1]; exact (FrontM3.WriteBytes_text pol x0 x1)|].
  apply Forall_cons; [apply row_correct; intros x0; exact (FrontM3.WriteBytesNext_text pol x0)|].
  apply Forall_cons; [apply row_correct; intros [x0 x1]; exact (FrontM3Typed.WriteU16LE_text pol x0 x1)|].
  apply Forall_cons; [apply row_correct; intros x0; exact (FrontM3Typed.WriteU16LENext_text pol x0)|].
  apply Forall_cons; [apply row_correct; intros [x0 x1]; exact (FrontM3Typed.WriteU16BE_text pol x0 x1)|].
  apply Forall_cons; [apply row_correct; intros x0; exact (FrontM3Typed.WriteU16BENext_text pol x0)|].
  apply Forall_cons; [apply row_correct; intros [x0 x1]; exact (FrontM3Typed.WriteU32LE_text pol x0 x1)|].
  apply Forall_cons; [apply row_correct; intros x0; exact (FrontM3Typed.WriteU32LENext_text pol x0)|].
  apply Forall_cons; [apply row_correct; intros [x0 x1]; exact (FrontM3Typed.WriteU32BE_text pol x0 x1)|].
  apply Forall_cons; [apply row_correct; intros x0; exact (FrontM3Typed.WriteU32BENext_text pol x0)|].
  apply Forall_cons; [apply row_correct; intros [x0 x1]; exact (FrontM3Typed.WriteU64LE_text pol x0 x1)|].
  apply Forall_cons; [apply row_correct; intros x0; exact (FrontM3Typed.WriteU64LENext_text pol x0)|].
  apply Forall_cons; [apply row_correct; intros [x0 x1]; exact (FrontM3Typed.WriteU64BE_text pol x0 x1)|].
  apply Forall_cons; [apply row_correct; intros x0; exact (FrontM3Typed.WriteU64BENext_text pol x0)|].
  apply Forall_cons; [apply row_correct; intros [x0 x1]; exact (FrontM3Typed.WriteI16LE_text pol x0 x1)|].
  apply Forall_cons; [apply row_correct; intros x0; exact (FrontM3Typed.WriteI16LENext_text pol x0)|].
  apply Forall_cons; [apply row_correct; intros [x0 x1]; exact (FrontM3Typed.WriteI16BE_text pol x0 x1)|].
  apply Forall_cons; [apply row_correct; intros x0; exact (FrontM3Typed.WriteI16BENext_text pol x0)|].
  apply Forall_cons; [apply row_correct; intros [x0 x1]; exact (FrontM3Typed.WriteI32LE_text pol x0 x1)|].
  apply Forall_cons; [apply row_correct; intros x0; exact (FrontM3Typed.WriteI32LENext_text pol x0)|].
  apply Forall_cons; [apply row_correct; intros [x0 x1]; exact (FrontM3Typed.WriteI32BE_text pol x0 x1)|].
  apply Forall_cons; [apply row_correct; intros x0; exact (FrontM3Typed.WriteI32BENext_text pol x0)|].
  apply Forall_cons; [apply row_correct; intros [x0 x1]; exact (FrontM3Typed.WriteI64LE_text pol x0 x1)|].
  apply Forall_cons; [apply row_correct; intros x0; exact (FrontM3Typed.WriteI64LENext_text pol x0)|].
  apply Forall_cons; [apply row_correct; intros [x0 x1]; exact (FrontM3Typed.WriteI64BE_text pol x0 x1)|].
  apply Forall_cons; [apply row_correct; intros x0; exact (FrontM3Typed.WriteI64BENext_text pol x0)|].
  apply Forall_cons; [apply row_correct; intros [x0 x1]; exact (FrontM3Typed.WriteF32LE_text pol x0 x1)|].
  apply Forall_cons; [apply row_correct; intros x0; exact (FrontM3Typed.WriteF32LENext_text pol x0)|].
  apply Forall_cons; [apply row_correct; intros [x0 x1]; exact (FrontM3Typed.WriteF32BE_text pol x0 x1)|].
  apply Forall_cons; [apply row_correct; intros x0; exact (FrontM3Typed.WriteF32BENext_text pol x0)|].
  apply Forall_cons; [apply row_correct; intros [x0 x1]; exact (FrontM3Typed.WriteF64LE_text pol x0 x1)|].
  apply Forall_cons; [apply row_correct; intros x0; exact (FrontM3Typed.WriteF64LENext_text pol x0)|].
  apply Forall_cons; [apply row_correct; intros [x0 x1]; exact (FrontM3Typed.WriteF64BE_text pol x0 x1)|].
  apply Forall_cons; [apply row_correct; intros x0; exact (FrontM3Typed.WriteF64BENext_text pol x0)|].
  apply Forall_cons; [apply row_correct; intros [x0 x1]; exact (FrontM3.ReadBytes_text pol x0 x1)|].
  apply Forall_cons; [apply row_correct; intros x0; exact (FrontM3.ReadBytesNext_text pol x0)|].
  apply Forall_cons; [apply row_correct; intros [x0 x1]; exact (FrontM3Typed.ReadU16LE_text pol x0 x1)|].
  apply Forall_cons; [apply row_correct; intros x0; exact (FrontM3Typed.ReadU16LENext_text pol x0)|].
  apply Forall_cons; [apply row_correct; intros [x0 x1]; exact (FrontM3Typed.ReadU16BE_text pol x0 x1)|].
  apply Forall_cons; [apply row_correct; intros x0; exact (FrontM3Typed.ReadU16BENext_text pol x0)|].
  apply Forall_cons; [apply row_correct; intros [x0 x1]; exact (FrontM3Typed.ReadU32LE_text pol x0 x1)|].
  apply Forall_cons; [apply row_correct; intros x0; exact (FrontM3Typed.ReadU32LENext_text pol x0)|].
  apply Forall_cons; [apply row_correct; intros [x0 x1]; exact (FrontM3Typed.ReadU32BE_text pol x0 x1)|].
  apply Forall_cons; [apply row_correct; intros x0; exact (FrontM3Typed.ReadU32BENext_text pol x0)|].
  apply Forall_cons; [apply row_correct; intros [x0 x1]; exact (FrontM3Typed.ReadU64LE_text pol x0 x1)|].
  apply Forall_cons; [apply row_correct; intros x0; exact (FrontM3Typed.ReadU64LENext_text pol x0)|].
  apply Forall_cons; [apply row_correct; intros [x0 x1]; exact (FrontM3Typed.ReadU64BE_text pol x0 x1)|].
  apply Forall_cons; [apply row_correct; intros x0; exact (FrontM3Typed.ReadU64BENext_text pol x0)|].
  apply Forall_cons; [apply row_correct; intros [x0 x1]; exact (FrontM3Typed.ReadI16LE_text pol x0 x1)|].
  apply Forall_cons; [apply row_correct; intros x0; exact (FrontM3Typed.ReadI16LENext_text pol x0)|].
  apply Forall_cons; [apply row_correct; intros [x0 x1]; exact (FrontM3Typed.ReadI16BE_text pol x0 x1)|].
  apply Forall_cons; [apply row_correct; intros x0; exact (FrontM3Typed.ReadI16BENext_text pol x0)|].
  apply Forall_cons; [apply row_correct; intros [x0 x1]; exact (FrontM3Typed.ReadI32LE_text pol x0 x1)|].
  apply Forall_cons; [apply row_correct; intros x0; exact (FrontM3Typed.ReadI32LENext_text pol x0)|].
  apply Forall_cons; [apply row_correct; intros [x0 x1]; exact (FrontM3Typed.ReadI32BE_text pol x0 x1)|].
  apply Forall_cons; [apply row_correct; intros x0; exact (FrontM3Typed.ReadI32BENext_text pol x0)|].
  apply Forall_cons; [apply row_correct; intros [x0 x1]; exact (FrontM3Typed.ReadI64LE_text pol x0 x1)|].
  apply Forall_cons; [apply row_correct; intros x0; exact (FrontM3Typed.ReadI64LENext_text pol x0)|].
  apply Forall_cons; [apply row_correct; intros [x0 x1]; exact (FrontM3Typed.ReadI64BE_text pol x0 x1)|].
  apply Forall_cons; [apply row_correct; intros x0; exact (FrontM3Typed.ReadI64BENext_text pol x0)|].
  apply Forall_cons; [apply row_correct; intros [x0 x1]; exact (FrontM3Typed.ReadF32LE_text pol x0 x1)|].
  apply Forall_cons; [apply row_correct; intros x0; exact (FrontM3Typed.ReadF32LENext_text pol x0)|].
  apply Forall_cons; [apply row_correct; intros [x0 x1]; exact (FrontM3Typed.ReadF32BE_text pol x0 x1)|].
  apply Forall_cons; [apply row_correct; intros x0; exact (FrontM3Typed.ReadF32BENext_text pol x0)|].
  apply Forall_cons; [apply row_correct; intros [x0 x1]; exact (FrontM3Typed.ReadF64LE_text pol x0 x1)|].
  apply Forall_cons; [apply row_correct; intros x0; exact (FrontM3Typed.ReadF64LENext_text pol x0)|].
  apply Forall_cons; [apply row_correct; intros [x0 x1]; exact (FrontM3Typed.ReadF64BE_text pol x0 x1)|].
  apply Forall_cons; [apply row_correct; intros x0; exact (FrontM3Typed.ReadF64BENext_text pol x0)|].
  apply Forall_cons; [apply row_correct; intros [x0 x1]; exact (FrontM3.SeekByte_text pol x0 x1)|].
  apply Forall_cons; [apply row_correct; intros x0; exact (FrontM3.AfterByte_text pol x0)|].
  apply Forall_cons; [apply row_correct; intros _; exact (FrontM3.AlignByte_text pol)|].
  apply Forall_cons; [apply row_correct; intros x0; exact (FrontM3.TruncateLeft_text pol x0)|].
  apply Forall_cons; [apply row_correct; intros x0; exact (FrontM3.TruncateRight_text pol x0)|].
  apply Forall_cons; [apply row_correct; intros x0; exact (FrontM3.Grow_text pol x0)|].
  apply Forall_cons; [apply row_correct; intros _; exact (FrontM3.Refresh_text pol)|].
  apply Forall_cons; [apply row_correct; intros _; exact (FrontM3.Reset_text pol)|].
  apply Forall_cons; [apply row_correct; intros _; exact (FrontM3.Bytes_text pol)|].
  apply Forall_cons; [apply row_correct; intros _; exact (FrontM3.ByteCapacity_text pol)|].
  apply Forall_cons; [apply row_correct; intros _; exact (FrontM3.BitCapacity_text pol)|].
  apply Forall_cons; [apply row_correct; intros _; exact (FrontM3.ByteOffset_text pol)|].
  apply Forall_cons; [apply row_correct; intros _; exact (FrontM3.BitOffset_text pol)|].
  apply Forall_nil.
Qed.
Theorem v2_buffer_correct pol : Forall (correct B2 pol) (v2_buffer_table pol).
Proof.
  unfold v2_buffer_table.
  apply Forall_cons; [apply row_new_correct; intros x Hx; exact (FrontV2.NewBuffer_text pol x Hx)|].
  apply Forall_cons; [apply row_correct; intros x0; exact (FrontV2.readbit_text pol x0)|].
  apply Forall_cons; [apply row_correct; intros [x0 x1]; exact (FrontV2.readbits_text pol x0 x1)|].
  apply Forall_cons; [apply row_correct; intros [x0 x1]; exact (FrontV2.setbit_text pol x0 x1)|].
  apply Forall_cons; [apply row_correct; intros [[x0 x1] x2]; exact (FrontV2.setbits_text pol x0 x1 x2)|].
  apply Forall_cons; [apply row_correct; intros x0; exact (FrontV2.flipbit_text pol x0)|].
  apply Forall_cons; [apply row_correct; intros _; exact (FrontV2.clearallbits_text pol)|].
  apply Forall_cons; [apply row_correct; intros _; exact (FrontV2.setallbits_text pol)|].
  apply Forall_cons; [apply row_correct; intros _; exact (FrontV2.flipallbits_text pol)|].
  apply Forall_cons; [apply row_correct; intros [x0 x1]; exact (FrontV2.seekbit_text pol x0 x1)|].
  apply Forall_cons; [apply row_correct; intros x0; exact (FrontV2.afterbit_text pol x0)|].
  apply Forall_cons; [apply row_correct; intros [x0 x1]; exact (FrontV2.write_text pol x0 x1)|].
  apply Forall_cons; [apply row_correct; intros [x0 x1]; exact (FrontV2Typed.writeU16LE_text pol x0 x1)|].
  apply Forall_cons; [apply row_correct; intros [x0 x1]; exact (FrontV2Typed.writeU16BE_text pol x0 x1)|].
  apply Forall_cons; [apply row_correct; intros [x0 x1]; exact (FrontV2Typed.writeU32LE_text pol x0 x1)|].
  apply Forall_cons; [apply row_correct; intros [x0 x1]; exact (FrontV2Typed.writeU32BE_text pol x0 x1)|].
  apply Forall_cons; [apply row_correct; intros [x0 x1]; exact (FrontV2Typed.writeU64LE_text pol x0 x1)|].
  apply Forall_cons; [apply row_correct; intros [x0 x1]; exact (FrontV2Typed.writeU64BE_text pol x0 x1)|].
  apply Forall_cons; [apply row_correct; intros [x0 x1]; exact (FrontV2.read_text pol x0 x1)|].
  apply Forall_cons; [apply row_correct; intros [x0 x1]; exact (FrontV2Typed.readU16LE_text pol x0 x1)|].
  apply Forall_cons; [apply row_correct; intros [x0 x1]; exact (FrontV2Typed.readU16BE_text pol x0 x1)|].
  apply Forall_cons; [apply row_correct; intros [x0 x1]; exact (FrontV2Typed.readU32LE_text pol x0 x1)|].
  apply Forall_cons; [apply row_correct; intros [x0 x1]; exact (FrontV2Typed.readU32BE_text pol x0 x1)|].
  apply Forall_cons; [apply row_correct; intros [x0 x1]; exact (FrontV2Typed.readU64LE_text pol x0 x1)|].
  apply Forall_cons; [apply row_correct; intros [x0 x1]; exact (FrontV2Typed.readU64BE_text pol x0 x1)|].
  apply Forall_cons; [apply row_correct; intros [x0 x1]; exact (FrontV2.seek_text pol x0 x1)|].
  apply Forall_cons; [apply row_correct; intros x0; exact (FrontV2.after_text pol x0)|].
  apply Forall_cons; [apply row_correct; intros x0; exact (FrontV2.grow_text pol x0)|].
  apply Forall_cons; [apply row_correct; intros _; exact (FrontV2.refresh_text pol)|].
  apply Forall_cons; [apply row_correct; intros _; exact (FrontV2.alignbit_text pol)|].
  apply Forall_cons; [apply row_correct; intros _; exact (FrontV2.alignbyte_text pol)|].
  apply Forall_cons; [apply row_correct; intros _; exact (FrontV2.reset_text pol)|].
  apply Forall_cons; [apply row_correct; intros _; exact (FrontV2.Bytes_text pol)|].
  apply Forall_cons; [apply row_correct; intros _; exact (FrontV2.Capacity_text pol)|].
  apply Forall_cons; [apply row_correct; intros _; exact (FrontV2.BitCapacity_text pol)|].
  apply Forall_cons; [apply row_correct; intros _; exact (FrontV2.Offset_text pol)|].
  apply Forall_cons; [apply row_correct; intros _; exact (FrontV2.BitOffset_text pol)|].
  apply Forall_cons; [apply row_correct; intros _; exact (FrontV2.Refresh_text pol)|].
  apply Forall_cons; [apply row_correct; intros _; exact (FrontV2.Reset_text pol)|].
  apply Forall_cons; [apply row_correct; intros x0; exact (FrontV2.Grow_text pol x0)|].
  apply Forall_cons; [apply row_correct; intros [x0 x1]; exact (FrontV2.Seek_text pol x0 x1)|].
  apply Forall_cons; [apply row_correct; intros [x0 x1]; exact (FrontV2.SeekBit_text pol x0 x1)|].
  apply Forall_cons; [apply row_correct; intros _; exact (FrontV2.AlignBit_text pol)|].
  apply Forall_cons; [apply row_correct; intros _; exact (FrontV2.AlignByte_text pol)|].
  apply Forall_cons; [apply row_correct; intros x0; exact (FrontV2.After_text pol x0)|].
  apply Forall_cons; [apply row_correct; intros x0; exact (FrontV2.AfterBit_text pol x0)|].
  apply Forall_cons; [apply row_correct; intros x0; exact (FrontV2.ReadByte_text pol x0)|].
  apply Forall_cons; [apply row_correct; intros [x0 x1]; exact (FrontV2.ReadBytes_text pol x0 x1)|].
  apply Forall_cons; [apply row_correct; intros [x0 x1]; exact (FrontV2Typed.ReadU16LE_text pol x0 x1)|].
  apply Forall_cons; [apply row_correct; intros [x0 x1]; exact (FrontV2Typed.ReadU16BE_text pol x0 x1)|].
  apply Forall_cons; [apply row_correct; intros [x0 x1]; exact (FrontV2Typed.ReadU32LE_text pol x0 x1)|].
  apply Forall_cons; [apply row_correct; intros [x0 x1]; exact (FrontV2Typed.ReadU32BE_text pol x0 x1)|].
  apply Forall_cons; [apply row_correct; intros [x0 x1]; exact (FrontV2Typed.ReadU64LE_text pol x0 x1)|].
  apply Forall_cons; [apply row_correct; intros [x0 x1]; exact (FrontV2Typed.ReadU64BE_text pol x0 x1)|].
  apply Forall_cons; [apply row_correct; intros _; exact (FrontV2.ReadByteNext_text pol)|].
  apply Forall_cons; [apply row_correct; intros x0; exact (FrontV2.ReadBytesNext_text pol x0)|].
  apply Forall_cons; [apply row_correct; intros x0; exact (FrontV2Typed.ReadU16LENext_text pol x0)|].
  apply Forall_cons; [apply row_correct; intros x0; exact (FrontV2Typed.ReadU16BENext_text pol x0)|].
  apply Forall_cons; [apply row_correct; intros x0; exact (FrontV2Typed.ReadU32LENext_text pol x0)|].
  apply Forall_cons; [apply row_correct; intros x0; exact (FrontV2Typed.ReadU32BENext_text pol x0)|].
  apply Forall_cons; [apply row_correct; intros x0; exact (FrontV2Typed.ReadU64LENext_text pol x0)|].
  apply Forall_cons; [apply row_correct; intros x0; exact (FrontV2Typed.ReadU64BENext_text pol x0)|].
  apply Forall_cons; [apply row_correct; intros [x0 x1]; exact (FrontV2.WriteByte_text pol x0 x1)|].
  apply Forall_cons; [apply row_correct; intros [x0 x1]; exact (FrontV2.WriteBytes_text pol x0 x1)|].
  apply Forall_cons; [apply row_correct; intros [x0 x1]; exact (FrontV2Typed.WriteU16LE_text pol x0 x1)|].
  apply Forall_cons; [apply row_correct; intros [x0 x1]; exact (FrontV2Typed.WriteU16BE_text pol x0 x1)|].
  apply Forall_cons; [apply row_correct; intros [x0 x1]; exact (FrontV2Typed.WriteU32LE_text pol x0 x1)|].
  apply Forall_cons; [apply row_correct; intros [x0 x1]; exact (FrontV2Typed.WriteU32BE_text pol x0 x1)|].
  apply Forall_cons; [apply row_correct; intros [x0 x1]; exact (FrontV2Typed.WriteU64LE_text pol x0 x1)|].
  apply Forall_cons; [apply row_correct; intros [x0 x1]; exact (FrontV2Typed.WriteU64BE_text pol x0 x1)|].
  apply Forall_cons; [apply row_correct; intros x0; exact (FrontV2.WriteByteNext_text pol x0)|].
  apply Forall_cons; [apply row_correct; intros x0; exact (FrontV2.WriteBytesNext_text pol x0)|].
  apply Forall_cons; [apply row_correct; intros x0; exact (FrontV2Typed.WriteU16LENext_text pol x0)|].
  apply Forall_cons; [apply row_correct; intros x0; exact (FrontV2Typed.WriteU16BENext_text pol x0)|].
  apply Forall_cons; [apply row_correct; intros x0; exact (FrontV2Typed.WriteU32LENext_text pol x0)|].
  apply Forall_cons; [apply row_correct; intros x0; exact (FrontV2Typed.WriteU32BENext_text pol x0)|].
  apply Forall_cons; [apply row_correct; intros x0; exact (FrontV2Typed.WriteU64LENext_text pol x0)|].
  apply Forall_cons; [apply row_correct; intros x0; exact (FrontV2Typed.WriteU64BENext_text pol x0)|].
  apply Forall_cons; [apply row_correct; intros x0; exact (FrontV2.ReadBit_text pol x0)|].
  apply Forall_cons; [apply row_correct; intros [x0 x1]; exact (FrontV2.ReadBits_text pol x0 x1)|].
  apply Forall_cons; [apply row_correct; intros _; exact (FrontV2.ReadBitNext_text pol)|].
  apply Forall_cons; [apply row_correct; intros x0; exact (FrontV2.ReadBitsNext_text pol x0)|].
  apply Forall_cons; [apply row_correct; intros [x0 x1]; exact (FrontV2.SetBit_text pol x0 x1)|].
  apply Forall_cons; [apply row_correct; intros [[x0 x1] x2]; exact (FrontV2.SetBits_text pol x0 x1 x2)|].
  apply Forall_cons; [apply row_correct; intros x0; exact (FrontV2.SetBitNext_text pol x0)|].
  apply Forall_cons; [apply row_correct; intros [x0 x1]; exact (FrontV2.SetBitsNext_text pol x0 x1)|].
  apply Forall_cons; [apply row_correct; intros x0; exact (FrontV2.FlipBit_text pol x0)|].
  apply Forall_cons; [apply row_correct; intros _; exact (FrontV2.FlipBitNext_text pol)|].
  apply Forall_cons; [apply row_correct; intros _; exact (FrontV2.ClearAllBits_text pol)|].
  apply Forall_cons; [apply row_correct; intros _; exact (FrontV2.SetAllBits_text pol)|].
  apply Forall_cons; [apply row_correct; intros _; exact (FrontV2.FlipAllBits_text pol)|].
  apply Forall_nil.
Qed.
Theorem v2_minibuf_correct pol : Forall (correct M2 pol) (v2_minibuf_table pol).
Proof.
  unfold v2_minibuf_table.
  apply Forall_cons; [apply row_new_correct; intros x Hx; exact (FrontM2.NewMiniBuffer_text pol x Hx)|].
  apply Forall_cons; [apply row_correct; intros x0; exact (FrontM2.readbit_text pol x0)|].
  apply Forall_cons; [apply row_correct; intros [x0 x1]; exact (FrontM2.readbits_text pol x0 x1)|].
  apply Forall_cons; [apply row_correct; intros [x0 x1]; exact (FrontM2.setbit_text pol x0 x1)|].
  apply Forall_cons; [apply row_correct; intros [[x0 x1] x2]; exact (FrontM2.setbits_text pol x0 x1 x2)|].
  apply Forall_cons; [apply row_correct; intros x0; exact (FrontM2.flipbit_text pol x0)|].
  apply Forall_cons; [apply row_correct; intros _; exact (FrontM2.clearallbits_text pol)|].
  apply Forall_cons; [apply row_correct; intros _; exact (FrontM2.setallbits_text pol)|].
  apply Forall_cons; [apply row_correct; intros _; exact (FrontM2.flipallbits_text pol)|].
  apply Forall_cons; [apply row_correct; intros [x0 x1]; exact (FrontM2.seekbit_text pol x0 x1)|].
  apply Forall_cons; [apply row_correct; intros x0; exact (FrontM2.afterbit_text pol x0)|].
  apply Forall_cons; [apply row_correct; intros [x0 x1]; exact (FrontM2.write_text pol x0 x1)|].
  apply Forall_cons; [apply row_correct; intros [x0 x1]; exact (FrontM2Typed.writeU16LE_text pol x0 x1)|].
  apply Forall_cons; [apply row_correct; intros [x0 x1]; exact (FrontM2Typed.writeU16BE_text pol x0 x1)|].
  apply Forall_cons; [apply row_correct; intros [x0 x1]; exact (FrontM2Typed.writeU32LE_text pol x0 x1)|].
  apply Forall_cons; [apply row_correct; intros [x0 x1]; exact (FrontM2Typed.writeU32BE_text pol x0 x1)|].
  apply Forall_cons; [apply row_correct; intros [x0 x1]; exact (FrontM2Typed.writeU64LE_text pol x0 x1)|].
  apply Forall_cons; [apply row_correct; intros [x0 x1]; exact (FrontM2Typed.writeU64BE_text pol x0 x1)|].
  apply Forall_cons; [apply row_correct; intros [x0 x1]; exact (FrontM2.read_text pol x0 x1)|].
  apply Forall_cons; [apply row_correct; intros [x0 x1]; exact (FrontM2Typed.readU16LE_text pol x0 x1)|].
  apply Forall_cons; [apply row_correct; intros [x0 x1]; exact (FrontM2Typed.readU16BE_text pol x0 x1)|].
  apply Forall_cons; [apply row_correct; intros [x0 x1]; exact (FrontM2Typed.readU32LE_text pol x0 x1)|].
  apply Forall_cons; [apply row_correct; intros [x0 x1]; exact (FrontM2Typed.readU32BE_text pol x0 x1)|].
  apply Forall_cons; [apply row_correct; intros [x0 x1]; exact (FrontM2Typed.readU64LE_text pol x0 x1)|].
  apply Forall_cons; [apply row_correct; intros [x0 x1]; exact (FrontM2Typed.readU64BE_text pol x0 x1)|].
  apply Forall_cons; [apply row_correct; intros [x0 x1]; exact (FrontM2.seek_text pol x0 x1)|].
  apply Forall_cons; [apply row_correct; intros x0; exact (FrontM2.after_text pol x0)|].
  apply Forall_cons; [apply row_correct; intros x0; exact (FrontM2.grow_text pol x0)|].
  apply Forall_cons; [apply row_correct; intros _; exact (FrontM2.refresh_text pol)|].
  apply Forall_cons; [apply row_correct; intros _; exact (FrontM2.alignbit_text pol)|].
  apply Forall_cons; [apply row_correct; intros _; exact (FrontM2.alignbyte_text pol)|].
  apply Forall_cons; [apply row_correct; intros _; exact (FrontM2.reset_text pol)|].
  apply Forall_cons; [apply row_correct; intros _; exact (FrontM2.Bytes_text pol)|].
  apply Forall_cons; [apply row_correct; intros _; exact (FrontM2.Capacity_text pol)|].
  apply Forall_cons; [apply row_correct; intros _; exact (FrontM2.BitCapacity_text pol)|].
  apply Forall_cons; [apply row_correct; intros _; exact (FrontM2.Offset_text pol)|].
  apply Forall_cons; [apply row_correct; intros _; exact (FrontM2.BitOffset_text pol)|].
  apply Forall_cons; [apply row_correct; intros _; exact (FrontM2.Refresh_text pol)|].
  apply Forall_cons; [apply row_correct; intros _; exact (FrontM2.Reset_text pol)|].
  apply Forall_cons; [apply row_correct; intros x0; exact (FrontM2.Grow_text pol x0)|].
  apply Forall_cons; [apply row_correct; intros [x0 x1]; exact (FrontM2.Seek_text pol x0 x1)|].
  apply Forall_cons; [apply row_correct; intros [x0 x1]; exact (FrontM2.SeekBit_text pol x0 x1)|].
  apply Forall_cons; [apply row_correct; intros _; exact (FrontM2.AlignBit_text pol)|].
  apply Forall_cons; [apply row_correct; intros _; exact (FrontM2.AlignByte_text pol)|].
  apply Forall_cons; [apply row_correct; intros x0; exact (FrontM2.After_text pol x0)|].
  apply Forall_cons; [apply row_correct; intros x0; exact (FrontM2.AfterBit_text pol x0)|].
  apply Forall_cons; [apply row_correct; intros [x0 x1]; exact (FrontM2.ReadBytes_text pol x0 x1)|].
  apply Forall_cons; [apply row_correct; intros [x0 x1]; exact (FrontM2Typed.ReadU16LE_text pol x0 x1)|].
  apply Forall_cons; [apply row_correct; intros [x0 x1]; exact (FrontM2Typed.ReadU16BE_text pol x0 x1)|].
  apply Forall_cons; [apply row_correct; intros [x0 x1]; exact (FrontM2Typed.ReadU32LE_text pol x0 x1)|].
  apply Forall_cons; [apply row_correct; intros [x0 x1]; exact (FrontM2Typed.ReadU32BE_text pol x0 x1)|].
  apply Forall_cons; [apply row_correct; intros [x0 x1]; exact (FrontM2Typed.ReadU64LE_text pol x0 x1)|].
  apply Forall_cons; [apply row_correct; intros [x0 x1]; exact (FrontM2Typed.ReadU64BE_text pol x0 x1)|].
  apply Forall_cons; [apply row_correct; intros x0; exact (FrontM2.ReadBytesNext_text pol x0)|].
  apply Forall_cons; [apply row_correct; intros x0; exact (FrontM2Typed.ReadU16LENext_text pol x0)|].
  apply Forall_cons; [apply row_correct; intros x0; exact (FrontM2Typed.ReadU16BENext_text pol x0)|].
  apply Forall_cons; [apply row_correct; intros x0; exact (FrontM2Typed.ReadU32LENext_text pol x0)|].
  apply Forall_cons; [apply row_correct; intros x0; exact (FrontM2Typed.ReadU32BENext_text pol x0)|].
  apply Forall_cons; [apply row_correct; intros x0; exact (FrontM2Typed.ReadU64LENext_text pol x0)|].
  apply Forall_cons; [apply row_correct; intros x0; exact (FrontM2Typed.ReadU64BENext_text pol x0)|].
  apply Forall_cons; [apply row_correct; intros [x0 x1]; exact (FrontM2.WriteBytes_text pol x0 x1)|].
  apply Forall_cons; [apply row_correct; intros [x0 x1]; exact (FrontM2Typed.WriteU16LE_text pol x0 x1)|].
  apply Forall_cons; [apply row_correct; intros [x0 x1]; exact (FrontM2Typed.WriteU16BE_text pol x0 x1)|].
  apply Forall_cons; [apply row_correct; intros [x0 x1]; exact (FrontM2Typed.WriteU32LE_text pol x0 x1)|].
  apply Forall_cons; [apply row_correct; intros [x0 x1]; exact (FrontM2Typed.WriteU32BE_text pol x0 x1)|].
  apply Forall_cons; [apply row_correct; intros [x0 x1]; exact (FrontM2Typed.WriteU64LE_text pol x0 x1)|].
  apply Forall_cons; [apply row_correct; intros [x0 x1]; exact (FrontM2Typed.WriteU64BE_text pol x0 x1)|].
  apply Forall_cons; [apply row_correct; intros x0; exact (FrontM2.WriteBytesNext_text pol x0)|].
  apply Forall_cons; [apply row_correct; intros x0; exact (FrontM2Typed.WriteU16LENext_text pol x0)|].
  apply Forall_cons; [apply row_correct; intros x0; exact (FrontM2Typed.WriteU16BENext_text pol x0)|].
  apply Forall_cons; [apply row_correct; intros x0; exact (FrontM2Typed.WriteU32LENext_text pol x0)|].
  apply Forall_cons; [apply row_correct; intros x0; exact (FrontM2Typed.WriteU32BENext_text pol x0)|].
  apply Forall_cons; [apply row_correct; intros x0; exact (FrontM2Typed.WriteU64LENext_text pol x0)|].
  apply Forall_cons; [apply row_correct; intros x0; exact (FrontM2Typed.WriteU64BENext_text pol x0)|].
  apply Forall_cons; [apply row_correct; intros x0; exact (FrontM2.ReadBit_text pol x0)|].
  apply Forall_cons; [apply row_correct; intros [x0 x1]; exact (FrontM2.ReadBits_text pol x0 x1)|].
  apply Forall_cons; [apply row_correct; intros _; exact (FrontM2.ReadBitNext_text pol)|].
  apply Forall_cons; [apply row_correct; intros x0; exact (FrontM2.ReadBitsNext_text pol x0)|].
  apply Forall_cons; [apply row_correct; intros [x0 x1]; exact (FrontM2.SetBit_text pol x0 x1)|].
  apply Forall_cons; [apply row_correct; intros [[x0 x1] x2]; exact (FrontM2.SetBits_text pol x0 x1 x2)|].
  apply Forall_cons; [apply row_correct; intros x0; exact (FrontM2.SetBitNext_text pol x0)|].
  apply Forall_cons; [apply row_correct; intros [x0 x1]; exact (FrontM2.SetBitsNext_text pol x0 x1)|].
  apply Forall_cons; [apply row_correct; intros x0; exact (FrontM2.FlipBit_text pol x0)|].
  apply Forall_cons; [apply row_correct; intros _; exact (FrontM2.FlipBitNext_text pol)|].
  apply Forall_cons; [apply row_correct; intros _; exact (FrontM2.ClearAllBits_text pol)|].
  apply Forall_cons; [apply row_correct; intros _; exact (FrontM2.SetAllBits_text pol)|].
  apply Forall_cons; [apply row_correct; intros _; exact (FrontM2.FlipAllBits_text pol)|].
  apply Forall_nil.
Qed.
Theorem v1_buffer_correct pol : Forall (correct B1 pol) (v1_buffer_table pol).
Proof.
  unfold v1_buffer_table.
  apply Forall_cons; [apply row_new_correct; intros x Hx; exact (FrontV1.NewBuffer_text pol x Hx)|].
  apply Forall_cons; [apply row_correct; intros x0; exact (FrontV1.readbit_text pol x0)|].
  apply Forall_cons; [apply row_correct; intros [x0 x1]; exact (FrontV1.readbits_text pol x0 x1)|].
  apply Forall_cons; [apply row_correct; intros [x0 x1]; exact (FrontV1.setbit_text pol x0 x1)|].
  apply Forall_cons; [apply row_correct; intros [[x0 x1] x2]; exact (FrontV1.setbits_text pol x0 x1 x2)|].
  apply Forall_cons; [apply row_correct; intros x0; exact (FrontV1.flipbit_text pol x0)|].
  apply Forall_cons; [apply row_correct; intros _; exact (FrontV1.clearallbits_text pol)|].
  apply Forall_cons; [apply row_correct; intros _; exact (FrontV1.setallbits_text pol)|].
  apply Forall_cons; [apply row_correct; intros _; exact (FrontV1.flipallbits_text pol)|].
  apply Forall_cons; [apply row_correct; intros [x0 x1]; exact (FrontV1.seekbit_text pol x0 x1)|].
  apply Forall_cons; [apply row_correct; intros x0; exact (FrontV1.afterbit_text pol x0)|].
  apply Forall_cons; [apply row_correct; intros [x0 x1]; exact (FrontV1.write_text pol x0 x1)|].
  apply Forall_cons; [apply row_correct; intros [[[x0 x1] x2] x3]; exact (FrontV1.writeComplex_text pol x0 x1 x2 x3)|].
  apply Forall_cons; [apply row_correct; intros [x0 x1]; exact (FrontV1.read_text pol x0 x1)|].
  apply Forall_cons; [apply row_correct; intros [[[x0 x1] x2] x3]; exact (FrontV1.readComplex_text pol x0 x1 x2 x3)|].
  apply Forall_cons; [apply row_correct; intros [x0 x1]; exact (FrontV1.seek_text pol x0 x1)|].
  apply Forall_cons; [apply row_correct; intros x0; exact (FrontV1.after_text pol x0)|].
  apply Forall_cons; [apply row_correct; intros x0; exact (FrontV1.grow_text pol x0)|].
  apply Forall_cons; [apply row_correct; intros _; exact (FrontV1.refresh_text pol)|].
  apply Forall_cons; [apply row_correct; intros _; exact (FrontV1.alignbit_text pol)|].
  apply Forall_cons; [apply row_correct; intros _; exact (FrontV1.alignbyte_text pol)|].
  apply Forall_cons; [apply row_correct; intros _; exact (FrontV1.Bytes_text pol)|].
  apply Forall_cons; [apply row_correct; intros _; exact (FrontV1.Capacity_text pol)|].
  apply Forall_cons; [apply row_correct; intros _; exact (FrontV1.BitCapacity_text pol)|].
  apply Forall_cons; [apply row_correct; intros _; exact (FrontV1.Offset_text pol)|].
  apply Forall_cons; [apply row_correct; intros _; exact (FrontV1.BitOffset_text pol)|].
  apply Forall_cons; [apply row_correct; intros _; exact (FrontV1.Refresh_text pol)|].
  apply Forall_cons; [apply row_correct; intros x0; exact (FrontV1.Grow_text pol x0)|].
  apply Forall_cons; [apply row_correct; intros [x0 x1]; exact (FrontV1.Seek_text pol x0 x1)|].
  apply Forall_cons; [apply row_correct; intros [x0 x1]; exact (FrontV1.SeekBit_text pol x0 x1)|].
  apply Forall_cons; [apply row_correct; intros _; exact (FrontV1.AlignBit_text pol)|].
  apply Forall_cons; [apply row_correct; intros _; exact (FrontV1.AlignByte_text pol)|].
  apply Forall_cons; [apply row_correct; intros x0; exact (FrontV1.After_text pol x0)|].
  apply Forall_cons; [apply row_correct; intros x0; exact (FrontV1.AfterBit_text pol x0)|].
  apply Forall_cons; [apply row_correct; intros x0; exact (FrontV1.ReadByte_text pol x0)|].
  apply Forall_cons; [apply row_correct; intros [x0 x1]; exact (FrontV1.ReadBytes_text pol x0 x1)|].
  apply Forall_cons; [apply row_correct; intros [[[x0 x1] x2] x3]; exact (FrontV1.ReadComplex_text pol x0 x1 x2 x3)|].
  apply Forall_cons; [apply row_correct; intros _; exact (FrontV1.ReadByteNext_text pol)|].
  apply Forall_cons; [apply row_correct; intros x0; exact (FrontV1.ReadBytesNext_text pol x0)|].
  apply Forall_cons; [apply row_correct; intros [[x0 x1] x2]; exact (FrontV1.ReadComplexNext_text pol x0 x1 x2)|].
  apply Forall_cons; [apply row_correct; intros [x0 x1]; exact (FrontV1.WriteByte_text pol x0 x1)|].
  apply Forall_cons; [apply row_correct; intros [x0 x1]; exact (FrontV1.WriteBytes_text pol x0 x1)|].
  apply Forall_cons; [apply row_correct; intros [[[x0 x1] x2] x3]; exact (FrontV1.WriteComplex_text pol x0 x1 x2 x3)|].
  apply Forall_cons; [apply row_correct; intros x0; exact (FrontV1.WriteByteNext_text pol x0)|].
  apply Forall_cons; [apply row_correct; intros x0; exact (FrontV1.WriteBytesNext_text pol x0)|].
  apply Forall_cons; [apply row_correct; intros [[x0 x1] x2]; exact (FrontV1.WriteComplexNext_text pol x0 x1 x2)|].
  apply Forall_cons; [apply row_correct; intros x0; exact (FrontV1.ReadBit_text pol x0)|].
  apply Forall_cons; [apply row_correct; intros [x0 x1]; exact (FrontV1.ReadBits_text pol x0 x1)|].
  apply Forall_cons; [apply row_correct; intros _; exact (FrontV1.ReadBitNext_text pol)|].
  apply Forall_cons; [apply row_correct; intros x0; exact (FrontV1.ReadBitsNext_text pol x0)|].
  apply Forall_cons; [apply row_correct; intros [x0 x1]; exact (FrontV1.SetBit_text pol x0 x1)|].
  apply Forall_cons; [apply row_correct; intros [[x0 x1] x2]; exact (FrontV1.SetBits_text pol x0 x1 x2)|].
  apply Forall_cons; [apply row_correct; intros x0; exact (FrontV1.SetBitNext_text pol x0)|].
  apply Forall_cons; [apply row_correct; intros [x0 x1]; exact (FrontV1.SetBitsNext_text pol x0 x1)|].
  apply Forall_cons; [apply row_correct; intros x0; exact (FrontV1.FlipBit_text pol x0)|].
  apply Forall_cons; [apply row_correct; intros _; exact (FrontV1.FlipBitNext_text pol)|].
  apply Forall_cons; [apply row_correct; intros _; exact (FrontV1.ClearAllBits_text pol)|].
  apply Forall_cons; [apply row_correct; intros _; exact (FrontV1.SetAllBits_text pol)|].
  apply Forall_cons; [apply row_correct; intros _; exact (FrontV1.FlipAllBits_text pol)|].
  apply Forall_nil.
Qed.
Theorem v1_minibuf_correct pol : Forall (correct M1 pol) (v1_minibuf_table pol).
Proof.
  unfold v1_minibuf_table.
  apply Forall_cons; [apply row_new_correct; intros x Hx; exact (FrontM1.NewMiniBuffer_text pol x Hx)|].
  apply Forall_cons; [apply row_correct; intros x0; exact (FrontM1.readbit_text pol x0)|].
  apply Forall_cons; [apply row_correct; intros [x0 x1]; exact (FrontM1.readbits_text pol x0 x1)|].
  apply Forall_cons; [apply row_correct; intros [x0 x1]; exact (FrontM1.setbit_text pol x0 x1)|].
  apply Forall_cons; [apply row_correct; intros [[x0 x1] x2]; exact (FrontM1.setbits_text pol x0 x1 x2)|].
  apply Forall_cons; [apply row_correct; intros x0; exact (FrontM1.flipbit_text pol x0)|].
  apply Forall_cons; [apply row_correct; intros _; exact (FrontM1.clearallbits_text pol)|].
  apply Forall_cons; [apply row_correct; intros _; exact (FrontM1.setallbits_text pol)|].
  apply Forall_cons; [apply row_correct; intros _; exact (FrontM1.flipallbits_text pol)|].
  apply Forall_cons; [apply row_correct; intros [x0 x1]; exact (FrontM1.seekbit_text pol x0 x1)|].
  apply Forall_cons; [apply row_correct; intros x0; exact (FrontM1.afterbit_text pol x0)|].
  apply Forall_cons; [apply row_correct; intros [x0 x1]; exact (FrontM1.write_text pol x0 x1)|].
  apply Forall_cons; [apply row_correct; intros [[[x0 x1] x2] x3]; exact (FrontM1.writeComplex_text pol x0 x1 x2 x3)|].
  apply Forall_cons; [apply row_correct; intros [x0 x1]; exact (FrontM1.read_text pol x0 x1)|].
  apply Forall_cons; [apply row_correct; intros [[[x0 x1] x2] x3]; exact (FrontM1.readComplex_text pol x0 x1 x2 x3)|].
  apply Forall_cons; [apply row_correct; intros [x0 x1]; exact (FrontM1.seek_text pol x0 x1)|].
  apply Forall_cons; [apply row_correct; intros x0; exact (FrontM1.after_text pol x0)|].
  apply Forall_cons; [apply row_correct; intros x0; exact (FrontM1.grow_text pol x0)|].
  apply Forall_cons; [apply row_correct; intros _; exact (FrontM1.refresh_text pol)|].
  apply Forall_cons; [apply row_correct; intros _; exact (FrontM1.alignbit_text pol)|].
  apply Forall_cons; [apply row_correct; intros _; exact (FrontM1.alignbyte_text pol)|].
  apply Forall_cons; [apply row_correct; intros _; exact (FrontM1.Bytes_text pol)|].
  apply Forall_cons; [apply row_correct; intros _; exact (FrontM1.Capacity_text pol)|].
  apply Forall_cons; [apply row_correct; intros _; exact (FrontM1.BitCapacity_text pol)|].
  apply Forall_cons; [apply row_correct; intros _; exact (FrontM1.Offset_text pol)|].
  apply Forall_cons; [apply row_correct; intros _; exact (FrontM1.BitOffset_text pol)|].
  apply Forall_cons; [apply row_correct; intros _; exact (FrontM1.Refresh_text pol)|].
  apply Forall_cons; [apply row_correct; intros x0; exact (FrontM1.Grow_text pol x0)|].
  apply Forall_cons; [apply row_correct; intros [x0 x1]; exact (FrontM1.Seek_text pol x0 x1)|].
  apply Forall_cons; [apply row_correct; intros [x0 x1]; exact (FrontM1.SeekBit_text pol x0 x1)|].
  apply Forall_cons; [apply row_correct; intros _; exact (FrontM1.AlignBit_text pol)|].
  apply Forall_cons; [apply row_correct; intros _; exact (FrontM1.AlignByte_text pol)|].
  apply Forall_cons; [apply row_correct; intros x0; exact (FrontM1.After_text pol x0)|].
  apply Forall_cons; [apply row_correct; intros x0; exact (FrontM1.AfterBit_text pol x0)|].
  apply Forall_cons; [apply row_correct; intros [x0 x1]; exact (FrontM1.ReadBytes_text pol x0 x1)|].
  apply Forall_cons; [apply row_correct; intros [[[x0 x1] x2] x3]; exact (FrontM1.ReadComplex_text pol x0 x1 x2 x3)|].
  apply Forall_cons; [apply row_correct; intros x0; exact (FrontM1.ReadBytesNext_text pol x0)|].
  apply Forall_cons; [apply row_correct; intros [[x0 x1] x2]; exact (FrontM1.ReadComplexNext_text pol x0 x1 x2)|].
  apply Forall_cons; [apply row_correct; intros [x0 x1]; exact (FrontM1.WriteBytes_text pol x0 x1)|].
  apply Forall_cons; [apply row_correct; intros [[[x0 x1] x2] x3]; exact (FrontM1.WriteComplex_text pol x0 x1 x2 x3)|].
  apply Forall_cons; [apply row_correct; intros x0; exact (FrontM1.WriteBytesNext_text pol x0)|].
  apply Forall_cons; [apply row_correct; intros [[x0 x1] x2]; exact (FrontM1.WriteComplexNext_text pol x0 x1 x2)|].
  apply Forall_cons; [apply row_correct; intros x0; exact (FrontM1.ReadBit_text pol x0)|].
  apply Forall_cons; [apply row_correct; intros [x0 x1]; exact (FrontM1.ReadBits_text pol x0 x1)|].
  apply Forall_cons; [apply row_correct; intros _; exact (FrontM1.ReadBitNext_text pol)|].
  apply Forall_cons; [apply row_correct; intros x0; exact (FrontM1.ReadBitsNext_text pol x0)|].
  apply Forall_cons; [apply row_correct; intros [x0 x1]; exact (FrontM1.SetBit_text pol x0 x1)|].
  apply Forall_cons; [apply row_correct; intros [[x0 x1] x2]; exact (FrontM1.SetBits_text pol x0 x1 x2)|].
  apply Forall_cons; [apply row_correct; intros x0; exact (FrontM1.SetBitNext_text pol x0)|].
  apply Forall_cons; [apply row_correct; intros [x0 x1]; exact (FrontM1.SetBitsNext_text pol x0 x1)|].
  apply Forall_cons; [apply row_correct; intros x0; exact (FrontM1.FlipBit_text pol x0)|].
  apply Forall_cons; [apply row_correct; intros _; exact (FrontM1.FlipBitNext_text pol)|].
  apply Forall_cons; [apply row_correct; intros _; exact (FrontM1.ClearAllBits_text pol)|].
  apply Forall_cons; [apply row_correct; intros _; exact (FrontM1.SetAllBits_text pol)|].
  apply Forall_cons; [apply row_correct; intros _; exact (FrontM1.FlipAllBits_text pol)|].
  apply Forall_nil.
Qed.
