(** * FrontV2: the models of the v2 [Buffer] are what the Go text means. *)
From Coq Require Import ZArith List Bool String Lia.
From Verif Require Import GoSem Errors GoLex GoParse GoEval Conv Front V2Buffer.
Import ListNotations.
Open Scope Z_scope.

Section V2.
Variable pol : Z -> Z -> Z.
Lemma atob_text b : text_of B2 pol "atob" [VBool b] (VInt U8) (Ret (atob b)).
Proof. destruct b; text atob. Qed.
#[local] Hint Resolve atob_text : text.
Lemma refresh_text : text_of B2 pol "refresh" [] unit_ refresh.
Proof. text refresh. Qed.
#[local] Hint Resolve refresh_text : text.
Lemma readbit_text off : text_of B2 pol "readbit" [VInt I64 off] (VInt U8) (readbit off).
Proof. text readbit. Qed.
#[local] Hint Resolve readbit_text : text.
Lemma readbit_bit off : leaves (fun v => uconv 64 v = v) (readbit off).
Proof.
  unfold readbit, locked. repeat (apply leaves_bind; intros). apply leaves_finally.
  repeat (apply leaves_bind; intros). cbn [leaves]. unfold atob. destruct (negb _); reflexivity.
Qed.
#[local] Hint Resolve readbit_bit : leaf.
Lemma readbits_text off n : text_of B2 pol "readbits" [VInt I64 off; VInt I64 n] (VInt U64) (readbits off n).
Proof. enter readbits. loop_out. Qed.
#[local] Hint Resolve readbits_text : text.
Lemma setbit_text off data : text_of B2 pol "setbit" [VInt I64 off; VInt U8 data] unit_ (setbit off data).
Proof. text setbit. Qed.
#[local] Hint Resolve setbit_text : text.
Lemma setbits_text off data n : text_of B2 pol "setbits" [VInt I64 off; VInt U64 data; VInt I64 n] unit_ (setbits off data n).
Proof. enter setbits. loop_i. Qed.
#[local] Hint Resolve setbits_text : text.
Lemma flipbit_text off : text_of B2 pol "flipbit" [VInt I64 off] unit_ (flipbit off).
Proof. text flipbit. Qed.
#[local] Hint Resolve flipbit_text : text.
Lemma clearallbits_text : text_of B2 pol "clearallbits" [] unit_ clearallbits.
Proof. text clearallbits. loop_i. Qed.
#[local] Hint Resolve clearallbits_text : text.
Lemma setallbits_text : text_of B2 pol "setallbits" [] unit_ setallbits.
Proof. text setallbits. loop_i. Qed.
#[local] Hint Resolve setallbits_text : text.
Lemma flipallbits_text : text_of B2 pol "flipallbits" [] unit_ flipallbits.
Proof. text flipallbits. loop_i. Qed.
#[local] Hint Resolve flipallbits_text : text.
Lemma seekbit_text off r : text_of B2 pol "seekbit" [VInt I64 off; VBool r] unit_ (seekbit off r).
Proof. text seekbit. Qed.
#[local] Hint Resolve seekbit_text : text.
Lemma afterbit_text off : text_of B2 pol "afterbit" [VInts I64 off] (VInt I64) (afterbit (hd_error off)).
Proof. 
  destruct off as [|o off]; enter afterbit.
  - change (zlen [] =? 0) with true. cbv [hd_error]. go.
  - rewrite zlen_cons_0, elem_0. cbn [hd_error bind]. go.
 Qed.
#[local] Hint Resolve afterbit_text : text.
Lemma write_text off data : text_of B2 pol "write" [VInt I64 off; VBytes data] unit_ (write off data).
Proof. text write. loop_i. Qed.
#[local] Hint Resolve write_text : text.
Lemma read_text off n : text_of B2 pol "read" [VInt I64 off; VInt I64 n] VBytes (read off n).
Proof. text read. Qed.
#[local] Hint Resolve read_text : text.
Lemma seek_text off r : text_of B2 pol "seek" [VInt I64 off; VBool r] unit_ (seek off r).
Proof. text seek. Qed.
#[local] Hint Resolve seek_text : text.
Lemma after_text off : text_of B2 pol "after" [VInts I64 off] (VInt I64) (after (hd_error off)).
Proof. 
  destruct off as [|o off]; enter after.
  - change (zlen [] =? 0) with true. cbv [hd_error]. go.
  - rewrite zlen_cons_0, elem_0. cbn [hd_error bind]. go.
 Qed.
#[local] Hint Resolve after_text : text.
Lemma grow_text n : text_of B2 pol "grow" [VInt I64 n] unit_ (grow pol n).
Proof. text grow. Qed.
#[local] Hint Resolve grow_text : text.
Lemma alignbit_text : text_of B2 pol "alignbit" [] unit_ alignbit.
Proof. text alignbit. Qed.
#[local] Hint Resolve alignbit_text : text.
Lemma alignbyte_text : text_of B2 pol "alignbyte" [] unit_ alignbyte.
Proof. text alignbyte. Qed.
#[local] Hint Resolve alignbyte_text : text.
Lemma reset_text : text_of B2 pol "reset" [] unit_ reset.
Proof. text reset. Qed.
#[local] Hint Resolve reset_text : text.
Lemma Bytes_text : text_of B2 pol "Bytes" [] VBytes Bytes.
Proof. text Bytes. Qed.
#[local] Hint Resolve Bytes_text : text.
Lemma Capacity_text : text_of B2 pol "Capacity" [] (VInt I64) Capacity.
Proof. text Capacity. Qed.
#[local] Hint Resolve Capacity_text : text.
Lemma BitCapacity_text : text_of B2 pol "BitCapacity" [] (VInt I64) BitCapacity.
Proof. text BitCapacity. Qed.
#[local] Hint Resolve BitCapacity_text : text.
Lemma Offset_text : text_of B2 pol "Offset" [] (VInt I64) Offset.
Proof. text Offset. Qed.
#[local] Hint Resolve Offset_text : text.
Lemma BitOffset_text : text_of B2 pol "BitOffset" [] (VInt I64) BitOffset.
Proof. text BitOffset. Qed.
#[local] Hint Resolve BitOffset_text : text.
Lemma Refresh_text : text_of B2 pol "Refresh" [] unit_ Refresh.
Proof. text Refresh. Qed.
#[local] Hint Resolve Refresh_text : text.
Lemma Reset_text : text_of B2 pol "Reset" [] unit_ Reset.
Proof. text Reset. Qed.
#[local] Hint Resolve Reset_text : text.
Lemma Grow_text n : text_of B2 pol "Grow" [VInt I64 n] unit_ (Grow pol n).
Proof. text Grow. Qed.
#[local] Hint Resolve Grow_text : text.
Lemma Seek_text off r : text_of B2 pol "Seek" [VInt I64 off; VBool r] unit_ (Seek off r).
Proof. text Seek. Qed.
#[local] Hint Resolve Seek_text : text.
Lemma SeekBit_text off r : text_of B2 pol "SeekBit" [VInt I64 off; VBool r] unit_ (SeekBit off r).
Proof. text SeekBit. Qed.
#[local] Hint Resolve SeekBit_text : text.
Lemma AlignBit_text : text_of B2 pol "AlignBit" [] unit_ AlignBit.
Proof. text AlignBit. Qed.
#[local] Hint Resolve AlignBit_text : text.
Lemma AlignByte_text : text_of B2 pol "AlignByte" [] unit_ AlignByte.
Proof. text AlignByte. Qed.
#[local] Hint Resolve AlignByte_text : text.
Lemma After_text off : text_of B2 pol "After" [VInts I64 off] (VInt I64) (After (hd_error off)).
Proof. text After. Qed.
#[local] Hint Resolve After_text : text.
Lemma AfterBit_text off : text_of B2 pol "AfterBit" [VInts I64 off] (VInt I64) (AfterBit (hd_error off)).
Proof. text AfterBit. Qed.
#[local] Hint Resolve AfterBit_text : text.
Lemma ReadByte_text off : text_of B2 pol "ReadByte" [VInt I64 off] (VInt U8) (ReadByte off).
Proof. text ReadByte. Qed.
#[local] Hint Resolve ReadByte_text : text.
Lemma ReadBytes_text off n : text_of B2 pol "ReadBytes" [VInt I64 off; VInt I64 n] VBytes (ReadBytes off n).
Proof. text ReadBytes. Qed.
#[local] Hint Resolve ReadBytes_text : text.
Lemma ReadByteNext_text : text_of B2 pol "ReadByteNext" [] (VInt U8) ReadByteNext.
Proof. text ReadByteNext. Qed.
#[local] Hint Resolve ReadByteNext_text : text.
Lemma ReadBytesNext_text n : text_of B2 pol "ReadBytesNext" [VInt I64 n] VBytes (ReadBytesNext n).
Proof. text ReadBytesNext. Qed.
#[local] Hint Resolve ReadBytesNext_text : text.
Lemma WriteByte_text off data : text_of B2 pol "WriteByte" [VInt I64 off; VInt U8 data] unit_ (WriteByte off data).
Proof. text WriteByte. Qed.
#[local] Hint Resolve WriteByte_text : text.
Lemma WriteBytes_text off data : text_of B2 pol "WriteBytes" [VInt I64 off; VBytes data] unit_ (WriteBytes off data).
Proof. text WriteBytes. Qed.
#[local] Hint Resolve WriteBytes_text : text.
Lemma WriteByteNext_text data : text_of B2 pol "WriteByteNext" [VInt U8 data] unit_ (WriteByteNext data).
Proof. text WriteByteNext. Qed.
#[local] Hint Resolve WriteByteNext_text : text.
Lemma WriteBytesNext_text data : text_of B2 pol "WriteBytesNext" [VBytes data] unit_ (WriteBytesNext data).
Proof. text WriteBytesNext. Qed.
#[local] Hint Resolve WriteBytesNext_text : text.
Lemma ReadBit_text off : text_of B2 pol "ReadBit" [VInt I64 off] (VInt U8) (ReadBit off).
Proof. text ReadBit. Qed.
#[local] Hint Resolve ReadBit_text : text.
Lemma ReadBits_text off n : text_of B2 pol "ReadBits" [VInt I64 off; VInt I64 n] (VInt U64) (ReadBits off n).
Proof. text ReadBits. Qed.
#[local] Hint Resolve ReadBits_text : text.
Lemma ReadBitNext_text : text_of B2 pol "ReadBitNext" [] (VInt U8) ReadBitNext.
Proof. text ReadBitNext. Qed.
#[local] Hint Resolve ReadBitNext_text : text.
Lemma ReadBitsNext_text n : text_of B2 pol "ReadBitsNext" [VInt I64 n] (VInt U64) (ReadBitsNext n).
Proof. text ReadBitsNext. Qed.
#[local] Hint Resolve ReadBitsNext_text : text.
Lemma SetBit_text off data : text_of B2 pol "SetBit" [VInt I64 off; VInt U8 data] unit_ (SetBit off data).
Proof. text SetBit. Qed.
#[local] Hint Resolve SetBit_text : text.
Lemma SetBits_text off data n : text_of B2 pol "SetBits" [VInt I64 off; VInt U64 data; VInt I64 n] unit_ (SetBits off data n).
Proof. text SetBits. Qed.
#[local] Hint Resolve SetBits_text : text.
Lemma SetBitNext_text data : text_of B2 pol "SetBitNext" [VInt U8 data] unit_ (SetBitNext data).
Proof. text SetBitNext. Qed.
#[local] Hint Resolve SetBitNext_text : text.
Lemma SetBitsNext_text data n : text_of B2 pol "SetBitsNext" [VInt U64 data; VInt I64 n] unit_ (SetBitsNext data n).
Proof. text SetBitsNext. Qed.
#[local] Hint Resolve SetBitsNext_text : text.
Lemma FlipBit_text off : text_of B2 pol "FlipBit" [VInt I64 off] unit_ (FlipBit off).
Proof. text FlipBit. Qed.
#[local] Hint Resolve FlipBit_text : text.
Lemma FlipBitNext_text : text_of B2 pol "FlipBitNext" [] unit_ FlipBitNext.
Proof. text FlipBitNext. Qed.
#[local] Hint Resolve FlipBitNext_text : text.
Lemma ClearAllBits_text : text_of B2 pol "ClearAllBits" [] unit_ ClearAllBits.
Proof. text ClearAllBits. Qed.
#[local] Hint Resolve ClearAllBits_text : text.
Lemma SetAllBits_text : text_of B2 pol "SetAllBits" [] unit_ SetAllBits.
Proof. text SetAllBits. Qed.
#[local] Hint Resolve SetAllBits_text : text.
Lemma FlipAllBits_text : text_of B2 pol "FlipAllBits" [] unit_ FlipAllBits.
Proof. text FlipAllBits. Qed.
#[local] Hint Resolve FlipAllBits_text : text.
Lemma NewBuffer_text slices : is_i64 (zlen slices) ->
  text_of B2 pol "NewBuffer" [VSlices slices] self_ (NewBuffer pol slices).
Proof.
  intros HL. destruct slices as [|s [|s2 l]]; enter NewBuffer.
  - change (zlen [] =? 0) with true. go.
  - rewrite zlen_cons_0. change (zlen [s] =? 1) with true.
    change ((0 <=? 0) && (0 <? zlen [s])) with true. cbv [Z.to_nat nth]. go.
  - rewrite zlen_cons_0, zlen_cons2_1. go. loop_range ltac:(idtac).
    rewrite (nth_for_range (s :: s2 :: l) i x6 (mkSlice 0 0 0 0)) by assumption. go.
Qed.
End V2.
