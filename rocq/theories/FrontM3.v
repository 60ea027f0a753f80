(** * FrontM3: the models of the v3 [MiniBuffer] are what the Go text means. *)
From Coq Require Import ZArith List Bool String Lia.
From Verif Require Import GoSem Errors GoLex GoParse GoEval Conv Front V3Mini.
Import ListNotations.
Open Scope Z_scope.

Section M3.
Variable pol : Z -> Z -> Z.
Lemma Refresh_text : text_of M3 pol "Refresh" [] unit_ Refresh.
Proof. text Refresh. Qed.
#[local] Hint Resolve Refresh_text : text.
Lemma SeekBit_text off r : text_of M3 pol "SeekBit" [VInt I64 off; VBool r] unit_ (SeekBit off r).
Proof. text SeekBit. Qed.
#[local] Hint Resolve SeekBit_text : text.
Lemma SeekByte_text off r : text_of M3 pol "SeekByte" [VInt I64 off; VBool r] unit_ (SeekByte off r).
Proof. text SeekByte. Qed.
#[local] Hint Resolve SeekByte_text : text.
Lemma ReadBit_text off : text_of M3 pol "ReadBit" [VCell; VInt I64 off] (VInt U8) (ReadBit off).
Proof. text ReadBit. Qed.
#[local] Hint Resolve ReadBit_text : text.
Lemma ReadBitNext_text : text_of M3 pol "ReadBitNext" [VCell] (VInt U8) ReadBitNext.
Proof. text ReadBitNext. Qed.
#[local] Hint Resolve ReadBitNext_text : text.
Lemma SetBit_text off : text_of M3 pol "SetBit" [VInt I64 off] unit_ (SetBit off).
Proof. text SetBit. Qed.
#[local] Hint Resolve SetBit_text : text.
Lemma SetBitNext_text : text_of M3 pol "SetBitNext" [] unit_ SetBitNext.
Proof. text SetBitNext. Qed.
#[local] Hint Resolve SetBitNext_text : text.
Lemma ClearBit_text off : text_of M3 pol "ClearBit" [VInt I64 off] unit_ (ClearBit off).
Proof. text ClearBit. Qed.
#[local] Hint Resolve ClearBit_text : text.
Lemma ClearBitNext_text : text_of M3 pol "ClearBitNext" [] unit_ ClearBitNext.
Proof. text ClearBitNext. Qed.
#[local] Hint Resolve ClearBitNext_text : text.
Lemma FlipBit_text off : text_of M3 pol "FlipBit" [VInt I64 off] unit_ (FlipBit off).
Proof. text FlipBit. Qed.
#[local] Hint Resolve FlipBit_text : text.
Lemma FlipBitNext_text : text_of M3 pol "FlipBitNext" [] unit_ FlipBitNext.
Proof. text FlipBitNext. Qed.
#[local] Hint Resolve FlipBitNext_text : text.
Lemma AlignBit_text : text_of M3 pol "AlignBit" [] unit_ AlignBit.
Proof. text AlignBit. Qed.
#[local] Hint Resolve AlignBit_text : text.
Lemma WriteBytes_text off data : text_of M3 pol "WriteBytes" [VInt I64 off; VBytes data] unit_ (WriteBytes off data).
Proof. text WriteBytes. Qed.
#[local] Hint Resolve WriteBytes_text : text.
Lemma WriteBytesNext_text data : text_of M3 pol "WriteBytesNext" [VBytes data] unit_ (WriteBytesNext data).
Proof. text WriteBytesNext. Qed.
#[local] Hint Resolve WriteBytesNext_text : text.
Lemma ReadBytes_text off n : text_of M3 pol "ReadBytes" [VCell; VInt I64 off; VInt I64 n] VBytes (ReadBytes off n).
Proof. text ReadBytes. Qed.
#[local] Hint Resolve ReadBytes_text : text.
Lemma ReadBytesNext_text n : text_of M3 pol "ReadBytesNext" [VCell; VInt I64 n] VBytes (ReadBytesNext n).
Proof. text ReadBytesNext. Qed.
#[local] Hint Resolve ReadBytesNext_text : text.
Lemma AlignByte_text : text_of M3 pol "AlignByte" [] unit_ AlignByte.
Proof. text AlignByte. Qed.
#[local] Hint Resolve AlignByte_text : text.
Lemma TruncateLeft_text n : text_of M3 pol "TruncateLeft" [VInt I64 n] unit_ (TruncateLeft n).
Proof. text TruncateLeft. Qed.
#[local] Hint Resolve TruncateLeft_text : text.
Lemma TruncateRight_text n : text_of M3 pol "TruncateRight" [VInt I64 n] unit_ (TruncateRight n).
Proof. text TruncateRight. Qed.
#[local] Hint Resolve TruncateRight_text : text.
Lemma Reset_text : text_of M3 pol "Reset" [] unit_ Reset.
Proof. text Reset. Qed.
#[local] Hint Resolve Reset_text : text.
Lemma Bytes_text : text_of M3 pol "Bytes" [VCell] VBytes Bytes.
Proof. text Bytes. Qed.
#[local] Hint Resolve Bytes_text : text.
Lemma ByteCapacity_text : text_of M3 pol "ByteCapacity" [VCell] (VInt I64) ByteCapacity.
Proof. text ByteCapacity. Qed.
#[local] Hint Resolve ByteCapacity_text : text.
Lemma BitCapacity_text : text_of M3 pol "BitCapacity" [VCell] (VInt I64) BitCapacity.
Proof. text BitCapacity. Qed.
#[local] Hint Resolve BitCapacity_text : text.
Lemma ByteOffset_text : text_of M3 pol "ByteOffset" [VCell] (VInt I64) ByteOffset.
Proof. text ByteOffset. Qed.
#[local] Hint Resolve ByteOffset_text : text.
Lemma BitOffset_text : text_of M3 pol "BitOffset" [VCell] (VInt I64) BitOffset.
Proof. text BitOffset. Qed.
#[local] Hint Resolve BitOffset_text : text.

Lemma ReadBit_bit off : leaves (fun v => uconv 64 v = v) (ReadBit off).
Proof.
  unfold ReadBit. repeat (apply leaves_bind; intros). cbn [leaves]. apply uconv_bit.
Qed.
#[local] Hint Resolve ReadBit_bit : leaf.
Lemma ReadBits_text off n : text_of M3 pol "ReadBits" [VOutWord U64; VInt I64 off; VInt I64 n] unit_ (ReadBits off n).
Proof.
  enter ReadBits. loop_bout.
Qed.
#[local] Hint Resolve ReadBits_text : text.
Lemma ReadBitsNext_text n : text_of M3 pol "ReadBitsNext" [VOutWord U64; VInt I64 n] unit_ (ReadBitsNext n).
Proof. text ReadBitsNext. Qed.
Lemma SetBits_text off data n : text_of M3 pol "SetBits" [VInt I64 off; VInt U64 data; VInt I64 n] unit_ (SetBits off data n).
Proof. enter SetBits. loop_i. Qed.
#[local] Hint Resolve SetBits_text : text.
Lemma SetBitsNext_text data n : text_of M3 pol "SetBitsNext" [VInt U64 data; VInt I64 n] unit_ (SetBitsNext data n).
Proof. text SetBitsNext. Qed.
Lemma ClearAllBits_text : text_of M3 pol "ClearAllBits" [] unit_ ClearAllBits.
Proof. text ClearAllBits. loop_i. Qed.
Lemma SetAllBits_text : text_of M3 pol "SetAllBits" [] unit_ SetAllBits.
Proof. text SetAllBits. loop_i. Qed.
Lemma FlipAllBits_text : text_of M3 pol "FlipAllBits" [] unit_ FlipAllBits.
Proof. text FlipAllBits. loop_i. Qed.
Lemma AfterBit_text off : text_of M3 pol "AfterBit" [VCell; VInts I64 off] (VInt I64) (AfterBit (hd_error off)).
Proof.
  destruct off as [|o off]; enter AfterBit.
  - change (zlen [] =? 0) with true. cbv [hd_error]. go.
  - rewrite zlen_cons_0, elem_0. cbn [hd_error bind]. go.
Qed.
Lemma AfterByte_text off : text_of M3 pol "AfterByte" [VCell; VInts I64 off] (VInt I64) (AfterByte (hd_error off)).
Proof.
  destruct off as [|o off]; enter AfterByte.
  - change (zlen [] =? 0) with true. cbv [hd_error]. go.
  - rewrite zlen_cons_0, elem_0. cbn [hd_error bind]. go.
Qed.
Lemma Grow_text n : text_of M3 pol "Grow" [VInt I64 n] unit_ (Grow n).
Proof. text Grow. Qed.
Lemma NewMiniBuffer_text slices : is_i64 (zlen slices) ->
  text_of M3 pol "NewMiniBuffer" [VCell; VSlices slices] self_ (NewMiniBuffer pol slices).
Proof.
  intros HL. destruct slices as [|s [|s2 l]]; enter NewMiniBuffer.
  - change (zlen [] =? 0) with true. go.
  - rewrite zlen_cons_0. change (zlen [s] =? 1) with true.
    change ((0 <=? 0) && (0 <? zlen [s])) with true. cbv [Z.to_nat nth]. go.
  - rewrite zlen_cons_0, zlen_cons2_1. go. loop_i.
    rewrite in_range_ok by (try apply zlen_pos; assumption). 
    rewrite (nth_in_range (s :: s2 :: l) i x6 (mkSlice 0 0 0 0)) by (try apply zlen_pos; assumption). go.
Qed.
End M3.
