(** * FrontM1: the models of the v1 [MiniBuffer] are what the Go text means. *)
From Coq Require Import ZArith List Bool String Lia.
From Verif Require Import GoSem Errors GoLex GoParse GoEval Conv Front V1Buffer V1Mini.
Import ListNotations.
Open Scope Z_scope.

Section M1.
Variable pol : Z -> Z -> Z.
Lemma atob_text b : text_of M1 pol "atob" [VBool b] (VInt U8) (Ret (atob b)).
Proof. destruct b; text V1Buffer.atob. Qed.
#[local] Hint Resolve atob_text : text.
Lemma refresh_text : text_of M1 pol "refresh" [] unit_ refresh.
Proof. text refresh. Qed.
#[local] Hint Resolve refresh_text : text.
Lemma readbit_text off : text_of M1 pol "readbit" [VCell; VInt I64 off] (VInt U8) (readbit off).
Proof. text readbit. Qed.
#[local] Hint Resolve readbit_text : text.
Lemma readbit_bit off : leaves (fun v => uconv 64 v = v) (readbit off).
Proof.
  unfold readbit.
  repeat (apply leaves_bind; intros). cbn [leaves]. destruct (negb _); reflexivity.
Qed.
#[local] Hint Resolve readbit_bit : leaf.
Lemma readbits_text off n : text_of M1 pol "readbits" [VOutWord U64; VInt I64 off; VInt I64 n] unit_ (readbits off n).
Proof. enter readbits. loop_for_local "bout"%string. Qed.
#[local] Hint Resolve readbits_text : text.
Lemma setbit_text off data : text_of M1 pol "setbit" [VInt I64 off; VInt U8 data] unit_ (setbit off data).
Proof. text setbit. Qed.
#[local] Hint Resolve setbit_text : text.
Lemma setbits_text off data n : text_of M1 pol "setbits" [VInt I64 off; VInt U64 data; VInt I64 n] unit_ (setbits off data n).
Proof. enter setbits. loop_for_i. Qed.
#[local] Hint Resolve setbits_text : text.
Lemma flipbit_text off : text_of M1 pol "flipbit" [VInt I64 off] unit_ (flipbit off).
Proof. text flipbit. Qed.
#[local] Hint Resolve flipbit_text : text.
Lemma clearallbits_text : text_of M1 pol "clearallbits" [] unit_ clearallbits.
Proof. text clearallbits. loop_range ltac:(idtac). Qed.
#[local] Hint Resolve clearallbits_text : text.
Lemma setallbits_text : text_of M1 pol "setallbits" [] unit_ setallbits.
Proof. text setallbits. loop_range ltac:(idtac). Qed.
#[local] Hint Resolve setallbits_text : text.
Lemma flipallbits_text : text_of M1 pol "flipallbits" [] unit_ flipallbits.
Proof. text flipallbits. loop_range ltac:(idtac). Qed.
#[local] Hint Resolve flipallbits_text : text.
Lemma seekbit_text off r : text_of M1 pol "seekbit" [VInt I64 off; VBool r] unit_ (seekbit off r).
Proof. text seekbit. Qed.
#[local] Hint Resolve seekbit_text : text.
Lemma afterbit_text off : text_of M1 pol "afterbit" [VCell; VInts I64 off] (VInt I64) (afterbit (hd_error off)).
Proof. 
  destruct off as [|o off]; enter afterbit.
  - change (zlen [] =? 0) with true. cbv [hd_error]. go.
  - rewrite zlen_cons_0, elem_0. cbn [hd_error bind]. go.
 Qed.
#[local] Hint Resolve afterbit_text : text.
Lemma write_text off data : text_of M1 pol "write" [VInt I64 off; VBytes data] unit_ (write off data).
Proof. text write. loop_i. Qed.
#[local] Hint Resolve write_text : text.
Lemma writeComplex_text off x size e :
  text_of M1 pol "writeComplex" [VInt I64 off; VAny (dyn x); VInt IInt size; VEndian e] unit_ (writeComplex off x size e).
Proof.
  destruct x; cbn [dyn]; enter writeComplex;
    unfold complex_bytes, as_bytes, as_u16, as_u32, as_u64, Unsigned8, Unsigned16, Unsigned32, Unsigned64, put_loop; go;
    loop_for_slice "tdata"%string ltac:(cbn [map copy_digits bind]).
Qed.
#[local] Hint Resolve writeComplex_text : text.
Lemma read_text off n : text_of M1 pol "read" [VCell; VInt I64 off; VInt I64 n] VBytes (read off n).
Proof. text read. Qed.
#[local] Hint Resolve read_text : text.
Lemma readComplex_text off n size e :
  text_of M1 pol "readComplex" [VCell; VInt I64 off; VInt I64 n; VInt IInt size; VEndian e] any_ (readComplex off n size e).
Proof.
  enter readComplex; unfold decode_loop, Unsigned8, Unsigned16, Unsigned32, Unsigned64. go.
  all: loop_for_ints "*out"%string.
Qed.
#[local] Hint Resolve readComplex_text : text.
Lemma seek_text off r : text_of M1 pol "seek" [VInt I64 off; VBool r] unit_ (seek off r).
Proof. text seek. Qed.
#[local] Hint Resolve seek_text : text.
Lemma after_text off : text_of M1 pol "after" [VCell; VInts I64 off] (VInt I64) (after (hd_error off)).
Proof. 
  destruct off as [|o off]; enter after.
  - change (zlen [] =? 0) with true. cbv [hd_error]. go.
  - rewrite zlen_cons_0, elem_0. cbn [hd_error bind]. go.
 Qed.
#[local] Hint Resolve after_text : text.
Lemma grow_text n : text_of M1 pol "grow" [VInt I64 n] unit_ (grow pol n).
Proof. text grow. Qed.
#[local] Hint Resolve grow_text : text.
Lemma alignbit_text : text_of M1 pol "alignbit" [] unit_ alignbit.
Proof. text alignbit. Qed.
#[local] Hint Resolve alignbit_text : text.
Lemma alignbyte_text : text_of M1 pol "alignbyte" [] unit_ alignbyte.
Proof. text alignbyte. Qed.
#[local] Hint Resolve alignbyte_text : text.
Lemma Bytes_text : text_of M1 pol "Bytes" [VCell] VBytes Bytes.
Proof. text Bytes. Qed.
#[local] Hint Resolve Bytes_text : text.
Lemma Capacity_text : text_of M1 pol "Capacity" [VCell] (VInt I64) Capacity.
Proof. text Capacity. Qed.
#[local] Hint Resolve Capacity_text : text.
Lemma BitCapacity_text : text_of M1 pol "BitCapacity" [VCell] (VInt I64) BitCapacity.
Proof. text BitCapacity. Qed.
#[local] Hint Resolve BitCapacity_text : text.
Lemma Offset_text : text_of M1 pol "Offset" [VCell] (VInt I64) Offset.
Proof. text Offset. Qed.
#[local] Hint Resolve Offset_text : text.
Lemma BitOffset_text : text_of M1 pol "BitOffset" [VCell] (VInt I64) BitOffset.
Proof. text BitOffset. Qed.
#[local] Hint Resolve BitOffset_text : text.
Lemma Refresh_text : text_of M1 pol "Refresh" [] unit_ Refresh.
Proof. text Refresh. Qed.
#[local] Hint Resolve Refresh_text : text.
Lemma Grow_text n : text_of M1 pol "Grow" [VInt I64 n] unit_ (Grow pol n).
Proof. text Grow. Qed.
#[local] Hint Resolve Grow_text : text.
Lemma Seek_text off r : text_of M1 pol "Seek" [VInt I64 off; VBool r] unit_ (Seek off r).
Proof. text Seek. Qed.
#[local] Hint Resolve Seek_text : text.
Lemma SeekBit_text off r : text_of M1 pol "SeekBit" [VInt I64 off; VBool r] unit_ (SeekBit off r).
Proof. text SeekBit. Qed.
#[local] Hint Resolve SeekBit_text : text.
Lemma AlignBit_text : text_of M1 pol "AlignBit" [] unit_ AlignBit.
Proof. text AlignBit. Qed.
#[local] Hint Resolve AlignBit_text : text.
Lemma AlignByte_text : text_of M1 pol "AlignByte" [] unit_ AlignByte.
Proof. text AlignByte. Qed.
#[local] Hint Resolve AlignByte_text : text.
Lemma After_text off : text_of M1 pol "After" [VCell; VInts I64 off] (VInt I64) (After (hd_error off)).
Proof. text After. Qed.
#[local] Hint Resolve After_text : text.
Lemma AfterBit_text off : text_of M1 pol "AfterBit" [VCell; VInts I64 off] (VInt I64) (AfterBit (hd_error off)).
Proof. text AfterBit. Qed.
#[local] Hint Resolve AfterBit_text : text.
Lemma ReadBytes_text off n : text_of M1 pol "ReadBytes" [VCell; VInt I64 off; VInt I64 n] VBytes (ReadBytes off n).
Proof. text ReadBytes. Qed.
#[local] Hint Resolve ReadBytes_text : text.
Lemma ReadComplex_text off n size e :
  text_of M1 pol "ReadComplex" [VCell; VInt I64 off; VInt I64 n; VInt IInt size; VEndian e] any_ (ReadComplex off n size e).
Proof.
  text ReadComplex.
Qed.
#[local] Hint Resolve ReadComplex_text : text.
Lemma ReadBytesNext_text n : text_of M1 pol "ReadBytesNext" [VCell; VInt I64 n] VBytes (ReadBytesNext n).
Proof. text ReadBytesNext. Qed.
#[local] Hint Resolve ReadBytesNext_text : text.
Lemma ReadComplexNext_text n size e :
  text_of M1 pol "ReadComplexNext" [VCell; VInt I64 n; VInt IInt size; VEndian e] any_ (ReadComplexNext n size e).
Proof.
  text ReadComplexNext.
Qed.
#[local] Hint Resolve ReadComplexNext_text : text.
Lemma WriteBytes_text off data : text_of M1 pol "WriteBytes" [VInt I64 off; VBytes data] unit_ (WriteBytes off data).
Proof. text WriteBytes. Qed.
#[local] Hint Resolve WriteBytes_text : text.
Lemma WriteComplex_text off x size e :
  text_of M1 pol "WriteComplex" [VInt I64 off; VAny (dyn x); VInt IInt size; VEndian e] unit_ (WriteComplex off x size e).
Proof.
  text WriteComplex.
Qed.
#[local] Hint Resolve WriteComplex_text : text.
Lemma WriteBytesNext_text data : text_of M1 pol "WriteBytesNext" [VBytes data] unit_ (WriteBytesNext data).
Proof. text WriteBytesNext. Qed.
#[local] Hint Resolve WriteBytesNext_text : text.
Lemma WriteComplexNext_text x size e :
  text_of M1 pol "WriteComplexNext" [VAny (dyn x); VInt IInt size; VEndian e] unit_ (WriteComplexNext x size e).
Proof.
  enter WriteComplexNext. go1. go1.
  destruct x; cbn [dyn]; norm; unfold as_bytes, as_u16, as_u32, as_u64, Unsigned8, Unsigned16, Unsigned32, Unsigned64; go.
Qed.
#[local] Hint Resolve WriteComplexNext_text : text.
Lemma ReadBit_text off : text_of M1 pol "ReadBit" [VCell; VInt I64 off] (VInt U8) (ReadBit off).
Proof. text ReadBit. Qed.
#[local] Hint Resolve ReadBit_text : text.
Lemma ReadBits_text off n : text_of M1 pol "ReadBits" [VOutWord U64; VInt I64 off; VInt I64 n] unit_ (ReadBits off n).
Proof. text ReadBits. Qed.
#[local] Hint Resolve ReadBits_text : text.
Lemma ReadBitNext_text : text_of M1 pol "ReadBitNext" [VCell] (VInt U8) ReadBitNext.
Proof. text ReadBitNext. Qed.
#[local] Hint Resolve ReadBitNext_text : text.
Lemma ReadBitsNext_text n : text_of M1 pol "ReadBitsNext" [VOutWord U64; VInt I64 n] unit_ (ReadBitsNext n).
Proof. text ReadBitsNext. Qed.
#[local] Hint Resolve ReadBitsNext_text : text.
Lemma SetBit_text off data : text_of M1 pol "SetBit" [VInt I64 off; VInt U8 data] unit_ (SetBit off data).
Proof. text SetBit. Qed.
#[local] Hint Resolve SetBit_text : text.
Lemma SetBits_text off data n : text_of M1 pol "SetBits" [VInt I64 off; VInt U64 data; VInt I64 n] unit_ (SetBits off data n).
Proof. text SetBits. Qed.
#[local] Hint Resolve SetBits_text : text.
Lemma SetBitNext_text data : text_of M1 pol "SetBitNext" [VInt U8 data] unit_ (SetBitNext data).
Proof. text SetBitNext. Qed.
#[local] Hint Resolve SetBitNext_text : text.
Lemma SetBitsNext_text data n : text_of M1 pol "SetBitsNext" [VInt U64 data; VInt I64 n] unit_ (SetBitsNext data n).
Proof. text SetBitsNext. Qed.
#[local] Hint Resolve SetBitsNext_text : text.
Lemma FlipBit_text off : text_of M1 pol "FlipBit" [VInt I64 off] unit_ (FlipBit off).
Proof. text FlipBit. Qed.
#[local] Hint Resolve FlipBit_text : text.
Lemma FlipBitNext_text : text_of M1 pol "FlipBitNext" [] unit_ FlipBitNext.
Proof. text FlipBitNext. Qed.
#[local] Hint Resolve FlipBitNext_text : text.
Lemma ClearAllBits_text : text_of M1 pol "ClearAllBits" [] unit_ ClearAllBits.
Proof. text ClearAllBits. Qed.
#[local] Hint Resolve ClearAllBits_text : text.
Lemma SetAllBits_text : text_of M1 pol "SetAllBits" [] unit_ SetAllBits.
Proof. text SetAllBits. Qed.
#[local] Hint Resolve SetAllBits_text : text.
Lemma FlipAllBits_text : text_of M1 pol "FlipAllBits" [] unit_ FlipAllBits.
Proof. text FlipAllBits. Qed.
#[local] Hint Resolve FlipAllBits_text : text.
Lemma NewMiniBuffer_text slices : is_i64 (zlen slices) ->
  text_of M1 pol "NewMiniBuffer" [VCell; VSlices slices] self_ (NewMiniBuffer pol slices).
Proof.
  intros HL. destruct slices as [|s [|s2 l]]; enter NewMiniBuffer.
  - change (zlen [] =? 0) with true. go.
  - rewrite zlen_cons_0. change (zlen [s] =? 1) with true.
    change ((0 <=? 0) && (0 <? zlen [s])) with true. cbv [Z.to_nat nth]. go.
  - rewrite zlen_cons_0, zlen_cons2_1. go. loop_range ltac:(idtac).
    rewrite (nth_for_range (s :: s2 :: l) i x6 (mkSlice 0 0 0 0)) by assumption. go.
Qed.
End M1.
