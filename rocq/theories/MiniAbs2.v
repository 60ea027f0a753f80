(** * MiniAbs2: the public API of the v1 and v2 [MiniBuffer] as data, and the
    abstract MiniBuffer of these versions.

    The calls are those of OldCalls.v, run on a MiniBuffer.  As in MiniAbs.v the
    variable behind an [out] pointer of [ReadBits] and of the v2 typed readers is
    [outs] of the state. *)
From Coq Require Import ZArith List Bool.
From Verif Require Import GoSem Errors Spec Calls Abs MiniAbs OldCalls V2Agree V1Lemmas V1Calls Abs2.
From Verif Require V2Mini V1Mini.
Import ListNotations.
Open Scope Z_scope.
Open Scope go_scope.

(** ** The real API *)

(** Neither version has WriteByte and ReadByte; v1 has no Reset. *)
Definition old_mini_op {B} (o : op2 B) : bool :=
  match o with PWriteByte _ | PReadByte => false | _ => true end.
Definition old_mini_method {B} (v : version) (c : call2 B) : bool :=
  match c with
  | At2 _ o | Next2 o => old_mini_op o
  | KReset => match v with V1 => false | V2 => true end
  | _ => true
  end.

(** v2/minibuf.go:605-1006 *)
Definition mini2_at (off : Z) (o : op2 slice) : prog (rv slice) :=
  match o with
  | PReadBit => ret_int (V2Mini.ReadBit off)
  | PReadBits n => V2Mini.ReadBits off n ;; out_int
  | PSetBit data => ret_unit (V2Mini.SetBit off data)
  | PSetBits data n => ret_unit (V2Mini.SetBits off data n)
  | PFlipBit => ret_unit (V2Mini.FlipBit off)
  | PWriteBytes d => ret_unit (V2Mini.WriteBytes off d)
  | PReadBytes n => ret_bytes (V2Mini.ReadBytes off n)
  | PWrite t d => ret_unit (MiniWriteU t off d)
  | PRead t n => MiniReadU t off n ;; out_nums
  | PWriteByte _ | PReadByte => Panic (RuntimeError NilMapOrOther)   (* no such method *)
  end.
Definition mini2_next (o : op2 slice) : prog (rv slice) :=
  match o with
  | PReadBit => ret_int V2Mini.ReadBitNext
  | PReadBits n => V2Mini.ReadBitsNext n ;; out_int
  | PSetBit data => ret_unit (V2Mini.SetBitNext data)
  | PSetBits data n => ret_unit (V2Mini.SetBitsNext data n)
  | PFlipBit => ret_unit V2Mini.FlipBitNext
  | PWriteBytes d => ret_unit (V2Mini.WriteBytesNext d)
  | PReadBytes n => ret_bytes (V2Mini.ReadBytesNext n)
  | PWrite t d => ret_unit (MiniWriteUNext t d)
  | PRead t n => MiniReadUNext t n ;; out_nums
  | PWriteByte _ | PReadByte => Panic (RuntimeError NilMapOrOther)   (* no such method *)
  end.
Definition mini2_call (pol : Z -> Z -> Z) (c : call2 slice) : prog (rv slice) :=
  match c with
  | At2 off o => mini2_at off o
  | Next2 o => mini2_next o
  | KClearAllBits => ret_unit V2Mini.ClearAllBits
  | KSetAllBits => ret_unit V2Mini.SetAllBits
  | KFlipAllBits => ret_unit V2Mini.FlipAllBits
  | KSeekBit off r => ret_unit (V2Mini.SeekBit off r)
  | KSeek off r => ret_unit (V2Mini.Seek off r)
  | KAfterBit off => ret_int (V2Mini.AfterBit off)
  | KAfter off => ret_int (V2Mini.After off)
  | KAlignBit => ret_unit V2Mini.AlignBit
  | KAlignByte => ret_unit V2Mini.AlignByte
  | KGrow n => ret_unit (V2Mini.Grow pol n)
  | KRefresh => ret_unit V2Mini.Refresh
  | KReset => ret_unit V2Mini.Reset
  | KBytes => ret_bytes V2Mini.Bytes
  | KCapacity => ret_int V2Mini.Capacity
  | KBitCapacity => ret_int V2Mini.BitCapacity
  | KOffset => ret_int V2Mini.Offset
  | KBitOffset => ret_int V2Mini.BitOffset
  end.

(** v1/minibuf.go:388-647; the integers as in V1Calls.v. *)
Definition mini1_at (off : Z) (o : op2 slice) : prog (rv slice) :=
  match o with
  | PReadBit => ret_int (V1Mini.ReadBit off)
  | PReadBits n => V1Mini.ReadBits off n ;; out_int
  | PSetBit data => ret_unit (V1Mini.SetBit off data)
  | PSetBits data n => ret_unit (V1Mini.SetBits off data n)
  | PFlipBit => ret_unit (V1Mini.FlipBit off)
  | PWriteBytes d => ret_unit (V1Mini.WriteBytes off d)
  | PReadBytes n => ret_bytes (V1Mini.ReadBytes off n)
  | PWrite t d => ret_unit (V1Mini.WriteComplex off (idata_of t d) (tsize (fmt t)) (order_of t))
  | PRead t n => ret_idata t (V1Mini.ReadComplex off n (tsize (fmt t)) (order_of t))
  | PWriteByte _ | PReadByte => Panic (RuntimeError NilMapOrOther)   (* no such method *)
  end.
Definition mini1_next (o : op2 slice) : prog (rv slice) :=
  match o with
  | PReadBit => ret_int V1Mini.ReadBitNext
  | PReadBits n => V1Mini.ReadBitsNext n ;; out_int
  | PSetBit data => ret_unit (V1Mini.SetBitNext data)
  | PSetBits data n => ret_unit (V1Mini.SetBitsNext data n)
  | PFlipBit => ret_unit V1Mini.FlipBitNext
  | PWriteBytes d => ret_unit (V1Mini.WriteBytesNext d)
  | PReadBytes n => ret_bytes (V1Mini.ReadBytesNext n)
  | PWrite t d => ret_unit (V1Mini.WriteComplexNext (idata_of t d) (tsize (fmt t)) (order_of t))
  | PRead t n => ret_idata t (V1Mini.ReadComplexNext n (tsize (fmt t)) (order_of t))
  | PWriteByte _ | PReadByte => Panic (RuntimeError NilMapOrOther)   (* no such method *)
  end.
Definition mini1_call (pol : Z -> Z -> Z) (c : call2 slice) : prog (rv slice) :=
  match c with
  | At2 off o => mini1_at off o
  | Next2 o => mini1_next o
  | KClearAllBits => ret_unit V1Mini.ClearAllBits
  | KSetAllBits => ret_unit V1Mini.SetAllBits
  | KFlipAllBits => ret_unit V1Mini.FlipAllBits
  | KSeekBit off r => ret_unit (V1Mini.SeekBit off r)
  | KSeek off r => ret_unit (V1Mini.Seek off r)
  | KAfterBit off => ret_int (V1Mini.AfterBit off)
  | KAfter off => ret_int (V1Mini.After off)
  | KAlignBit => ret_unit V1Mini.AlignBit
  | KAlignByte => ret_unit V1Mini.AlignByte
  | KGrow n => ret_unit (V1Mini.Grow pol n)
  | KRefresh => ret_unit V1Mini.Refresh
  | KReset => Panic (RuntimeError NilMapOrOther)   (* no such method *)
  | KBytes => ret_bytes V1Mini.Bytes
  | KCapacity => ret_int V1Mini.Capacity
  | KBitCapacity => ret_int V1Mini.BitCapacity
  | KOffset => ret_int V1Mini.Offset
  | KBitOffset => ret_int V1Mini.BitOffset
  end.
Definition old_mini_at (v : version) : Z -> op2 slice -> prog (rv slice) :=
  match v with V1 => mini1_at | V2 => mini2_at end.
Definition old_mini_next (v : version) : op2 slice -> prog (rv slice) :=
  match v with V1 => mini1_next | V2 => mini2_next end.
Definition old_mini (v : version) (pol : Z -> Z -> Z) : call2 slice -> prog (rv slice) :=
  match v with V1 => mini1_call pol | V2 => mini2_call pol end.

(** Calls a Go program can make, with the variable its [out] pointer points to. *)
Definition valid_old_out {B} (o : op2 B) (out : list Z) : Prop :=
  match o with
  | PReadBits _ => match out with [x] => is_u64 x | _ => False end
  | _ => True
  end.
Definition valid_old_mini (v : version) (s : St) (c : call2 slice) (out : list Z) : Prop :=
  old_mini_method v c = true /\ valid_call2 s c /\
  match c with At2 _ o | Next2 o => valid_old_out o out | _ => True end.

(** ** The abstract MiniBuffer *)

(** A write goes byte by byte and stops with an index error at the end of the
    buffer; writing nothing is an index error too. *)
Definition old_mini_store (off : Z) (d : list Z) (a : abuf) : outcome :=
  let l := a_bytes a in
  let N := zlen l in
  if (zlen d =? 0) || (off <? 0) || (N <? off) then Fail index_error a
  else if off + zlen d <=? N then Ok RUnit (set_bytes a (put l off d))
  else Fail index_error (set_bytes a (put l off (sub d 0 (N - off)))).

(** The bits, the unchecked ReadBytes and v2's typed methods are those of the v3
    MiniBuffer.  v1's ReadBits and SetBits with a count below one do nothing; its
    integer read wants [n] bytes in the array and then reads [n] integers. *)
Definition old_mini_abs_at (v : version) (off : Z) (o : op2 source) (a : abuf) (out : list Z) : outcome * list Z :=
  match o with
  | PReadBit => mini_abs_at off OReadBit a out
  | PReadBits n =>
      match v with
      | V1 => if n <=? 0 then (Ok (RInt (hd 0 out)) a, out) else mini_abs_at off (OReadBits n) a out
      | V2 => mini_abs_at off (OReadBits n) a out
      end
  | PSetBit data =>
      if data =? 0 then mini_abs_at off OClearBit a out
      else if data =? 1 then mini_abs_at off OSetBit a out
      else (Fail BufferInvalidBitError a, out)
  | PSetBits data n =>
      match v with
      | V1 => if n <=? 0 then (Ok RUnit a, out) else mini_abs_at off (OSetBits data n) a out
      | V2 => mini_abs_at off (OSetBits data n) a out
      end
  | PFlipBit => mini_abs_at off OFlipBit a out
  | PWriteBytes d => (old_mini_store off (copied off d) a, out)
  | PReadBytes n => mini_abs_at off (OReadBytes n) a out
  | PWrite t d => (old_mini_store off (encode_all (fmt t) d) a, out)
  | PRead t n =>
      match v with
      | V2 => mini_abs_at off (ORead (fmt t) n) a out
      | V1 =>
          let R := a_bytes a ++ a_spare a in
          let e := off +! n in
          (if negb ((0 <=? off) && (off <=? e) && (e <=? zlen R)) then Fail slice_error a
           else if maxAlloc <? n * tsize (fmt t) then Fail make_error a
           else if off + n * tsize (fmt t) <=? zlen R
           then Ok (RNums (decode_all (fmt t) R off (Z.to_nat n))) a
           else Fail slice_error a, out)
      end
  | PWriteByte _ | PReadByte => (Fail (RuntimeError NilMapOrOther) a, out)
  end.

Definition old_mini_abs_next (v : version) (o : op2 source) (a : abuf) (out : list Z) : outcome * list Z :=
  let n := advance_of2 (fun d => zlen (src_bytes d)) o in
  if bit_addressed2 o then
    match old_mini_abs_at v (a_boff a) o a out with
    | (Ok r a', out') => (Ok r (set_boff a' (a_boff a' +! n)), out')
    | r => r
    end
  else
    match old_mini_abs_at v (a_off a) o a out with
    | (Ok r a', out') => (Ok r (set_off a' (a_off a' +! n)), out')
    | r => r
    end.

(** The other methods are those of a live Buffer of the version. *)
Definition old_mini_abs (v : version) (pol : Z -> Z -> Z) (c : call2 source) (a : abuf) (out : list Z) : option (outcome * list Z) :=
  match c with
  | At2 off o => Some (old_mini_abs_at v off o a out)
  | Next2 o => Some (old_mini_abs_next v o a out)
  | _ => option_map (fun o => (o, out)) (old_call v pol c a)
  end.
