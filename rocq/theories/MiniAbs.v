(** * MiniAbs: the public API of the v3 [MiniBuffer] as data, and the abstract
    MiniBuffer.

    The calls are those of Calls.v (MiniBuffer has no [WriteByte] and no
    [ReadByte]).  Methods with a result store it through an [out] pointer.  The
    variable behind it is [outs] of the state, and the value a call answers is
    what the caller then finds in that variable. *)
From Coq Require Import ZArith List Bool.
From Verif Require Import GoSem Errors Spec Typed Calls Abs.
From Verif Require V3Mini.
Import ListNotations.
Open Scope Z_scope.
Open Scope go_scope.

(** ** The real API *)

(** What the caller finds in [*out]. *)
Definition out_int : prog (rv slice) := GetOuts (fun o => Ret (RInt (hd 0 o))).
Definition out_nums : prog (rv slice) := GetOuts (fun o => Ret (RNums o)).

(** Does MiniBuffer have the method? *)
Definition mini_opn {B} (o : opn B) : bool :=
  match o with OWriteByte _ | OReadByte => false | _ => true end.
Definition mini_method {B} (c : call B) : bool :=
  match c with At _ o | Next o => mini_opn o | _ => true end.

Definition mini_at (off : Z) (o : opn slice) : prog (rv slice) :=
  match o with
  | OReadBit => ret_int (V3Mini.ReadBit off)
  | OReadBits n => V3Mini.ReadBits off n ;; out_int
  | OSetBit => ret_unit (V3Mini.SetBit off)
  | OClearBit => ret_unit (V3Mini.ClearBit off)
  | OFlipBit => ret_unit (V3Mini.FlipBit off)
  | OSetBits data n => ret_unit (V3Mini.SetBits off data n)
  | OWriteBytes d => ret_unit (V3Mini.WriteBytes off d)
  | OReadBytes n => ret_bytes (V3Mini.ReadBytes off n)
  | OWrite t d => ret_unit (MiniWriteT t off d)
  | ORead t n => MiniReadT t off n ;; out_nums
  | OWriteByte _ | OReadByte => Panic (RuntimeError NilMapOrOther)   (* no such method *)
  end.

Definition mini_next (o : opn slice) : prog (rv slice) :=
  match o with
  | OReadBit => ret_int V3Mini.ReadBitNext
  | OReadBits n => V3Mini.ReadBitsNext n ;; out_int
  | OSetBit => ret_unit V3Mini.SetBitNext
  | OClearBit => ret_unit V3Mini.ClearBitNext
  | OFlipBit => ret_unit V3Mini.FlipBitNext
  | OSetBits data n => ret_unit (V3Mini.SetBitsNext data n)
  | OWriteBytes d => ret_unit (V3Mini.WriteBytesNext d)
  | OReadBytes n => ret_bytes (V3Mini.ReadBytesNext n)
  | OWrite t d => ret_unit (MiniWriteTNext t d)
  | ORead t n => MiniReadTNext t n ;; out_nums
  | OWriteByte _ | OReadByte => Panic (RuntimeError NilMapOrOther)   (* no such method *)
  end.

Definition mini_call (c : call slice) : prog (rv slice) :=
  match c with
  | At off o => mini_at off o
  | Next o => mini_next o
  | CClearAllBits => ret_unit V3Mini.ClearAllBits
  | CSetAllBits => ret_unit V3Mini.SetAllBits
  | CFlipAllBits => ret_unit V3Mini.FlipAllBits
  | CSeekBit off r => ret_unit (V3Mini.SeekBit off r)
  | CSeekByte off r => ret_unit (V3Mini.SeekByte off r)
  | CAfterBit off => ret_int (V3Mini.AfterBit off)
  | CAfterByte off => ret_int (V3Mini.AfterByte off)
  | CAlignBit => ret_unit V3Mini.AlignBit
  | CAlignByte => ret_unit V3Mini.AlignByte
  | CTruncateLeft n => ret_unit (V3Mini.TruncateLeft n)
  | CTruncateRight n => ret_unit (V3Mini.TruncateRight n)
  | CGrow n => ret_unit (V3Mini.Grow n)
  | CRefresh => ret_unit V3Mini.Refresh
  | CReset => ret_unit V3Mini.Reset
  | CBytes => ret_bytes V3Mini.Bytes
  | CByteCapacity => ret_int V3Mini.ByteCapacity
  | CBitCapacity => ret_int V3Mini.BitCapacity
  | CByteOffset => ret_int V3Mini.ByteOffset
  | CBitOffset => ret_int V3Mini.BitOffset
  end.

(** The variable a call's [out] pointer may point to: one uint64 for [ReadBits],
    any slice of numbers for the typed readers. *)
Definition valid_out {B} (o : opn B) (out : list Z) : Prop :=
  match o with
  | OReadBits _ => match out with [x] => is_u64 x | _ => False end
  | _ => True
  end.
Definition valid_mini (s : St) (c : call slice) (out : list Z) : Prop :=
  mini_method c = true /\ valid_call s c /\
  match c with At _ o | Next o => valid_out o out | _ => True end.

(** ** The abstract MiniBuffer *)

(** Bit [j], as the unchecked methods see it: the seven positions before the
    buffer read 0, anything else outside is an index error ([None]). *)
Definition phantom (l : list Z) (j : Z) : bool := (-8 <? j) && (j <? 0) && (0 <? zlen l).
Definition in_bits (l : list Z) (j : Z) : bool := (0 <=? j) && (j <? 8 * zlen l).
Definition mbit (l : list Z) (j : Z) : option bool :=
  if in_bits l j then Some (bit_at l j) else if phantom l j then Some false else None.
(** Updating it: updates of the seven phantom positions are lost. *)
Definition mupd (f : list Z -> Z -> list Z) (l : list Z) (j : Z) : option (list Z) :=
  if in_bits l j then Some (f l j) else if phantom l j then Some l else None.

(** Reading [k] bits from [off] on into [x], stopping at the first index error;
    the boolean says whether all bits were read. *)
Fixpoint mread (l : list Z) (off : Z) (k : nat) (x : Z) : Z * bool :=
  match k with
  | O => (x, true)
  | S k' => match mbit l off with
            | Some b => mread l (off + 1) k' ((2 * x + Z.b2z b) mod 2 ^ 64)
            | None => (x, false)
            end
  end.

(** Writing bits [f i], [f (i+1)], ... at [off], [off+1], ... likewise. *)
Fixpoint mwrite (l : list Z) (off : Z) (f : Z -> bool) (i : Z) (k : nat) : list Z * bool :=
  match k with
  | O => (l, true)
  | S k' => match mupd (fun l j => put_bit l j (f i)) l off with
            | Some l' => mwrite l' (off + 1) f (i + 1) k'
            | None => (l, false)
            end
  end.

(** The outcome of an abstract call, with the final value of the out variable. *)
Definition mini_abs_at (off : Z) (o : opn (list Z)) (a : abuf) (out : list Z) : outcome * list Z :=
  let l := a_bytes a in
  let N := zlen l in
  let upd f := match mupd f l off with
               | Some l' => (Ok RUnit (set_bytes a l'), out)
               | None => (Fail index_error a, out)
               end in
  match o with
  | OReadBit => match mbit l off with
                | Some b => (Ok (RInt (Z.b2z b)) a, out)
                | None => (Fail index_error a, out)
                end
  | OSetBit => upd (fun l j => put_bit l j true)
  | OClearBit => upd (fun l j => put_bit l j false)
  | OFlipBit => upd flip_bit
  | OReadBits n =>
      let (x, all) := mread l off (Z.to_nat (Z.max 1 n)) (hd 0 out) in
      if all then (Ok (RInt x) a, [x]) else (Fail index_error a, [x])
  | OSetBits data n =>
      let (l', all) := mwrite l off (field_bit data n) 0 (Z.to_nat (Z.max 1 n)) in
      if all then (Ok RUnit (set_bytes a l'), out) else (Fail index_error (set_bytes a l'), out)
  | OWriteBytes d =>
      if (0 <=? off) && (off <=? N)
      then (Ok RUnit (set_bytes a (put l off (sub d 0 (Z.min (N - off) (zlen d))))), out)
      else (Fail slice_error a, out)
  | OReadBytes n =>
      let e := off +! n in
      if (0 <=? off) && (off <=? e) && (e <=? N + zlen (a_spare a))
      then (Ok (RBytes (sub (l ++ a_spare a) off (e - off))) a, out)
      else (Fail slice_error a, out)
  | OWrite t d =>
      if (zlen d =? 0) || (off <? 0) || (N <? off) then (Fail index_error a, out)
      else if off + zlen d * tsize t <=? N
      then (Ok RUnit (set_bytes a (put l off (encode_all t d))), out)
      else (Fail index_error (set_bytes a (put l off (sub (encode_all t d) 0 (N - off)))), out)
  | ORead t n =>
      (* the number of elements that can be read and stored *)
      let m := if (off <? 0) || (N <? off) then 0 else Z.min ((N - off) / tsize t) (zlen out) in
      let out' k := put out 0 (decode_all t l off (Z.to_nat k)) in
      if Z.max 1 n <=? m then (Ok (RNums (out' (Z.max 1 n))) a, out' (Z.max 1 n))
      else (Fail index_error a, out' m)
  | OWriteByte _ | OReadByte => (Fail (RuntimeError NilMapOrOther) a, out)
  end.

Definition mini_abs_next (o : opn (list Z)) (a : abuf) (out : list Z) : outcome * list Z :=
  let n := advance_of zlen o in
  if bit_addressed o then
    match mini_abs_at (a_boff a) o a out with
    | (Ok v a', o') => (Ok v (set_boff a' (a_boff a' +! n)), o')
    | r => r
    end
  else
    match mini_abs_at (a_off a) o a out with
    | (Ok v a', o') => (Ok v (set_off a' (a_off a' +! n)), o')
    | r => r
    end.

(** The size the buffer is set to by [TruncateRight] and [Grow]: any size the
    array allows, the content being what lies there. *)
Definition set_size (a : abuf) (n : Z) : abuf :=
  let all := a_bytes a ++ a_spare a in
  mkA (sub all 0 n) (sub all n (zlen all - n)) (a_off a) (a_boff a).

Definition mini_abs_call (c : call (list Z)) (a : abuf) (out : list Z) : outcome * list Z :=
  let N := zlen (a_bytes a) in
  let S := zlen (a_spare a) in
  match c with
  | At off o => mini_abs_at off o a out
  | Next o => mini_abs_next o a out
  | CTruncateLeft n =>
      if (0 <=? n) && (n <=? N) then (Ok RUnit (set_bytes a (sub (a_bytes a) n (N - n))), out)
      else (Fail slice_error a, out)
  | CTruncateRight n =>
      if (0 <=? N - n) && (N - n <=? N + S) then (Ok RUnit (set_size a (N - n)), out)
      else (Fail slice_error a, out)
  | CGrow n =>
      if n <=? S then
        if 0 <=? N + n then (Ok RUnit (set_size a (N + n)), out) else (Fail slice_error a, out)
      else if 2 * (N + S + n) <=? maxAlloc then
        (Ok RUnit (mkA (a_bytes a ++ zeros n) (zeros (N + 2 * S + n)) (a_off a) (a_boff a)), out)
      else (Fail make_error a, out)
  | _ => (abs_call c a, out)          (* the others are those of Buffer *)
  end.
