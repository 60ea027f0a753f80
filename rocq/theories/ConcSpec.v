(** * ConcSpec: the v2 [Buffer] used by one goroutine, as an abstract object.

    A byte string and two offsets; the answer and the effect of each call.  This
    is the sequential specification that linearizability refers to.  (That the
    transcribed v2 methods satisfy it when run alone is [v2_sequential] in
    ConcV2.v.) *)
From Coq Require Import ZArith List Bool.
From Verif Require Import GoSem Errors Spec Calls Abs History OldCalls Conc.
Import ListNotations.
Open Scope Z_scope.

(** Storing the bytes [d] at [off]: in range, or an error.  An offset so large
    that the end of the write overflows int64 passes the check of the code and is
    stopped by the Go runtime, as is an empty write. *)
Definition seq_store (off : Z) (d : list Z) (a : abuf) : outcome :=
  let l := a_bytes a in
  if zlen l <? off + zlen d
  then Fail (if off + zlen d <? 2 ^ 63 then BufferOverwriteError else index_error) a
  else if off <? 0 then Fail BufferUnderwriteError a
  else if zlen d =? 0 then Fail index_error a
  else Ok RUnit (set_bytes a (put l off d)).

Definition seq_at (off : Z) (o : op2 (list Z)) (a : abuf) : outcome :=
  let l := a_bytes a in
  let bit_range (over under : err) (r : outcome) :=
    if 8 * zlen l <=? off then Fail over a else if off <? 0 then Fail under a else r in
  match o with
  | PReadBit => bit_range BufferOverreadError BufferUnderreadError (Ok (RInt (Z.b2z (bit_at l off))) a)
  | PSetBit data =>
      bit_range BufferOverwriteError BufferUnderwriteError
        (if data =? 0 then Ok RUnit (set_bytes a (put_bit l off false))
         else if data =? 1 then Ok RUnit (set_bytes a (put_bit l off true))
         else Fail BufferInvalidBitError a)
  | PFlipBit => bit_range BufferOverwriteError BufferUnderwriteError (Ok RUnit (set_bytes a (flip_bit l off)))
  | PReadBits n =>
      bit_range BufferOverreadError BufferUnderreadError
        (if n <=? 0 then Ok (RInt (Z.b2z (bit_at l off))) a
         else if 8 * zlen l <? off + n then Fail BufferOverreadError a
         else Ok (RInt (bits_num l off (Z.to_nat n) mod 2 ^ 64)) a)
  | PSetBits data n =>
      bit_range BufferOverwriteError BufferUnderwriteError
        (if n <=? 0 then Ok RUnit (set_bytes a (put_bit l off false))
         else if 8 * zlen l <? off + n then
           Fail BufferOverwriteError (set_bytes a (put_bits l off (field_bit data n) (Z.to_nat (8 * zlen l - off))))
         else Ok RUnit (set_bytes a (put_bits l off (field_bit data n) (Z.to_nat n))))
  | PWriteBytes d => seq_store off d a
  | PWriteByte v => seq_store off [v] a
  | PWrite t d => seq_store off (encode_all (fmt t) d) a
  | PReadBytes n =>
      if off +! n >? zlen l then Fail BufferOverreadError a
      else if off <? 0 then Fail BufferUnderreadError a
      else if (0 <=? n) && (off + n <=? zlen l) then Ok (RBytes (sub l off n)) a
      else Fail slice_error a
  | PReadByte =>
      if zlen l <? off + 1
      then Fail (if off + 1 <? 2 ^ 63 then BufferOverreadError else slice_error) a
      else if off <? 0 then Fail BufferUnderreadError a
      else Ok (RInt (byte_at l off)) a
  | PRead t n =>
      if off +! n *! tsize (fmt t) >? zlen l then Fail BufferOverreadError a
      else if off <? 0 then Fail BufferUnderreadError a
      else if (n <? 0) || (maxAlloc <? n * tsize (fmt t)) then Fail make_error a
      else if (n =? 0) || (zlen l <? off + n * tsize (fmt t)) then Fail index_error a
      else Ok (RNums (decode_all (fmt t) l off (Z.to_nat n))) a
  end.

(** [None] for the calls that have no specification here: the Next calls, Grow
    and Reset are not used below. *)
Definition seq_call (c : call2 (list Z)) (a : abuf) : option outcome :=
  let l := a_bytes a in
  let N := zlen l in
  let all (f : Z -> Z) :=
    if N =? 0 then Fail index_error a else Ok RUnit (set_bytes a (map f l)) in
  match c with
  | At2 off o => Some (seq_at off o a)
  | KClearAllBits => Some (all (fun _ => 0))
  | KSetAllBits => Some (all (fun _ => 255))
  | KFlipAllBits => Some (all (fun b => 255 - b))
  | KSeekBit off r => Some (Ok RUnit (set_boff a (if r then a_boff a +! off else off)))
  | KSeek off r => Some (Ok RUnit (set_off a (if r then a_off a +! off else off)))
  | KAfterBit o => Some (Ok (RInt (8 * N -! (match o with Some x => x | None => a_boff a end) -! 1)) a)
  | KAfter o => Some (Ok (RInt (N -! (match o with Some x => x | None => a_off a end) -! 1)) a)
  | KAlignBit => Some (Ok RUnit (set_boff a (a_off a *! 8)))
  | KAlignByte => Some (Ok RUnit (set_off a (Z.quot (a_boff a) 8)))
  | KRefresh => Some (Ok RUnit a)
  | KBytes => Some (Ok (RBytes l) a)
  | KCapacity => Some (Ok (RInt N) a)
  | KBitCapacity => Some (Ok (RInt (8 * N)) a)
  | KOffset => Some (Ok (RInt (a_off a)) a)
  | KBitOffset => Some (Ok (RInt (a_boff a)) a)
  | Next2 _ | KGrow _ | KReset => None
  end.

(** The bytes a slice argument stands for, in memory [h]. *)
Definition view_op2 (h : heap_t) (o : op2 slice) : op2 (list Z) :=
  match o with
  | PWriteBytes d => PWriteBytes (slice_bytes h d)
  | PReadBit => PReadBit | PReadBits n => PReadBits n | PSetBit d => PSetBit d
  | PSetBits d n => PSetBits d n | PFlipBit => PFlipBit | PWriteByte v => PWriteByte v
  | PReadBytes n => PReadBytes n | PReadByte => PReadByte | PWrite t d => PWrite t d | PRead t n => PRead t n
  end.
Definition view_call2 (h : heap_t) (c : call2 slice) : call2 (list Z) :=
  match c with
  | At2 off o => At2 off (view_op2 h o) | Next2 o => Next2 (view_op2 h o)
  | KClearAllBits => KClearAllBits | KSetAllBits => KSetAllBits | KFlipAllBits => KFlipAllBits
  | KSeekBit o r => KSeekBit o r | KSeek o r => KSeek o r | KAfterBit o => KAfterBit o | KAfter o => KAfter o
  | KAlignBit => KAlignBit | KAlignByte => KAlignByte | KGrow n => KGrow n | KRefresh => KRefresh
  | KReset => KReset | KBytes => KBytes | KCapacity => KCapacity | KBitCapacity => KBitCapacity
  | KOffset => KOffset | KBitOffset => KBitOffset
  end.

(** [seq_v2 h c a r a']: made alone on [a], the call [c] answers [r] and leaves [a'];
    [h] is the memory its arguments live in. *)
Definition seq_v2 (h : heap_t) (c : call2 slice) (a : abuf) (r : answer) (a' : abuf) : Prop :=
  match seq_call (view_call2 h c) a with
  | Some (Ok v a1) => r = Returned v /\ a' = a1
  | Some (Fail e a1) => r = Raised e /\ a' = a1
  | None => False
  end.

(** ** The calls that are one critical section *)

(** A slice argument that does not share memory with the buffer. *)
Definition apart (s : St) (d : slice) : Prop := s_blk d <> s_blk (b_buf (bb s)).

(** Every positional call on bits, bytes and integers except ReadBits, SetBits,
    ReadByte and ReadBytes; the whole-buffer bit calls; seeking and aligning; the
    queries.  No Next call, no Grow, no Reset. *)
Definition atomic_op (s : St) (o : op2 slice) : Prop :=
  match o with
  | PReadBit | PSetBit _ | PFlipBit | PWriteByte _ | PWrite _ _ | PRead _ _ => True
  | PWriteBytes d => apart s d
  | PReadBits _ | PSetBits _ _ | PReadBytes _ | PReadByte => False
  end.
Definition atomic_call (s : St) (c : call2 slice) : Prop :=
  match c with
  | At2 _ o => atomic_op s o
  | Next2 _ | KGrow _ | KReset | KBytes => False
  | _ => True
  end.

(** ReadByte as well, when no call writes more than one byte. *)
Definition single_op (s : St) (o : op2 slice) : Prop :=
  match o with
  | PReadBit | PSetBit _ | PFlipBit | PWriteByte _ | PReadByte | PRead _ _ => True
  | PWriteBytes d => apart s d /\ s_len d <= 1
  | PReadBits _ | PSetBits _ _ | PReadBytes _ | PWrite _ _ => False
  end.
Definition single_call (s : St) (c : call2 slice) : Prop :=
  match c with
  | At2 _ o => single_op s o
  | Next2 _ | KGrow _ | KReset | KBytes | KClearAllBits | KSetAllBits | KFlipAllBits => False
  | _ => True
  end.

(** The panics that keep the mutex: a Go runtime error in a write. *)
Definition keeps_mutex (c : call2 slice) (e : err) : Prop :=
  undeferred c = true /\ exists k, e = RuntimeError k.

(** The calls on single bits and on all bits. *)
Definition bit_call (c : call2 slice) : Prop :=
  match c with
  | At2 _ (PReadBit | PSetBit _ | PFlipBit) | KClearAllBits | KSetAllBits | KFlipAllBits => True
  | _ => False
  end.

(** No goroutine is inside a call. *)
Definition quiescent (cfg : config (call2 slice)) : Prop := Forall (fun g => cur g = None) (gs cfg).

(** Some call has kept the mutex: a write ended by a Go runtime error. *)
Definition mutex_lost (h : list (event (call2 slice))) : Prop :=
  exists t c e, In (ERet t c (Raised e)) h /\ keeps_mutex c e.
