(** * Abs2: the abstract v1 and v2 [Buffer].

    What a user of v1 or v2 should know, for one goroutine: the byte string, the
    bytes behind it in the same backing array, the two offsets, and whether the
    buffer is dead.  A dead buffer is one whose mutex was kept by a write or Grow
    that the Go runtime stopped: from then on the calls that take the mutex either
    fail a range check, which they do before they take it, or never return.

    No memory, no slices, no loops, no mutex. *)
From Coq Require Import ZArith List Bool.
From Verif Require Import GoSem Errors Spec Calls Abs OldCalls ConcSpec V2Agree.
Import ListNotations.
Open Scope Z_scope.

Inductive version : Set := V1 | V2.

(** A byte slice handed to WriteBytes: its bytes and, when it lies in the same
    array as the buffer, the position of its first byte counted from the first byte
    of the buffer. *)
Record source : Type := mkSource { src_bytes : list Z; src_pos : option Z }.

(** What a copy to [off] that goes byte by byte, front to back, stores: when it
    starts [k] bytes behind the source, the first [k] bytes over and over. *)
Definition copied (off : Z) (d : source) : list Z :=
  smear (match src_pos d with Some p => Z.max 0 (off - p) | None => 0 end) (src_bytes d).

Definition plain_op2 (off : Z) (o : op2 source) : op2 (list Z) :=
  match o with
  | PWriteBytes d => PWriteBytes (copied off d)
  | PReadBit => PReadBit | PReadBits n => PReadBits n | PSetBit d => PSetBit d
  | PSetBits d n => PSetBits d n | PFlipBit => PFlipBit | PWriteByte v => PWriteByte v
  | PReadBytes n => PReadBytes n | PReadByte => PReadByte | PWrite t d => PWrite t d | PRead t n => PRead t n
  end.

(** ** A live buffer *)

(** v1 differs from v2 in three operations.  ReadBits and SetBits with a count
    below one do nothing.  The integer read checks that [n] bytes are in the buffer
    and reads [n] integers, also from the bytes behind the buffer. *)
Definition old_at (v : version) (off : Z) (o : op2 source) (a : abuf) : outcome :=
  match v, o with
  | V1, PReadBits n => if n <=? 0 then Ok (RInt 0) a else seq_at off (PReadBits n) a
  | V1, PSetBits d n => if n <=? 0 then Ok RUnit a else seq_at off (PSetBits d n) a
  | V1, PRead t n =>
      let N := zlen (a_bytes a) in
      if off +! n >? N then Fail BufferOverreadError a
      else if off <? 0 then Fail BufferUnderreadError a
      else if negb ((0 <=? n) && (off + n <=? N)) then Fail slice_error a
      else if maxAlloc <? n * tsize (fmt t) then Fail make_error a
      else if off + n * tsize (fmt t) <=? N + zlen (a_spare a)
      then Ok (RNums (decode_all (fmt t) (a_bytes a ++ a_spare a) off (Z.to_nat n))) a
      else Fail slice_error a
  | _, _ => seq_at off (plain_op2 off o) a
  end.

(** The offset a Next call uses and moves. *)
Definition old_next (v : version) (o : op2 source) (a : abuf) : outcome :=
  let n := advance_of2 (fun d => zlen (src_bytes d)) o in
  if bit_addressed2 o then
    match old_at v (a_boff a) o a with
    | Ok r a' => Ok r (set_boff a' (a_boff a' +! n))
    | r => r
    end
  else
    match old_at v (a_off a) o a with
    | Ok r a' => Ok r (set_off a' (a_off a' +! n))
    | r => r
    end.

(** Grow appends [n] zero bytes.  They overwrite the bytes behind the buffer when
    these are enough; otherwise the runtime chooses a new array, with as many zero
    bytes behind as its policy [pol] says. *)
Definition old_grow (pol : Z -> Z -> Z) (n : Z) (a : abuf) : outcome :=
  let l := a_bytes a in
  let N := zlen l in
  let S := zlen (a_spare a) in
  if (n <? 0) || (maxAlloc <? N + n) then Fail make_error a
  else Ok RUnit (mkA (l ++ zeros n)
         (if n <=? S then sub (a_spare a) n (S - n) else zeros (new_cap pol (N + S) (N + n) - (N + n)))
         (a_off a) (a_boff a)).

(** [None] for Reset in v1, which does not have it. *)
Definition old_call (v : version) (pol : Z -> Z -> Z) (c : call2 source) (a : abuf) : option outcome :=
  let l := a_bytes a in
  let N := zlen l in
  let all (f : Z -> Z) :=
    match v with
    | V1 => Ok RUnit (set_bytes a (map f l))
    | V2 => if N =? 0 then Fail index_error a else Ok RUnit (set_bytes a (map f l))
    end in
  match c with
  | At2 off o => Some (old_at v off o a)
  | Next2 o => Some (old_next v o a)
  | KClearAllBits => Some (all (fun _ => 0))
  | KSetAllBits => Some (all (fun _ => 255))
  | KFlipAllBits => Some (all (fun b => 255 - b))
  | KSeekBit off r => Some (Ok RUnit (set_boff a (if r then a_boff a +! off else off)))
  | KSeek off r => Some (Ok RUnit (set_off a (if r then a_off a +! off else off)))
  | KAfterBit o => Some (Ok (RInt (8 * N -! (match o with Some x => x | None => a_boff a end) -! 1)) a)
  | KAfter o => Some (Ok (RInt (N -! (match o with Some x => x | None => a_off a end) -! 1)) a)
  | KAlignBit => Some (Ok RUnit (set_boff a (a_off a *! 8)))
  | KAlignByte => Some (Ok RUnit (set_off a (Z.quot (a_boff a) 8)))
  | KGrow n => Some (old_grow pol n a)
  | KRefresh => Some (Ok RUnit a)
  | KReset => match v with V1 => None | V2 => Some (Ok RUnit (mkA [] [] 0 0)) end
  | KBytes => Some (Ok (RBytes l) a)
  | KCapacity => Some (Ok (RInt N) a)
  | KBitCapacity => Some (Ok (RInt (8 * N)) a)
  | KOffset => Some (Ok (RInt (a_off a)) a)
  | KBitOffset => Some (Ok (RInt (a_boff a)) a)
  end.

(** ** A dead buffer *)

(** The error a positional operation raises before it takes the mutex. *)
Definition early_at (v : version) (off : Z) (o : op2 source) (a : abuf) : option err :=
  let N := zlen (a_bytes a) in
  let range (over under : err) (high : bool) := if high then Some over else if off <? 0 then Some under else None in
  match o with
  | PReadBit | PReadBits _ => range BufferOverreadError BufferUnderreadError (8 * N <=? off)
  | PSetBit _ | PSetBits _ _ | PFlipBit => range BufferOverwriteError BufferUnderwriteError (8 * N <=? off)
  | PWriteBytes d => range BufferOverwriteError BufferUnderwriteError (off +! zlen (src_bytes d) >? N)
  | PWriteByte _ => range BufferOverwriteError BufferUnderwriteError (off +! 1 >? N)
  | PWrite t d => range BufferOverwriteError BufferUnderwriteError (off +! zlen d * tsize (fmt t) >? N)
  | PReadBytes n => range BufferOverreadError BufferUnderreadError (off +! n >? N)
  | PReadByte => range BufferOverreadError BufferUnderreadError (off +! 1 >? N)
  | PRead t n =>
      match v with
      | V1 => range BufferOverreadError BufferUnderreadError (off +! n >? N)
      | V2 =>
          match range BufferOverreadError BufferUnderreadError (off +! n *! tsize (fmt t) >? N) with
          | Some e => Some e
          | None => if (n <? 0) || (maxAlloc <? n * tsize (fmt t)) then Some make_error else None
          end
      end
  end.

(** The v1 calls that do nothing do not take the mutex either. *)
Definition idle (v : version) (o : op2 source) : bool :=
  match v, o with V1, PReadBits n | V1, PSetBits _ n => n <=? 0 | _, _ => false end.

(** ** The machine *)

Inductive reply : Type := Replied (r : rv (list Z)) | Threw (e : err) | Blocked.

Definition stops (c : call2 source) : bool :=
  match c with
  | At2 _ (PWriteBytes _ | PWriteByte _ | PWrite _ _) | Next2 (PWriteBytes _ | PWriteByte _ | PWrite _ _)
  | KGrow _ => true
  | _ => false
  end.
Definition query (c : call2 source) : bool :=
  match c with
  | KAfterBit _ | KAfter _ | KBytes | KCapacity | KBitCapacity | KOffset | KBitOffset => true
  | _ => false
  end.

(** One call on a buffer [a]; [dead] says whether its mutex is lost. *)
Definition old_step (v : version) (pol : Z -> Z -> Z) (c : call2 source) (a : abuf) (dead : bool) : option (reply * abuf * bool) :=
  let alive :=
    match old_call v pol c a with
    | Some (Ok r a') => Some (Replied r, a', dead)
    | Some (Fail e a') => Some (Threw e, a', dead || (stops c && match e with RuntimeError _ => true | _ => false end))
    | None => None
    end in
  if negb dead || query c then alive
  else
    match c with
    | KReset => match v with V1 => None | V2 => Some (Blocked, a, true) end
    | At2 off o =>
        if idle v o then alive
        else match early_at v off o a with Some e => Some (Threw e, a, true) | None => Some (Blocked, a, true) end
    | Next2 o =>
        if idle v o then Some (Blocked, a, true)
        else match early_at v (if bit_addressed2 o then a_boff a else a_off a) o a with
             | Some e => Some (Threw e, a, true) | None => Some (Blocked, a, true) end
    | _ => Some (Blocked, a, true)
    end.
