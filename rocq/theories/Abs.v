(** * Abs: the abstract buffer.

    What a user should know about a v3 [Buffer]: a byte string, the bytes that
    lie behind it in the same backing array, and two offsets.  No memory, no
    slices, no loops.  Errors are crunch's panic values, or Go runtime errors. *)
From Coq Require Import ZArith List Bool.
From Verif Require Import GoSem Errors Spec Calls.
Import ListNotations.
Open Scope Z_scope.

Record abuf : Type := mkA { a_bytes : list Z; a_spare : list Z; a_off : Z; a_boff : Z }.

Inductive outcome : Type :=
| Ok (v : rv (list Z)) (a : abuf)
| Fail (e : err) (a : abuf).

Definition set_bytes (a : abuf) (l : list Z) : abuf := mkA l (a_spare a) (a_off a) (a_boff a).
Definition set_off (a : abuf) (x : Z) : abuf := mkA (a_bytes a) (a_spare a) x (a_boff a).
Definition set_boff (a : abuf) (x : Z) : abuf := mkA (a_bytes a) (a_spare a) (a_off a) x.

Notation index_error := (RuntimeError IndexOutOfRange).
Notation slice_error := (RuntimeError SliceOutOfRange).
Notation make_error := (RuntimeError MakeLenOutOfRange).

(** Operations with an explicit offset. *)
Definition abs_at (off : Z) (o : opn (list Z)) (a : abuf) : outcome :=
  let l := a_bytes a in
  let N := zlen l in
  let bit_range (over under : err) (r : outcome) :=
    if 8 * N <=? off then Fail over a else if off <? 0 then Fail under a else r in
  match o with
  | OReadBit =>
      bit_range BufferOverreadError BufferUnderreadError (Ok (RInt (Z.b2z (bit_at l off))) a)
  | OSetBit =>
      bit_range BufferOverwriteError BufferUnderwriteError (Ok RUnit (set_bytes a (put_bit l off true)))
  | OClearBit =>
      bit_range BufferOverwriteError BufferUnderwriteError (Ok RUnit (set_bytes a (put_bit l off false)))
  | OFlipBit =>
      bit_range BufferOverwriteError BufferUnderwriteError (Ok RUnit (set_bytes a (flip_bit l off)))
  | OReadBits n =>
      bit_range BufferOverreadError BufferUnderreadError
        (if n <=? 0 then Ok (RInt (Z.b2z (bit_at l off))) a
         else if 8 * N <? off + n then Fail BufferOverreadError a
         else Ok (RInt (bits_num l off (Z.to_nat n) mod 2 ^ 64)) a)
  | OSetBits data n =>
      bit_range BufferOverwriteError BufferUnderwriteError
        (if n <=? 0 then Ok RUnit (set_bytes a (put_bit l off false))
         else if 8 * N <? off + n then
           Fail BufferOverwriteError (set_bytes a (put_bits l off (field_bit data n) (Z.to_nat (8 * N - off))))
         else Ok RUnit (set_bytes a (put_bits l off (field_bit data n) (Z.to_nat n))))
  | OWriteBytes d =>
      if N <? off + zlen d
      then Fail (if off + zlen d <? 2 ^ 63 then BufferOverwriteError else slice_error) a
      else if off <? 0 then Fail BufferUnderwriteError a
      else Ok RUnit (set_bytes a (put l off d))
  | OWriteByte v =>
      if N <? off + 1
      then Fail (if off + 1 <? 2 ^ 63 then BufferOverwriteError else slice_error) a
      else if off <? 0 then Fail BufferUnderwriteError a
      else Ok RUnit (set_bytes a (put l off [v]))
  | OReadBytes n =>
      if off +! n >? N then Fail BufferOverreadError a
      else if off <? 0 then Fail BufferUnderreadError a
      else if (0 <=? n) && (off + n <=? N) then Ok (RBytes (sub l off n)) a
      else Fail slice_error a
  | OReadByte =>
      if N <? off + 1
      then Fail (if off + 1 <? 2 ^ 63 then BufferOverreadError else slice_error) a
      else if off <? 0 then Fail BufferUnderreadError a
      else Ok (RInt (byte_at l off)) a
  | OWrite t d =>
      let size := zlen d * tsize t in
      if N <? off + size
      then Fail (if off + size <? 2 ^ 63 then BufferOverwriteError else index_error) a
      else if off <? 0 then Fail BufferUnderwriteError a
      else if zlen d =? 0 then Fail index_error a
      else Ok RUnit (set_bytes a (put l off (encode_all t d)))
  | ORead t n =>
      if off +! n *! tsize t >? N then Fail BufferOverreadError a
      else if off <? 0 then Fail BufferUnderreadError a
      else if (n <? 0) || (maxAlloc <? n * tsize t) then Fail make_error a
      else if (n =? 0) || (N <? off + n * tsize t) then Fail index_error a
      else Ok (RNums (decode_all t l off (Z.to_nat n))) a
  end.

(** A Next operation is the same at the current offset, plus an advance. *)
Definition abs_next (o : opn (list Z)) (a : abuf) : outcome :=
  let n := advance_of zlen o in
  if bit_addressed o then
    match abs_at (a_boff a) o a with
    | Ok v a' => Ok v (set_boff a' (a_boff a' +! n))
    | r => r
    end
  else
    match abs_at (a_off a) o a with
    | Ok v a' => Ok v (set_off a' (a_off a' +! n))
    | r => r
    end.

Definition abs_call (c : call (list Z)) (a : abuf) : outcome :=
  let l := a_bytes a in
  let N := zlen l in
  let all (f : Z -> Z) :=
    if N =? 0 then Fail index_error a else Ok RUnit (set_bytes a (map f l)) in
  match c with
  | At off o => abs_at off o a
  | Next o => abs_next o a
  | CClearAllBits => all (fun _ => 0)
  | CSetAllBits => all (fun _ => 255)
  | CFlipAllBits => all (fun b => 255 - b)
  | CSeekBit off r => Ok RUnit (set_boff a (if r then a_boff a +! off else off))
  | CSeekByte off r => Ok RUnit (set_off a (if r then a_off a +! off else off))
  | CAfterBit o => Ok (RInt (8 * N -! (match o with Some x => x | None => a_boff a end) -! 1)) a
  | CAfterByte o => Ok (RInt (N -! (match o with Some x => x | None => a_off a end) -! 1)) a
  | CAlignBit => Ok RUnit (set_boff a (a_off a *! 8))
  | CAlignByte => Ok RUnit (set_off a (Z.quot (a_boff a) 8))
  | CTruncateLeft n =>
      if n <? 0 then Fail BufferInvalidByteCountError a
      else if N <? n then Fail slice_error a
      else Ok RUnit (set_bytes a (sub l n (N - n)))
  | CTruncateRight n =>
      if n <? 0 then Fail BufferInvalidByteCountError a
      else if N <? n then Fail slice_error a
      else Ok RUnit (mkA (sub l 0 (N - n)) (sub l (N - n) n ++ a_spare a) (a_off a) (a_boff a))
  | CGrow n =>
      let S := zlen (a_spare a) in
      if n <? 0 then Fail BufferInvalidByteCountError a
      else if n <=? S then
        Ok RUnit (mkA (l ++ sub (a_spare a) 0 n) (sub (a_spare a) n (S - n)) (a_off a) (a_boff a))
      else if 2 * (N + S + n) <=? maxAlloc then
        Ok RUnit (mkA (l ++ zeros n) (zeros (N + 2 * S + n)) (a_off a) (a_boff a))
      else Fail make_error a
  | CRefresh => Ok RUnit a
  | CReset => Ok RUnit (mkA [] (l ++ a_spare a) 0 0)
  | CBytes => Ok (RBytes l) a
  | CByteCapacity => Ok (RInt N) a
  | CBitCapacity => Ok (RInt (8 * N)) a
  | CByteOffset => Ok (RInt (a_off a)) a
  | CBitOffset => Ok (RInt (a_boff a)) a
  end.

(** ** Relating the model to the abstract buffer *)

(** What the abstract buffer sees of a state, of a call and of a result. *)
Definition abs (s : St) : abuf := mkA (content s) (spare s) (b_off (bb s)) (b_boff (bb s)).

Definition abs_opn (s : St) (o : opn slice) : opn (list Z) :=
  match o with
  | OReadBit => OReadBit | OReadBits n => OReadBits n | OSetBit => OSetBit
  | OClearBit => OClearBit | OFlipBit => OFlipBit | OSetBits d n => OSetBits d n
  | OWriteBytes d => OWriteBytes (slice_bytes (heap s) d)
  | OWriteByte v => OWriteByte v | OReadBytes n => OReadBytes n | OReadByte => OReadByte
  | OWrite t d => OWrite t d | ORead t n => ORead t n
  end.

Definition view_call (s : St) (c : call slice) : call (list Z) :=
  match c with
  | At off o => At off (abs_opn s o)
  | Next o => Next (abs_opn s o)
  | CClearAllBits => CClearAllBits | CSetAllBits => CSetAllBits | CFlipAllBits => CFlipAllBits
  | CSeekBit o r => CSeekBit o r | CSeekByte o r => CSeekByte o r
  | CAfterBit o => CAfterBit o | CAfterByte o => CAfterByte o
  | CAlignBit => CAlignBit | CAlignByte => CAlignByte
  | CTruncateLeft n => CTruncateLeft n | CTruncateRight n => CTruncateRight n | CGrow n => CGrow n
  | CRefresh => CRefresh | CReset => CReset | CBytes => CBytes
  | CByteCapacity => CByteCapacity | CBitCapacity => CBitCapacity
  | CByteOffset => CByteOffset | CBitOffset => CBitOffset
  end.

Definition view_rv (s : St) (v : rv slice) : rv (list Z) :=
  match v with
  | RUnit => RUnit | RInt z => RInt z | RBytes b => RBytes (slice_bytes (heap s) b) | RNums l => RNums l
  end.

(** The outcome of running a method, seen abstractly; [None] if the model got
    stuck (a memory fault) or blocked. *)
Definition view_res (r : res (rv slice)) : option outcome :=
  match r with
  | Done v s => Some (Ok (view_rv s v) (abs s))
  | Panicked e s => Some (Fail e (abs s))
  | Deadlock _ | Stuck => None
  end.

Definition state_after {A} (r : res A) : option St :=
  match r with Done _ s | Panicked _ s | Deadlock s => Some s | Stuck => None end.
