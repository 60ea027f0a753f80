(** * V1Buffer: the methods of [Buffer] in v1/buffer.go, one by one.

    Same locking shapes as v2 (see V2Buffer.v); the bit loops are ordinary [for]
    loops here, there is no Reset, and the integer methods are [WriteComplex] and
    [ReadComplex] with a dynamic element type and a run-time size and byte order.

    Simplifications: the [interface{}] argument is one of the slices the methods
    look for, or "something else"; the [binary.ByteOrder] argument is one of the
    two orders v1 exports ([LittleEndian], [BigEndian]), not a user-defined one. *)
From Coq Require Import ZArith List Bool.
From Verif Require Import GoSem Errors Spec GoBinary.
Import ListNotations.
Open Scope Z_scope.
Open Scope go_scope.

(** ** Dynamic values and byte orders *)

(** The [interface{}] values of WriteComplex and ReadComplex. *)
Inductive idata : Type :=
| IBytes (s : slice)        (* []byte, []uint8 *)
| IU16 (l : list Z) | IU32 (l : list Z) | IU64 (l : list Z)
| IOther.                   (* any other dynamic type *)

(** v1/crunch.go:24-39: [IntegerSize] is an [int]. *)
Definition Unsigned8 : Z := 1.
Definition Unsigned16 : Z := 2.
Definition Unsigned32 : Z := 4.
Definition Unsigned64 : Z := 8.

(** [x.(T)]: v1/buffer.go:286, 289, 301, 315. *)
Definition as_bytes (x : idata) : prog slice :=
  match x with IBytes s => Ret s | _ => Panic (RuntimeError TypeAssertion) end.
Definition as_u16 (x : idata) : prog (list Z) :=
  match x with IU16 l => Ret l | _ => Panic (RuntimeError TypeAssertion) end.
Definition as_u32 (x : idata) : prog (list Z) :=
  match x with IU32 l => Ret l | _ => Panic (RuntimeError TypeAssertion) end.
Definition as_u64 (x : idata) : prog (list Z) :=
  match x with IU64 l => Ret l | _ => Panic (RuntimeError TypeAssertion) end.

(** ** Bits *)

(** v1/utils.go:14-23 *)
Definition atob (b : bool) : Z := if b then 1 else 0.

(** The byte [1 << uint(7-(off%8))]: v1/buffer.go:83, 120, 123, 161. *)
Definition bit_mask (off : Z) : Z := ushl 8 1 (uconv 64 (7 -! rem off 8)).

(** v1/buffer.go:458-466 *)
Definition refresh : prog unit :=
  locked (
    s <- get_buf ;;
    set FCap (s_len s) ;;
    c <- get FCap ;;
    set FBcap (c *! 8)).

(** v1/buffer.go:31-59.  The receiver of the model is the struct being built, so
    its mutex is a fresh one. *)
Definition NewBuffer (pol : Z -> Z -> Z) (slices : list slice) : prog unit :=
  e <- empty_slice ;;
  set_buf e ;; set FOff 0 ;; set FCap 0 ;; set FBoff 0 ;; set FBcap 0 ;;
  (match slices with
   | [] => Ret tt
   | [s] => set_buf s
   | _ => for_loop (zlen slices) (fun i _ =>
            b <- get_buf ;;
            s <- append pol b (nth (Z.to_nat i) slices b) ;;
            set_buf s) tt
   end) ;;
  refresh.

(** v1/buffer.go:66-85 *)
Definition readbit (off : Z) : prog Z :=
  bcap <- get FBcap ;;
  panic_if (off >? (bcap -! 1)) BufferOverreadError ;;
  panic_if (off <? 0) BufferUnderreadError ;;
  locked (
    v <- buf_get (quo off 8) ;;
    Ret (atob (negb (Z.land v (bit_mask off) =? 0)))).

(** v1/buffer.go:88-97 *)
Definition readbits (off n : Z) : prog Z :=
  for_loop n (fun i v =>
    x <- readbit (off +! i) ;;
    Ret (Z.lor (ushl 64 v 1) x)) 0.

(** v1/buffer.go:100-130 *)
Definition setbit (off data : Z) : prog unit :=
  bcap <- get FBcap ;;
  panic_if (off >? (bcap -! 1)) BufferOverwriteError ;;
  panic_if (off <? 0) BufferUnderwriteError ;;
  locked (
    if data =? 0 then
      v <- buf_get (quo off 8) ;;
      buf_set (quo off 8) (Z.land v (not8 (bit_mask off)))
    else if data =? 1 then
      v <- buf_get (quo off 8) ;;
      buf_set (quo off 8) (Z.lor v (bit_mask off))
    else Panic BufferInvalidBitError).

(** v1/buffer.go:133-141 *)
Definition setbits (off data n : Z) : prog unit :=
  for_loop n (fun i _ =>
    setbit (off +! i) (byte (Z.land (shr 64 data (uconv 64 (n -! i -! 1))) 1))) tt.

(** v1/buffer.go:144-163 *)
Definition flipbit (off : Z) : prog unit :=
  bcap <- get FBcap ;;
  panic_if (off >? (bcap -! 1)) BufferOverwriteError ;;
  panic_if (off <? 0) BufferUnderwriteError ;;
  locked (
    v <- buf_get (quo off 8) ;;
    buf_set (quo off 8) (Z.lxor v (bit_mask off))).

(** v1/buffer.go:166-177 *)
Definition clearallbits : prog unit :=
  locked (
    s <- get_buf ;;
    for_loop (s_len s) (fun i _ => buf_set i 0) tt).

(** v1/buffer.go:180-191 *)
Definition setallbits : prog unit :=
  locked (
    s <- get_buf ;;
    for_loop (s_len s) (fun i _ => buf_set i 255) tt).

(** v1/buffer.go:194-205 *)
Definition flipallbits : prog unit :=
  locked (
    s <- get_buf ;;
    for_loop (s_len s) (fun i _ => v <- buf_get i ;; buf_set i (not8 v)) tt).

(** v1/buffer.go:208-223 *)
Definition seekbit (off : Z) (relative : bool) : prog unit :=
  locked (
    if relative then x <- get FBoff ;; set FBoff (x +! off) else set FBoff off).

(** v1/buffer.go:226-235 *)
Definition afterbit (off : option Z) : prog Z :=
  match off with
  | None => c <- get FBcap ;; o <- get FBoff ;; Ret (c -! o -! 1)
  | Some o => c <- get FBcap ;; Ret (c -! o -! 1)
  end.

(** ** Bytes and integers *)

(** v1/buffer.go:240-272: no [defer]. *)
Definition write (off : Z) (data : slice) : prog unit :=
  cap <- get FCap ;;
  panic_if (off +! s_len data >? cap) BufferOverwriteError ;;
  panic_if (off <? 0) BufferUnderwriteError ;;
  lock ;;
  goto_loop (s_len data) (fun i _ =>
    x <- slice_get data i ;;
    buf_set (off +! i) x) tt ;;
  unlock.

(** [data[k+(i*w)] = tdata[k]] for each [k]: v1/buffer.go:296-297, 308-311, 322-329. *)
Fixpoint copy_digits (data tdata : slice) (w i : Z) (ks : list Z) : prog unit :=
  match ks with
  | [] => Ret tt
  | k :: r => x <- slice_get tdata k ;; slice_set data (k +! (i *! w)) x ;; copy_digits data tdata w i r
  end.
(** The loops of v1/buffer.go:291-299, 303-313, 317-331, with [w] = 2, 4, 8 and
    [ks] = 0, ..., w-1. *)
Definition put_loop (w : Z) (ks : list Z) (put : slice -> Z -> prog unit) (data : slice) (a : list Z) : prog unit :=
  for_loop (zlen a) (fun i _ =>
    tdata <- lit_bytes (map (fun _ => 0) ks) ;;
    d <- elem a i ;;
    put tdata d ;;
    copy_digits data tdata w i ks) tt.

(** The byte slice WriteComplex writes: v1/buffer.go:277-337. *)
Definition complex_bytes (x : idata) (size : Z) (e : endian) : prog slice :=
  if size =? Unsigned8 then as_bytes x
  else if size =? Unsigned16 then
    a <- as_u16 x ;;
    data <- make_bytes (2 *! zlen a) (2 *! zlen a) ;;
    put_loop 2 [0; 1] (PutUint16 e) data a ;;
    Ret data
  else if size =? Unsigned32 then
    a <- as_u32 x ;;
    data <- make_bytes (4 *! zlen a) (4 *! zlen a) ;;
    put_loop 4 [0; 1; 2; 3] (PutUint32 e) data a ;;
    Ret data
  else if size =? Unsigned64 then
    a <- as_u64 x ;;
    data <- make_bytes (8 *! zlen a) (8 *! zlen a) ;;
    put_loop 8 [0; 1; 2; 3; 4; 5; 6; 7] (PutUint64 e) data a ;;
    Ret data
  else Panic BufferInvalidIntegerSizeError.

(** v1/buffer.go:275-341 *)
Definition writeComplex (off : Z) (x : idata) (size : Z) (e : endian) : prog unit :=
  data <- complex_bytes x size e ;;
  write off data.

(** v1/buffer.go:344-363 *)
Definition read (off n : Z) : prog slice :=
  cap <- get FCap ;;
  panic_if (off +! n >? cap) BufferOverreadError ;;
  panic_if (off <? 0) BufferUnderreadError ;;
  locked (
    s <- get_buf ;;
    reslice s off (off +! n)).

(** [for i < n { idata[i] = endian.UintN(data[i*w : (i+1)*w]) }]:
    v1/buffer.go:376-380, 385-389, 394-398. *)
Definition decode_loop (w : Z) (uint : slice -> prog Z) (data : slice) (n : Z) : prog (list Z) :=
  a <- make_elems w n ;;
  for_loop n (fun i a =>
    s <- reslice data (i *! w) ((i +! 1) *! w) ;;
    x <- uint s ;;
    set_elem a i x) a.

(** v1/buffer.go:366-410 *)
Definition readComplex (off n size : Z) (e : endian) : prog idata :=
  data <- read off n ;;
  if size =? Unsigned8 then Ret (IBytes data)
  else if size =? Unsigned16 then l <- decode_loop 2 (uint16 e) data n ;; Ret (IU16 l)
  else if size =? Unsigned32 then l <- decode_loop 4 (uint32 e) data n ;; Ret (IU32 l)
  else if size =? Unsigned64 then l <- decode_loop 8 (uint64 e) data n ;; Ret (IU64 l)
  else Panic BufferInvalidIntegerSizeError.

(** v1/buffer.go:413-428 *)
Definition seek (off : Z) (relative : bool) : prog unit :=
  locked (
    if relative then x <- get FOff ;; set FOff (x +! off) else set FOff off).

(** v1/buffer.go:431-440 *)
Definition after (off : option Z) : prog Z :=
  match off with
  | None => c <- get FCap ;; o <- get FOff ;; Ret (c -! o -! 1)
  | Some o => c <- get FCap ;; Ret (c -! o -! 1)
  end.

(** v1/buffer.go:445-455: no [defer]. *)
Definition grow (pol : Z -> Z -> Z) (n : Z) : prog unit :=
  lock ;;
  s <- get_buf ;;
  z <- make_bytes n n ;;
  s' <- append pol s z ;;
  set_buf s' ;;
  unlock ;;
  refresh.

(** v1/buffer.go:469-476 *)
Definition alignbit : prog unit := locked (o <- get FOff ;; set FBoff (o *! 8)).

(** v1/buffer.go:479-486 *)
Definition alignbyte : prog unit := locked (o <- get FBoff ;; set FOff (quo o 8)).

(** ** Public methods *)

(** v1/buffer.go:491-495 *)
Definition Bytes : prog slice := get_buf.
(** v1/buffer.go:498-502 *)
Definition Capacity : prog Z := get FCap.
(** v1/buffer.go:505-509 *)
Definition BitCapacity : prog Z := get FBcap.
(** v1/buffer.go:512-516 *)
Definition Offset : prog Z := get FOff.
(** v1/buffer.go:519-523 *)
Definition BitOffset : prog Z := get FBoff.
(** v1/buffer.go:526-530 *)
Definition Refresh : prog unit := refresh.
(** v1/buffer.go:533-537 *)
Definition Grow (pol : Z -> Z -> Z) (n : Z) : prog unit := grow pol n.
(** v1/buffer.go:540-544 *)
Definition Seek (off : Z) (relative : bool) : prog unit := seek off relative.
(** v1/buffer.go:547-551 *)
Definition SeekBit (off : Z) (relative : bool) : prog unit := seekbit off relative.
(** v1/buffer.go:554-558 *)
Definition AlignBit : prog unit := alignbit.
(** v1/buffer.go:561-565 *)
Definition AlignByte : prog unit := alignbyte.
(** v1/buffer.go:568-572 *)
Definition After (off : option Z) : prog Z := after off.
(** v1/buffer.go:575-579 *)
Definition AfterBit (off : option Z) : prog Z := afterbit off.
(** v1/buffer.go:582-586 *)
Definition ReadByte (off : Z) : prog Z :=
  s <- read off 1 ;;
  slice_get s 0.
(** v1/buffer.go:589-593 *)
Definition ReadBytes (off n : Z) : prog slice := read off n.
(** v1/buffer.go:596-600 *)
Definition ReadComplex (off n size : Z) (e : endian) : prog idata := readComplex off n size e.
(** v1/buffer.go:603-609 *)
Definition ReadByteNext : prog Z :=
  off <- get FOff ;;
  s <- read off 1 ;;
  out <- slice_get s 0 ;;
  seek 1 true ;;
  Ret out.
(** v1/buffer.go:612-618 *)
Definition ReadBytesNext (n : Z) : prog slice :=
  off <- get FOff ;;
  out <- read off n ;;
  seek n true ;;
  Ret out.
(** v1/buffer.go:621-627 *)
Definition ReadComplexNext (n size : Z) (e : endian) : prog idata :=
  off <- get FOff ;;
  out <- readComplex off n size e ;;
  seek (n *! size) true ;;
  Ret out.
(** v1/buffer.go:630-634 *)
Definition WriteByte (off data : Z) : prog unit :=
  d <- lit_bytes [data] ;;
  write off d.
(** v1/buffer.go:637-641 *)
Definition WriteBytes (off : Z) (data : slice) : prog unit := write off data.
(** v1/buffer.go:644-648 *)
Definition WriteComplex (off : Z) (x : idata) (size : Z) (e : endian) : prog unit :=
  writeComplex off x size e.
(** v1/buffer.go:651-656 *)
Definition WriteByteNext (data : Z) : prog unit :=
  off <- get FOff ;;
  d <- lit_bytes [data] ;;
  write off d ;;
  seek 1 true.
(** v1/buffer.go:659-664 *)
Definition WriteBytesNext (data : slice) : prog unit :=
  off <- get FOff ;;
  write off data ;;
  seek (s_len data) true.
(** v1/buffer.go:667-687 *)
Definition WriteComplexNext (x : idata) (size : Z) (e : endian) : prog unit :=
  off <- get FOff ;;
  writeComplex off x size e ;;
  if size =? Unsigned8 then s <- as_bytes x ;; seek (s_len s *! size) true
  else if size =? Unsigned16 then l <- as_u16 x ;; seek (zlen l *! size) true
  else if size =? Unsigned32 then l <- as_u32 x ;; seek (zlen l *! size) true
  else if size =? Unsigned64 then l <- as_u64 x ;; seek (zlen l *! size) true
  else Ret tt.
(** v1/buffer.go:690-694 *)
Definition ReadBit (off : Z) : prog Z := readbit off.
(** v1/buffer.go:697-701 *)
Definition ReadBits (off n : Z) : prog Z := readbits off n.
(** v1/buffer.go:704-710 *)
Definition ReadBitNext : prog Z :=
  boff <- get FBoff ;;
  out <- readbit boff ;;
  seekbit 1 true ;;
  Ret out.
(** v1/buffer.go:713-719 *)
Definition ReadBitsNext (n : Z) : prog Z :=
  boff <- get FBoff ;;
  out <- readbits boff n ;;
  seekbit n true ;;
  Ret out.
(** v1/buffer.go:722-726 *)
Definition SetBit (off data : Z) : prog unit := setbit off data.
(** v1/buffer.go:729-733 *)
Definition SetBits (off data n : Z) : prog unit := setbits off data n.
(** v1/buffer.go:736-741 *)
Definition SetBitNext (data : Z) : prog unit :=
  boff <- get FBoff ;;
  setbit boff data ;;
  seekbit 1 true.
(** v1/buffer.go:744-749 *)
Definition SetBitsNext (data n : Z) : prog unit :=
  boff <- get FBoff ;;
  setbits boff data n ;;
  seekbit n true.
(** v1/buffer.go:752-756 *)
Definition FlipBit (off : Z) : prog unit := flipbit off.
(** v1/buffer.go:759-764 *)
Definition FlipBitNext : prog unit :=
  boff <- get FBoff ;;
  flipbit boff ;;
  seekbit 1 true.
(** v1/buffer.go:767-771 *)
Definition ClearAllBits : prog unit := clearallbits.
(** v1/buffer.go:774-778 *)
Definition SetAllBits : prog unit := setallbits.
(** v1/buffer.go:781-785 *)
Definition FlipAllBits : prog unit := flipallbits.
