(** * V1Mini: the methods of [MiniBuffer] in v1/minibuf.go, one by one.

    No locking and no bounds checks.  [out] pointers as in V2Mini.v.  Simplification:
    [ReadComplex] returns what is in [*out] at its end; what a panic leaves in
    [*out] is not in the model. *)
From Coq Require Import ZArith List Bool.
From Verif Require Import GoSem Errors Spec GoBinary.
From Verif Require Import V1Buffer.
Import ListNotations.
Open Scope Z_scope.
Open Scope go_scope.

(** v1/minibuf.go:364-369 *)
Definition refresh : prog unit :=
  s <- get_buf ;;
  set FCap (s_len s) ;;
  c <- get FCap ;;
  set FBcap (c *! 8).

(** v1/minibuf.go:33-60 *)
Definition NewMiniBuffer (pol : Z -> Z -> Z) (slices : list slice) : prog unit :=
  e <- empty_slice ;;
  set_buf e ;; set FOff 0 ;; set FCap 0 ;; set FBoff 0 ;; set FBcap 0 ;;
  (match slices with
   | [] => Ret tt
   | [s] => set_buf s
   | _ => for_loop (zlen slices) (fun i _ =>
            b <- get_buf ;;
            s <- append pol b (nth (Z.to_nat i) slices b) ;;
            set_buf s) tt
   end) ;;
  refresh.

(** v1/minibuf.go:67-71 *)
Definition readbit (off : Z) : prog Z :=
  v <- buf_get (quo off 8) ;;
  Ret (atob (negb (Z.land v (bit_mask off) =? 0))).

(** v1/minibuf.go:74-84 *)
Definition readbits (off n : Z) : prog unit :=
  for_loop n (fun i _ =>
    bout <- readbit (off +! i) ;;
    GetOuts (fun out => SetOuts [Z.lor (ushl 64 (hd 0 out) 1) bout] (Ret tt))) tt.

(** v1/minibuf.go:87-102 *)
Definition setbit (off data : Z) : prog unit :=
  if data =? 0 then
    v <- buf_get (quo off 8) ;;
    buf_set (quo off 8) (Z.land v (not8 (bit_mask off)))
  else if data =? 1 then
    v <- buf_get (quo off 8) ;;
    buf_set (quo off 8) (Z.lor v (bit_mask off))
  else Panic BufferInvalidBitError.

(** v1/minibuf.go:105-113 *)
Definition setbits (off data n : Z) : prog unit :=
  for_loop n (fun i _ =>
    setbit (off +! i) (byte (Z.land (shr 64 data (uconv 64 (n -! i -! 1))) 1))) tt.

(** v1/minibuf.go:116-120 *)
Definition flipbit (off : Z) : prog unit :=
  v <- buf_get (quo off 8) ;;
  buf_set (quo off 8) (Z.lxor v (bit_mask off)).

(** v1/minibuf.go:123-131 *)
Definition clearallbits : prog unit :=
  s <- get_buf ;;
  for_loop (s_len s) (fun i _ => buf_set i 0) tt.

(** v1/minibuf.go:134-142 *)
Definition setallbits : prog unit :=
  s <- get_buf ;;
  for_loop (s_len s) (fun i _ => buf_set i 255) tt.

(** v1/minibuf.go:145-153 *)
Definition flipallbits : prog unit :=
  s <- get_buf ;;
  for_loop (s_len s) (fun i _ => v <- buf_get i ;; buf_set i (not8 v)) tt.

(** v1/minibuf.go:156-168 *)
Definition seekbit (off : Z) (relative : bool) : prog unit :=
  if relative then x <- get FBoff ;; set FBoff (x +! off) else set FBoff off.

(** v1/minibuf.go:171-181 *)
Definition afterbit (off : option Z) : prog Z :=
  match off with
  | None => c <- get FBcap ;; o <- get FBoff ;; Ret (c -! o -! 1)
  | Some o => c <- get FBcap ;; Ret (c -! o -! 1)
  end.

(** v1/minibuf.go:186-202 *)
Definition write (off : Z) (data : slice) : prog unit :=
  goto_loop (s_len data) (fun i _ =>
    x <- slice_get data i ;;
    buf_set (off +! i) x) tt.

(** v1/minibuf.go:205-271; lines 207-267 are the same text as v1/buffer.go:277-337. *)
Definition writeComplex (off : Z) (x : idata) (size : Z) (e : endian) : prog unit :=
  data <- complex_bytes x size e ;;
  write off data.

(** v1/minibuf.go:274-278 *)
Definition read (off n : Z) : prog slice :=
  s <- get_buf ;;
  reslice s off (off +! n).

(** v1/minibuf.go:281-323; the loops 292-298, 301-307, 310-316 store the elements in
    the slice that [*out] holds. *)
Definition readComplex (off n size : Z) (e : endian) : prog idata :=
  data <- read off n ;;
  if size =? Unsigned8 then Ret (IBytes data)
  else if size =? Unsigned16 then l <- decode_loop 2 (uint16 e) data n ;; Ret (IU16 l)
  else if size =? Unsigned32 then l <- decode_loop 4 (uint32 e) data n ;; Ret (IU32 l)
  else if size =? Unsigned64 then l <- decode_loop 8 (uint64 e) data n ;; Ret (IU64 l)
  else Panic BufferInvalidIntegerSizeError.

(** v1/minibuf.go:326-338 *)
Definition seek (off : Z) (relative : bool) : prog unit :=
  if relative then x <- get FOff ;; set FOff (x +! off) else set FOff off.

(** v1/minibuf.go:341-351 *)
Definition after (off : option Z) : prog Z :=
  match off with
  | None => c <- get FCap ;; o <- get FOff ;; Ret (c -! o -! 1)
  | Some o => c <- get FCap ;; Ret (c -! o -! 1)
  end.

(** v1/minibuf.go:356-361 *)
Definition grow (pol : Z -> Z -> Z) (n : Z) : prog unit :=
  s <- get_buf ;;
  z <- make_bytes n n ;;
  s' <- append pol s z ;;
  set_buf s' ;;
  refresh.

(** v1/minibuf.go:372-376 *)
Definition alignbit : prog unit := o <- get FOff ;; set FBoff (o *! 8).

(** v1/minibuf.go:379-383 *)
Definition alignbyte : prog unit := o <- get FBoff ;; set FOff (quo o 8).

(** ** Public methods *)

(** v1/minibuf.go:388-392 *)
Definition Bytes : prog slice := get_buf.
(** v1/minibuf.go:395-399 *)
Definition Capacity : prog Z := get FCap.
(** v1/minibuf.go:402-406 *)
Definition BitCapacity : prog Z := get FBcap.
(** v1/minibuf.go:409-413 *)
Definition Offset : prog Z := get FOff.
(** v1/minibuf.go:416-420 *)
Definition BitOffset : prog Z := get FBoff.
(** v1/minibuf.go:423-427 *)
Definition Refresh : prog unit := refresh.
(** v1/minibuf.go:430-434 *)
Definition Grow (pol : Z -> Z -> Z) (n : Z) : prog unit := grow pol n.
(** v1/minibuf.go:437-441 *)
Definition Seek (off : Z) (relative : bool) : prog unit := seek off relative.
(** v1/minibuf.go:444-448 *)
Definition SeekBit (off : Z) (relative : bool) : prog unit := seekbit off relative.
(** v1/minibuf.go:451-455 *)
Definition AlignBit : prog unit := alignbit.
(** v1/minibuf.go:458-462 *)
Definition AlignByte : prog unit := alignbyte.
(** v1/minibuf.go:465-469 *)
Definition After (off : option Z) : prog Z := after off.
(** v1/minibuf.go:472-476 *)
Definition AfterBit (off : option Z) : prog Z := afterbit off.
(** v1/minibuf.go:479-483 *)
Definition ReadBytes (off n : Z) : prog slice := read off n.
(** v1/minibuf.go:486-490 *)
Definition ReadComplex (off n size : Z) (e : endian) : prog idata := readComplex off n size e.
(** v1/minibuf.go:493-498 *)
Definition ReadBytesNext (n : Z) : prog slice :=
  off <- get FOff ;;
  out <- read off n ;;
  seek n true ;;
  Ret out.
(** v1/minibuf.go:501-506 *)
Definition ReadComplexNext (n size : Z) (e : endian) : prog idata :=
  off <- get FOff ;;
  out <- readComplex off n size e ;;
  seek (n *! size) true ;;
  Ret out.
(** v1/minibuf.go:509-513 *)
Definition WriteBytes (off : Z) (data : slice) : prog unit := write off data.
(** v1/minibuf.go:516-520 *)
Definition WriteComplex (off : Z) (x : idata) (size : Z) (e : endian) : prog unit :=
  writeComplex off x size e.
(** v1/minibuf.go:523-528 *)
Definition WriteBytesNext (data : slice) : prog unit :=
  off <- get FOff ;;
  write off data ;;
  seek (s_len data) true.
(** v1/minibuf.go:531-551 *)
Definition WriteComplexNext (x : idata) (size : Z) (e : endian) : prog unit :=
  off <- get FOff ;;
  writeComplex off x size e ;;
  if size =? Unsigned8 then s <- as_bytes x ;; seek (s_len s *! size) true
  else if size =? Unsigned16 then l <- as_u16 x ;; seek (zlen l *! size) true
  else if size =? Unsigned32 then l <- as_u32 x ;; seek (zlen l *! size) true
  else if size =? Unsigned64 then l <- as_u64 x ;; seek (zlen l *! size) true
  else Ret tt.
(** v1/minibuf.go:554-558 *)
Definition ReadBit (off : Z) : prog Z := readbit off.
(** v1/minibuf.go:561-565 *)
Definition ReadBits (off n : Z) : prog unit := readbits off n.
(** v1/minibuf.go:568-573 *)
Definition ReadBitNext : prog Z :=
  boff <- get FBoff ;;
  out <- readbit boff ;;
  seekbit 1 true ;;
  Ret out.
(** v1/minibuf.go:576-581 *)
Definition ReadBitsNext (n : Z) : prog unit :=
  boff <- get FBoff ;;
  readbits boff n ;;
  seekbit n true.
(** v1/minibuf.go:584-588 *)
Definition SetBit (off data : Z) : prog unit := setbit off data.
(** v1/minibuf.go:591-595 *)
Definition SetBits (off data n : Z) : prog unit := setbits off data n.
(** v1/minibuf.go:598-603 *)
Definition SetBitNext (data : Z) : prog unit :=
  boff <- get FBoff ;;
  setbit boff data ;;
  seekbit 1 true.
(** v1/minibuf.go:606-611 *)
Definition SetBitsNext (data n : Z) : prog unit :=
  boff <- get FBoff ;;
  setbits boff data n ;;
  seekbit n true.
(** v1/minibuf.go:614-618 *)
Definition FlipBit (off : Z) : prog unit := flipbit off.
(** v1/minibuf.go:621-626 *)
Definition FlipBitNext : prog unit :=
  boff <- get FBoff ;;
  flipbit boff ;;
  seekbit 1 true.
(** v1/minibuf.go:629-633 *)
Definition ClearAllBits : prog unit := clearallbits.
(** v1/minibuf.go:636-640 *)
Definition SetAllBits : prog unit := setallbits.
(** v1/minibuf.go:643-647 *)
Definition FlipAllBits : prog unit := flipallbits.
