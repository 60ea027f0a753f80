(** * V3Buffer: the methods of [Buffer] in v3/buffer.generated.go, one by one.

    The typed readers and writers ([WriteU16LE] ... [ReadF64BENext]) are in
    V3BufferTyped.v, transcribed mechanically from the same Go file. *)
From Coq Require Import ZArith List Bool.
From Verif Require Import GoSem Errors.
Import ListNotations.
Open Scope Z_scope.
Open Scope go_scope.

(** v3/buffer.generated.go:1602-1607 *)
Definition Refresh : prog unit :=
  s <- get_buf ;;
  set FCap (s_len s) ;;
  c <- get FCap ;;
  set FBcap (c *! 8).

(** v3/buffer.generated.go:28-65.  The receiver of the model is the struct being
    built; [pol] is the runtime's growth policy for [append]. *)
Definition NewBuffer (pol : Z -> Z -> Z) (slices : list slice) : prog unit :=
  e <- empty_slice ;;
  set_buf e ;; set FOff 0 ;; set FCap 0 ;; set FBoff 0 ;; set FBcap 0 ;;
  (match slices with
   | [] => Ret tt
   | [s] => set_buf s
   | _ => goto_loop (zlen slices) (fun i _ =>
            b <- get_buf ;;
            s <- append pol b (nth (Z.to_nat i) slices b) ;;
            set_buf s) tt
   end) ;;
  Refresh.

(** v3/buffer.generated.go:318-330 *)
Definition SeekBit (off : Z) (relative : bool) : prog unit :=
  if relative then x <- get FBoff ;; set FBoff (x +! off) else set FBoff off.

(** v3/buffer.generated.go:1514-1526 *)
Definition SeekByte (off : Z) (relative : bool) : prog unit :=
  if relative then x <- get FOff ;; set FOff (x +! off) else set FOff off.

(** v3/buffer.generated.go:73-89 *)
Definition ReadBit (off : Z) : prog Z :=
  bcap <- get FBcap ;;
  panic_if (off >? (bcap -! 1)) BufferOverreadError ;;
  panic_if (off <? 0) BufferUnderreadError ;;
  v <- buf_get (quo off 8) ;;
  Ret (Z.land (shr 8 v (uconv 64 (7 - uconv 64 (rem off 8)))) 1).

(** v3/buffer.generated.go:93-99 *)
Definition ReadBitNext : prog Z :=
  boff <- get FBoff ;;
  out <- ReadBit boff ;;
  SeekBit 1 true ;;
  Ret out.

(** v3/buffer.generated.go:103-120 *)
Definition ReadBits (off n : Z) : prog Z :=
  goto_loop n (fun i out =>
    v <- ReadBit (off +! i) ;;
    Ret (Z.lor (ushl 64 out 1) v)) 0.

(** v3/buffer.generated.go:124-130 *)
Definition ReadBitsNext (n : Z) : prog Z :=
  boff <- get FBoff ;;
  out <- ReadBits boff n ;;
  SeekBit n true ;;
  Ret out.

(** v3/buffer.generated.go:134-150 *)
Definition SetBit (off : Z) : prog unit :=
  bcap <- get FBcap ;;
  panic_if (off >? (bcap -! 1)) BufferOverwriteError ;;
  panic_if (off <? 0) BufferUnderwriteError ;;
  v <- buf_get (quo off 8) ;;
  buf_set (quo off 8) (Z.lor v (ushl 8 1 (uconv 64 (7 -! rem off 8)))).

(** v3/buffer.generated.go:154-159 *)
Definition SetBitNext : prog unit :=
  boff <- get FBoff ;;
  SetBit boff ;;
  SeekBit 1 true.

(** v3/buffer.generated.go:163-179 *)
Definition ClearBit (off : Z) : prog unit :=
  bcap <- get FBcap ;;
  panic_if (off >? (bcap -! 1)) BufferOverwriteError ;;
  panic_if (off <? 0) BufferUnderwriteError ;;
  v <- buf_get (quo off 8) ;;
  buf_set (quo off 8) (Z.land v (not8 (ushl 8 1 (uconv 64 (7 -! rem off 8))))).

(** v3/buffer.generated.go:183-188 *)
Definition ClearBitNext : prog unit :=
  boff <- get FBoff ;;
  ClearBit boff ;;
  SeekBit 1 true.

(** v3/buffer.generated.go:192-215 *)
Definition SetBits (off data n : Z) : prog unit :=
  goto_loop n (fun i _ =>
    if byte (Z.land (shr 64 data (uconv 64 (n -! i -! 1))) 1) =? 0
    then ClearBit (off +! i)
    else SetBit (off +! i)) tt.

(** v3/buffer.generated.go:219-224 *)
Definition SetBitsNext (data n : Z) : prog unit :=
  boff <- get FBoff ;;
  SetBits boff data n ;;
  SeekBit n true.

(** v3/buffer.generated.go:228-244 *)
Definition FlipBit (off : Z) : prog unit :=
  bcap <- get FBcap ;;
  panic_if (off >? (bcap -! 1)) BufferOverwriteError ;;
  panic_if (off <? 0) BufferUnderwriteError ;;
  v <- buf_get (quo off 8) ;;
  buf_set (quo off 8) (Z.lxor v (ushl 8 1 (uconv 64 (7 -! rem off 8)))).

(** v3/buffer.generated.go:248-253 *)
Definition FlipBitNext : prog unit :=
  boff <- get FBoff ;;
  FlipBit boff ;;
  SeekBit 1 true.

(** v3/buffer.generated.go:256-273 *)
Definition ClearAllBits : prog unit :=
  s <- get_buf ;;
  goto_loop (s_len s) (fun i _ => buf_set i 0) tt.

(** v3/buffer.generated.go:276-293 *)
Definition SetAllBits : prog unit :=
  s <- get_buf ;;
  goto_loop (s_len s) (fun i _ => buf_set i 255) tt.

(** v3/buffer.generated.go:296-314 *)
Definition FlipAllBits : prog unit :=
  s <- get_buf ;;
  goto_loop (s_len s) (fun i _ => v <- buf_get i ;; buf_set i (not8 v)) tt.

(** v3/buffer.generated.go:334-343.  [None] is the call without argument. *)
Definition AfterBit (off : option Z) : prog Z :=
  match off with
  | None => c <- get FBcap ;; o <- get FBoff ;; Ret (c -! o -! 1)
  | Some o => c <- get FBcap ;; Ret (c -! o -! 1)
  end.

(** v3/buffer.generated.go:346-350 *)
Definition AlignBit : prog unit := o <- get FOff ;; set FBoff (o *! 8).

(** v3/buffer.generated.go:356-372 *)
Definition WriteBytes (off : Z) (data : slice) : prog unit :=
  cap <- get FCap ;;
  panic_if (off +! s_len data >? cap) BufferOverwriteError ;;
  panic_if (off <? 0) BufferUnderwriteError ;;
  s <- get_buf ;;
  dst <- reslice s off (s_len s) ;;
  copy dst data.

(** v3/buffer.generated.go:376-381 *)
Definition WriteBytesNext (data : slice) : prog unit :=
  off <- get FOff ;;
  WriteBytes off data ;;
  SeekByte (s_len data) true.

(** v3/buffer.generated.go:385-389 *)
Definition WriteByte (off data : Z) : prog unit :=
  d <- lit_bytes [data] ;;
  WriteBytes off d.

(** v3/buffer.generated.go:393-398 *)
Definition WriteByteNext (data : Z) : prog unit :=
  off <- get FOff ;;
  d <- lit_bytes [data] ;;
  WriteBytes off d ;;
  SeekByte 1 true.

(** v3/buffer.generated.go:946-962 *)
Definition ReadBytes (off n : Z) : prog slice :=
  cap <- get FCap ;;
  panic_if (off +! n >? cap) BufferOverreadError ;;
  panic_if (off <? 0) BufferUnderreadError ;;
  s <- get_buf ;;
  reslice s off (off +! n).

(** v3/buffer.generated.go:966-972 *)
Definition ReadBytesNext (n : Z) : prog slice :=
  off <- get FOff ;;
  out <- ReadBytes off n ;;
  SeekByte n true ;;
  Ret out.

(** v3/buffer.generated.go:976-980 *)
Definition ReadByte (off : Z) : prog Z :=
  s <- ReadBytes off 1 ;;
  slice_get s 0.

(** v3/buffer.generated.go:984-990 *)
Definition ReadByteNext : prog Z :=
  off <- get FOff ;;
  s <- ReadBytes off 1 ;;
  out <- slice_get s 0 ;;
  SeekByte 1 true ;;
  Ret out.

(** v3/buffer.generated.go:1530-1539 *)
Definition AfterByte (off : option Z) : prog Z :=
  match off with
  | None => c <- get FCap ;; o <- get FOff ;; Ret (c -! o -! 1)
  | Some o => c <- get FCap ;; Ret (c -! o -! 1)
  end.

(** v3/buffer.generated.go:1542-1546 *)
Definition AlignByte : prog unit := o <- get FBoff ;; set FOff (quo o 8).

(** v3/buffer.generated.go:1551-1562 *)
Definition TruncateLeft (n : Z) : prog unit :=
  panic_if (n <? 0) BufferInvalidByteCountError ;;
  s <- get_buf ;;
  cap <- get FCap ;;
  s' <- reslice s n cap ;;
  set_buf s' ;;
  Refresh.

(** v3/buffer.generated.go:1565-1576 *)
Definition TruncateRight (n : Z) : prog unit :=
  panic_if (n <? 0) BufferInvalidByteCountError ;;
  s <- get_buf ;;
  cap <- get FCap ;;
  s' <- reslice s 0 (cap -! n) ;;
  set_buf s' ;;
  Refresh.

(** v3/buffer.generated.go:1579-1599 *)
Definition Grow (n : Z) : prog unit :=
  panic_if (n <? 0) BufferInvalidByteCountError ;;
  s <- get_buf ;;
  cap <- get FCap ;;
  if n <=? s_cap s -! cap then
    s <- get_buf ;;
    cap <- get FCap ;;
    s' <- reslice s 0 (cap +! n) ;;
    set_buf s' ;;
    Refresh
  else
    cap <- get FCap ;;
    s <- get_buf ;;
    tmp <- make_bytes (cap +! n) ((s_cap s +! n) *! 2) ;;
    s <- get_buf ;;
    copy tmp s ;;
    set_buf tmp ;;
    Refresh.

(** v3/buffer.generated.go:1610-1618 *)
Definition Reset : prog unit :=
  s <- get_buf ;;
  s' <- reslice s 0 0 ;;
  set_buf s' ;;
  set FOff 0 ;; set FBoff 0 ;; set FCap 0 ;; set FBcap 0.

(** v3/buffer.generated.go:1623-1627 *)
Definition Bytes : prog slice := get_buf.
(** v3/buffer.generated.go:1630-1634 *)
Definition ByteCapacity : prog Z := get FCap.
(** v3/buffer.generated.go:1637-1641 *)
Definition BitCapacity : prog Z := get FBcap.
(** v3/buffer.generated.go:1644-1648 *)
Definition ByteOffset : prog Z := get FOff.
(** v3/buffer.generated.go:1651-1655 *)
Definition BitOffset : prog Z := get FBoff.
