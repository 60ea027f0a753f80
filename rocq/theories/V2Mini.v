(** * V2Mini: the methods of [MiniBuffer] in v2/minibuf.go, one by one.

    No method takes the embedded mutex; callers may.  [out] pointers as in
    V3Mini.v: the value is returned when [*out] is assigned once at the end, and
    is [outs] of the state when it is updated in a loop.
    The typed methods are in V2MiniTyped.v. *)
From Coq Require Import ZArith List Bool.
From Verif Require Import GoSem Errors.
From Verif Require V2Buffer.
Import ListNotations.
Open Scope Z_scope.
Open Scope go_scope.

Notation atob := V2Buffer.atob.
Notation bit_mask := V2Buffer.bit_mask.

(** v2/minibuf.go:570-575 *)
Definition refresh : prog unit :=
  s <- get_buf ;;
  set FCap (s_len s) ;;
  c <- get FCap ;;
  set FBcap (c *! 8).

(** v2/minibuf.go:30-57.  [*out] is the receiver of the model. *)
Definition NewMiniBuffer (pol : Z -> Z -> Z) (slices : list slice) : prog unit :=
  e <- empty_slice ;;
  set_buf e ;; set FOff 0 ;; set FCap 0 ;; set FBoff 0 ;; set FBcap 0 ;;
  (match slices with
   | [] => Ret tt
   | [s] => set_buf s
   | _ => for_loop (zlen slices) (fun i _ =>
            b <- get_buf ;;
            s <- append pol b (nth (Z.to_nat i) slices b) ;;
            set_buf s) tt
   end) ;;
  refresh.

(** v2/minibuf.go:64-68 *)
Definition readbit (off : Z) : prog Z :=
  v <- buf_get (quo off 8) ;;
  Ret (atob (negb (Z.land v (bit_mask off) =? 0))).

(** v2/minibuf.go:71-90 *)
Definition readbits (off n : Z) : prog unit :=
  goto_loop n (fun i _ =>
    bout <- readbit (off +! i) ;;
    GetOuts (fun out => SetOuts [Z.lor (ushl 64 (hd 0 out) 1) bout] (Ret tt))) tt.

(** v2/minibuf.go:93-108 *)
Definition setbit (off data : Z) : prog unit :=
  if data =? 0 then
    v <- buf_get (quo off 8) ;;
    buf_set (quo off 8) (Z.land v (not8 (bit_mask off)))
  else if data =? 1 then
    v <- buf_get (quo off 8) ;;
    buf_set (quo off 8) (Z.lor v (bit_mask off))
  else Panic BufferInvalidBitError.

(** v2/minibuf.go:111-126 *)
Definition setbits (off data n : Z) : prog unit :=
  goto_loop n (fun i _ =>
    setbit (off +! i) (byte (Z.land (shr 64 data (uconv 64 (n -! i -! 1))) 1))) tt.

(** v2/minibuf.go:129-133 *)
Definition flipbit (off : Z) : prog unit :=
  v <- buf_get (quo off 8) ;;
  buf_set (quo off 8) (Z.lxor v (bit_mask off)).

(** v2/minibuf.go:136-153 *)
Definition clearallbits : prog unit :=
  s <- get_buf ;;
  goto_loop (s_len s) (fun i _ => buf_set i 0) tt.

(** v2/minibuf.go:156-173 *)
Definition setallbits : prog unit :=
  s <- get_buf ;;
  goto_loop (s_len s) (fun i _ => buf_set i 255) tt.

(** v2/minibuf.go:176-194 *)
Definition flipallbits : prog unit :=
  s <- get_buf ;;
  goto_loop (s_len s) (fun i _ => v <- buf_get i ;; buf_set i (not8 v)) tt.

(** v2/minibuf.go:197-209 *)
Definition seekbit (off : Z) (relative : bool) : prog unit :=
  if relative then x <- get FBoff ;; set FBoff (x +! off) else set FBoff off.

(** v2/minibuf.go:212-222 *)
Definition afterbit (off : option Z) : prog Z :=
  match off with
  | None => c <- get FBcap ;; o <- get FBoff ;; Ret (c -! o -! 1)
  | Some o => c <- get FBcap ;; Ret (c -! o -! 1)
  end.

(** v2/minibuf.go:227-244 *)
Definition write (off : Z) (data : slice) : prog unit :=
  goto_loop (s_len data) (fun i _ =>
    x <- slice_get data i ;;
    buf_set (off +! i) x) tt.

(** v2/minibuf.go:395-399 *)
Definition read (off n : Z) : prog slice :=
  s <- get_buf ;;
  reslice s off (off +! n).

(** v2/minibuf.go:532-544 *)
Definition seek (off : Z) (relative : bool) : prog unit :=
  if relative then x <- get FOff ;; set FOff (x +! off) else set FOff off.

(** v2/minibuf.go:547-557 *)
Definition after (off : option Z) : prog Z :=
  match off with
  | None => c <- get FCap ;; o <- get FOff ;; Ret (c -! o -! 1)
  | Some o => c <- get FCap ;; Ret (c -! o -! 1)
  end.

(** v2/minibuf.go:562-567 *)
Definition grow (pol : Z -> Z -> Z) (n : Z) : prog unit :=
  s <- get_buf ;;
  z <- make_bytes n n ;;
  s' <- append pol s z ;;
  set_buf s' ;;
  refresh.

(** v2/minibuf.go:578-582 *)
Definition alignbit : prog unit := o <- get FOff ;; set FBoff (o *! 8).

(** v2/minibuf.go:585-589 *)
Definition alignbyte : prog unit := o <- get FBoff ;; set FOff (quo o 8).

(** v2/minibuf.go:592-600 *)
Definition reset : prog unit :=
  e <- empty_slice ;;
  set_buf e ;;
  set FOff 0 ;; set FBoff 0 ;; set FCap 0 ;; set FBcap 0.

(** ** Public methods *)

(** v2/minibuf.go:605-609 *)
Definition Bytes : prog slice := get_buf.
(** v2/minibuf.go:612-616 *)
Definition Capacity : prog Z := get FCap.
(** v2/minibuf.go:619-623 *)
Definition BitCapacity : prog Z := get FBcap.
(** v2/minibuf.go:626-630 *)
Definition Offset : prog Z := get FOff.
(** v2/minibuf.go:633-637 *)
Definition BitOffset : prog Z := get FBoff.
(** v2/minibuf.go:640-644 *)
Definition Refresh : prog unit := refresh.
(** v2/minibuf.go:647-651 *)
Definition Reset : prog unit := reset.
(** v2/minibuf.go:654-658 *)
Definition Grow (pol : Z -> Z -> Z) (n : Z) : prog unit := grow pol n.
(** v2/minibuf.go:661-665 *)
Definition Seek (off : Z) (relative : bool) : prog unit := seek off relative.
(** v2/minibuf.go:668-672 *)
Definition SeekBit (off : Z) (relative : bool) : prog unit := seekbit off relative.
(** v2/minibuf.go:675-679 *)
Definition AlignBit : prog unit := alignbit.
(** v2/minibuf.go:682-686 *)
Definition AlignByte : prog unit := alignbyte.
(** v2/minibuf.go:689-693 *)
Definition After (off : option Z) : prog Z := after off.
(** v2/minibuf.go:696-700 *)
Definition AfterBit (off : option Z) : prog Z := afterbit off.
(** v2/minibuf.go:703-707 *)
Definition ReadBytes (off n : Z) : prog slice := read off n.
(** v2/minibuf.go:752-757 *)
Definition ReadBytesNext (n : Z) : prog slice :=
  off <- get FOff ;;
  out <- read off n ;;
  seek n true ;;
  Ret out.
(** v2/minibuf.go:808-812 *)
Definition WriteBytes (off : Z) (data : slice) : prog unit := write off data.
(** v2/minibuf.go:857-862 *)
Definition WriteBytesNext (data : slice) : prog unit :=
  off <- get FOff ;;
  write off data ;;
  seek (s_len data) true.
(** v2/minibuf.go:913-917 *)
Definition ReadBit (off : Z) : prog Z := readbit off.
(** v2/minibuf.go:920-924 *)
Definition ReadBits (off n : Z) : prog unit := readbits off n.
(** v2/minibuf.go:927-932 *)
Definition ReadBitNext : prog Z :=
  boff <- get FBoff ;;
  out <- readbit boff ;;
  seekbit 1 true ;;
  Ret out.
(** v2/minibuf.go:935-940 *)
Definition ReadBitsNext (n : Z) : prog unit :=
  boff <- get FBoff ;;
  readbits boff n ;;
  seekbit n true.
(** v2/minibuf.go:943-947 *)
Definition SetBit (off data : Z) : prog unit := setbit off data.
(** v2/minibuf.go:950-954 *)
Definition SetBits (off data n : Z) : prog unit := setbits off data n.
(** v2/minibuf.go:957-962 *)
Definition SetBitNext (data : Z) : prog unit :=
  boff <- get FBoff ;;
  setbit boff data ;;
  seekbit 1 true.
(** v2/minibuf.go:965-970 *)
Definition SetBitsNext (data n : Z) : prog unit :=
  boff <- get FBoff ;;
  setbits boff data n ;;
  seekbit n true.
(** v2/minibuf.go:973-977 *)
Definition FlipBit (off : Z) : prog unit := flipbit off.
(** v2/minibuf.go:980-985 *)
Definition FlipBitNext : prog unit :=
  boff <- get FBoff ;;
  flipbit boff ;;
  seekbit 1 true.
(** v2/minibuf.go:988-992 *)
Definition ClearAllBits : prog unit := clearallbits.
(** v2/minibuf.go:995-999 *)
Definition SetAllBits : prog unit := setallbits.
(** v2/minibuf.go:1002-1006 *)
Definition FlipAllBits : prog unit := flipallbits.
