(** * V2Buffer: the methods of [Buffer] in v2/buffer.go, one by one.

    Every method of v2 takes the struct's mutex.  Two shapes occur and are kept
    apart here: [b.Lock(); defer b.Unlock()] is [locked], and [b.Lock() ...
    b.Unlock()] without [defer] is [lock ;; ... ;; unlock], which stays locked
    when the middle panics.  Bounds are checked before the lock is taken.
    The lower-case methods are the unexported ones, the capitalised ones the
    public wrappers.  The typed methods are in V2BufferTyped.v.

    [1 << uint(c)] and [^(1 << uint(c))] next to a byte operand are byte
    expressions (Go's rule for untyped constants in shifts). *)
From Coq Require Import ZArith List Bool.
From Verif Require Import GoSem Errors.
Import ListNotations.
Open Scope Z_scope.
Open Scope go_scope.

(** v2/utils.go:14-23 *)
Definition atob (b : bool) : Z := if b then 1 else 0.

(** The byte [1 << uint(7-(off%8))] of readbit, setbit and flipbit:
    v2/buffer.go:80, 125, 128, 173. *)
Definition bit_mask (off : Z) : Z := ushl 8 1 (uconv 64 (7 -! rem off 8)).

(** v2/buffer.go:870-878 *)
Definition refresh : prog unit :=
  locked (
    s <- get_buf ;;
    set FCap (s_len s) ;;
    c <- get FCap ;;
    set FBcap (c *! 8)).

(** v2/buffer.go:28-56.  The receiver of the model is the struct being built, so
    its mutex is a fresh one; [pol] is the runtime's growth policy for [append]. *)
Definition NewBuffer (pol : Z -> Z -> Z) (slices : list slice) : prog unit :=
  e <- empty_slice ;;
  set_buf e ;; set FOff 0 ;; set FCap 0 ;; set FBoff 0 ;; set FBcap 0 ;;
  (match slices with
   | [] => Ret tt
   | [s] => set_buf s
   | _ => for_loop (zlen slices) (fun i _ =>
            b <- get_buf ;;
            s <- append pol b (nth (Z.to_nat i) slices b) ;;
            set_buf s) tt
   end) ;;
  refresh.

(** v2/buffer.go:63-82 *)
Definition readbit (off : Z) : prog Z :=
  bcap <- get FBcap ;;
  panic_if (off >? (bcap -! 1)) BufferOverreadError ;;
  panic_if (off <? 0) BufferUnderreadError ;;
  locked (
    v <- buf_get (quo off 8) ;;
    Ret (atob (negb (Z.land v (bit_mask off) =? 0)))).

(** v2/buffer.go:85-102 *)
Definition readbits (off n : Z) : prog Z :=
  goto_loop n (fun i out =>
    v <- readbit (off +! i) ;;
    Ret (Z.lor (ushl 64 out 1) v)) 0.

(** v2/buffer.go:105-135 *)
Definition setbit (off data : Z) : prog unit :=
  bcap <- get FBcap ;;
  panic_if (off >? (bcap -! 1)) BufferOverwriteError ;;
  panic_if (off <? 0) BufferUnderwriteError ;;
  locked (
    if data =? 0 then
      v <- buf_get (quo off 8) ;;
      buf_set (quo off 8) (Z.land v (not8 (bit_mask off)))
    else if data =? 1 then
      v <- buf_get (quo off 8) ;;
      buf_set (quo off 8) (Z.lor v (bit_mask off))
    else Panic BufferInvalidBitError).

(** v2/buffer.go:138-153 *)
Definition setbits (off data n : Z) : prog unit :=
  goto_loop n (fun i _ =>
    setbit (off +! i) (byte (Z.land (shr 64 data (uconv 64 (n -! i -! 1))) 1))) tt.

(** v2/buffer.go:156-175 *)
Definition flipbit (off : Z) : prog unit :=
  bcap <- get FBcap ;;
  panic_if (off >? (bcap -! 1)) BufferOverwriteError ;;
  panic_if (off <? 0) BufferUnderwriteError ;;
  locked (
    v <- buf_get (quo off 8) ;;
    buf_set (quo off 8) (Z.lxor v (bit_mask off))).

(** v2/buffer.go:178-198 *)
Definition clearallbits : prog unit :=
  locked (
    s <- get_buf ;;
    goto_loop (s_len s) (fun i _ => buf_set i 0) tt).

(** v2/buffer.go:201-221 *)
Definition setallbits : prog unit :=
  locked (
    s <- get_buf ;;
    goto_loop (s_len s) (fun i _ => buf_set i 255) tt).

(** v2/buffer.go:224-245 *)
Definition flipallbits : prog unit :=
  locked (
    s <- get_buf ;;
    goto_loop (s_len s) (fun i _ => v <- buf_get i ;; buf_set i (not8 v)) tt).

(** v2/buffer.go:248-263 *)
Definition seekbit (off : Z) (relative : bool) : prog unit :=
  locked (
    if relative then x <- get FBoff ;; set FBoff (x +! off) else set FBoff off).

(** v2/buffer.go:266-275.  [None] is the call without argument. *)
Definition afterbit (off : option Z) : prog Z :=
  match off with
  | None => c <- get FBcap ;; o <- get FBoff ;; Ret (c -! o -! 1)
  | Some o => c <- get FBcap ;; Ret (c -! o -! 1)
  end.

(** v2/buffer.go:280-313: no [defer]. *)
Definition write (off : Z) (data : slice) : prog unit :=
  cap <- get FCap ;;
  panic_if (off +! s_len data >? cap) BufferOverwriteError ;;
  panic_if (off <? 0) BufferUnderwriteError ;;
  lock ;;
  goto_loop (s_len data) (fun i _ =>
    x <- slice_get data i ;;
    buf_set (off +! i) x) tt ;;
  unlock.

(** v2/buffer.go:560-579 *)
Definition read (off n : Z) : prog slice :=
  cap <- get FCap ;;
  panic_if (off +! n >? cap) BufferOverreadError ;;
  panic_if (off <? 0) BufferUnderreadError ;;
  locked (
    s <- get_buf ;;
    reslice s off (off +! n)).

(** v2/buffer.go:825-840 *)
Definition seek (off : Z) (relative : bool) : prog unit :=
  locked (
    if relative then x <- get FOff ;; set FOff (x +! off) else set FOff off).

(** v2/buffer.go:843-852 *)
Definition after (off : option Z) : prog Z :=
  match off with
  | None => c <- get FCap ;; o <- get FOff ;; Ret (c -! o -! 1)
  | Some o => c <- get FCap ;; Ret (c -! o -! 1)
  end.

(** v2/buffer.go:857-867: no [defer]. *)
Definition grow (pol : Z -> Z -> Z) (n : Z) : prog unit :=
  lock ;;
  s <- get_buf ;;
  z <- make_bytes n n ;;
  s' <- append pol s z ;;
  set_buf s' ;;
  unlock ;;
  refresh.

(** v2/buffer.go:881-888 *)
Definition alignbit : prog unit := locked (o <- get FOff ;; set FBoff (o *! 8)).

(** v2/buffer.go:891-898 *)
Definition alignbyte : prog unit := locked (o <- get FBoff ;; set FOff (quo o 8)).

(** v2/buffer.go:901-912 *)
Definition reset : prog unit :=
  locked (
    e <- empty_slice ;;
    set_buf e ;;
    set FOff 0 ;; set FBoff 0 ;; set FCap 0 ;; set FBcap 0).

(** ** Public methods *)

(** v2/buffer.go:917-921 *)
Definition Bytes : prog slice := get_buf.
(** v2/buffer.go:924-928 *)
Definition Capacity : prog Z := get FCap.
(** v2/buffer.go:931-935 *)
Definition BitCapacity : prog Z := get FBcap.
(** v2/buffer.go:938-942 *)
Definition Offset : prog Z := get FOff.
(** v2/buffer.go:945-949 *)
Definition BitOffset : prog Z := get FBoff.
(** v2/buffer.go:952-956 *)
Definition Refresh : prog unit := refresh.
(** v2/buffer.go:959-963 *)
Definition Reset : prog unit := reset.
(** v2/buffer.go:966-970 *)
Definition Grow (pol : Z -> Z -> Z) (n : Z) : prog unit := grow pol n.
(** v2/buffer.go:973-977 *)
Definition Seek (off : Z) (relative : bool) : prog unit := seek off relative.
(** v2/buffer.go:980-984 *)
Definition SeekBit (off : Z) (relative : bool) : prog unit := seekbit off relative.
(** v2/buffer.go:987-991 *)
Definition AlignBit : prog unit := alignbit.
(** v2/buffer.go:994-998 *)
Definition AlignByte : prog unit := alignbyte.
(** v2/buffer.go:1001-1005 *)
Definition After (off : option Z) : prog Z := after off.
(** v2/buffer.go:1008-1012 *)
Definition AfterBit (off : option Z) : prog Z := afterbit off.

(** v2/buffer.go:1015-1019 *)
Definition ReadByte (off : Z) : prog Z :=
  s <- read off 1 ;;
  slice_get s 0.
(** v2/buffer.go:1022-1026 *)
Definition ReadBytes (off n : Z) : prog slice := read off n.
(** v2/buffer.go:1071-1077 *)
Definition ReadByteNext : prog Z :=
  off <- get FOff ;;
  s <- read off 1 ;;
  out <- slice_get s 0 ;;
  seek 1 true ;;
  Ret out.
(** v2/buffer.go:1080-1086 *)
Definition ReadBytesNext (n : Z) : prog slice :=
  off <- get FOff ;;
  out <- read off n ;;
  seek n true ;;
  Ret out.
(** v2/buffer.go:1143-1147 *)
Definition WriteByte (off data : Z) : prog unit :=
  d <- lit_bytes [data] ;;
  write off d.
(** v2/buffer.go:1150-1154 *)
Definition WriteBytes (off : Z) (data : slice) : prog unit := write off data.
(** v2/buffer.go:1199-1204 *)
Definition WriteByteNext (data : Z) : prog unit :=
  off <- get FOff ;;
  d <- lit_bytes [data] ;;
  write off d ;;
  seek 1 true.
(** v2/buffer.go:1207-1212 *)
Definition WriteBytesNext (data : slice) : prog unit :=
  off <- get FOff ;;
  write off data ;;
  seek (s_len data) true.
(** v2/buffer.go:1263-1267 *)
Definition ReadBit (off : Z) : prog Z := readbit off.
(** v2/buffer.go:1270-1274 *)
Definition ReadBits (off n : Z) : prog Z := readbits off n.
(** v2/buffer.go:1277-1283 *)
Definition ReadBitNext : prog Z :=
  boff <- get FBoff ;;
  out <- readbit boff ;;
  seekbit 1 true ;;
  Ret out.
(** v2/buffer.go:1286-1292 *)
Definition ReadBitsNext (n : Z) : prog Z :=
  boff <- get FBoff ;;
  out <- readbits boff n ;;
  seekbit n true ;;
  Ret out.
(** v2/buffer.go:1295-1299 *)
Definition SetBit (off data : Z) : prog unit := setbit off data.
(** v2/buffer.go:1302-1306 *)
Definition SetBits (off data n : Z) : prog unit := setbits off data n.
(** v2/buffer.go:1309-1314 *)
Definition SetBitNext (data : Z) : prog unit :=
  boff <- get FBoff ;;
  setbit boff data ;;
  seekbit 1 true.
(** v2/buffer.go:1317-1322 *)
Definition SetBitsNext (data n : Z) : prog unit :=
  boff <- get FBoff ;;
  setbits boff data n ;;
  seekbit n true.
(** v2/buffer.go:1325-1329 *)
Definition FlipBit (off : Z) : prog unit := flipbit off.
(** v2/buffer.go:1332-1337 *)
Definition FlipBitNext : prog unit :=
  boff <- get FBoff ;;
  flipbit boff ;;
  seekbit 1 true.
(** v2/buffer.go:1340-1344 *)
Definition ClearAllBits : prog unit := clearallbits.
(** v2/buffer.go:1347-1351 *)
Definition SetAllBits : prog unit := setallbits.
(** v2/buffer.go:1354-1358 *)
Definition FlipAllBits : prog unit := flipallbits.
