(** * V3Mini: the methods of [MiniBuffer] in v3/minibuf.generated.go, one by one.

    MiniBuffer methods store their result through an [out] pointer.  When the
    method assigns [*out] once, as its last effect, the model returns the value;
    when it updates [*out] step by step ([ReadBits] and the typed readers) the
    variable is [outs] of the state: a one-element list for [*uint64], the
    elements of [*out] for the typed readers.
    The typed methods are in V3MiniTyped.v. *)
From Coq Require Import ZArith List Bool.
From Verif Require Import GoSem Errors.
Import ListNotations.
Open Scope Z_scope.
Open Scope go_scope.

(** v3/minibuf.generated.go:1237-1242 *)
Definition Refresh : prog unit :=
  s <- get_buf ;;
  set FCap (s_len s) ;;
  c <- get FCap ;;
  set FBcap (c *! 8).

(** v3/minibuf.generated.go:28-65.  [*out] is the receiver of the model. *)
Definition NewMiniBuffer (pol : Z -> Z -> Z) (slices : list slice) : prog unit :=
  e <- empty_slice ;;
  set_buf e ;; set FOff 0 ;; set FCap 0 ;; set FBoff 0 ;; set FBcap 0 ;;
  (match slices with
   | [] => Ret tt
   | [s] => set_buf s
   | _ => goto_loop (zlen slices) (fun i _ =>
            b <- get_buf ;;
            s <- append pol b (nth (Z.to_nat i) slices b) ;;
            set_buf s) tt
   end) ;;
  Refresh.

(** v3/minibuf.generated.go:268-280 *)
Definition SeekBit (off : Z) (relative : bool) : prog unit :=
  if relative then x <- get FBoff ;; set FBoff (x +! off) else set FBoff off.

(** v3/minibuf.generated.go:1165-1177 *)
Definition SeekByte (off : Z) (relative : bool) : prog unit :=
  if relative then x <- get FOff ;; set FOff (x +! off) else set FOff off.

(** v3/minibuf.generated.go:71-75 *)
Definition ReadBit (off : Z) : prog Z :=
  v <- buf_get (quo off 8) ;;
  Ret (Z.land (shr 8 v (uconv 64 (7 - uconv 64 (rem off 8)))) 1).

(** v3/minibuf.generated.go:79-84 *)
Definition ReadBitNext : prog Z :=
  boff <- get FBoff ;;
  out <- ReadBit boff ;;
  SeekBit 1 true ;;
  Ret out.

(** v3/minibuf.generated.go:88-107: [*out] is the head of [outs]. *)
Definition ReadBits (off n : Z) : prog unit :=
  goto_loop n (fun i _ =>
    bout <- ReadBit (off +! i) ;;
    GetOuts (fun out => SetOuts [Z.lor (ushl 64 (hd 0 out) 1) bout] (Ret tt))) tt.

(** v3/minibuf.generated.go:111-116 *)
Definition ReadBitsNext (n : Z) : prog unit :=
  boff <- get FBoff ;;
  ReadBits boff n ;;
  SeekBit n true.

(** v3/minibuf.generated.go:120-124 *)
Definition SetBit (off : Z) : prog unit :=
  v <- buf_get (quo off 8) ;;
  buf_set (quo off 8) (Z.lor v (ushl 8 1 (uconv 64 (7 -! rem off 8)))).

(** v3/minibuf.generated.go:128-133 *)
Definition SetBitNext : prog unit :=
  boff <- get FBoff ;;
  SetBit boff ;;
  SeekBit 1 true.

(** v3/minibuf.generated.go:137-141 *)
Definition ClearBit (off : Z) : prog unit :=
  v <- buf_get (quo off 8) ;;
  buf_set (quo off 8) (Z.land v (not8 (ushl 8 1 (uconv 64 (7 -! rem off 8))))).

(** v3/minibuf.generated.go:145-150 *)
Definition ClearBitNext : prog unit :=
  boff <- get FBoff ;;
  ClearBit boff ;;
  SeekBit 1 true.

(** v3/minibuf.generated.go:154-177 *)
Definition SetBits (off data n : Z) : prog unit :=
  goto_loop n (fun i _ =>
    if byte (Z.land (shr 64 data (uconv 64 (n -! i -! 1))) 1) =? 0
    then ClearBit (off +! i)
    else SetBit (off +! i)) tt.

(** v3/minibuf.generated.go:181-186 *)
Definition SetBitsNext (data n : Z) : prog unit :=
  boff <- get FBoff ;;
  SetBits boff data n ;;
  SeekBit n true.

(** v3/minibuf.generated.go:190-194 *)
Definition FlipBit (off : Z) : prog unit :=
  v <- buf_get (quo off 8) ;;
  buf_set (quo off 8) (Z.lxor v (ushl 8 1 (uconv 64 (7 -! rem off 8)))).

(** v3/minibuf.generated.go:198-203 *)
Definition FlipBitNext : prog unit :=
  boff <- get FBoff ;;
  FlipBit boff ;;
  SeekBit 1 true.

(** v3/minibuf.generated.go:206-223 *)
Definition ClearAllBits : prog unit :=
  s <- get_buf ;;
  goto_loop (s_len s) (fun i _ => buf_set i 0) tt.

(** v3/minibuf.generated.go:226-243 *)
Definition SetAllBits : prog unit :=
  s <- get_buf ;;
  goto_loop (s_len s) (fun i _ => buf_set i 255) tt.

(** v3/minibuf.generated.go:246-264 *)
Definition FlipAllBits : prog unit :=
  s <- get_buf ;;
  goto_loop (s_len s) (fun i _ => v <- buf_get i ;; buf_set i (not8 v)) tt.

(** v3/minibuf.generated.go:284-294 *)
Definition AfterBit (off : option Z) : prog Z :=
  match off with
  | None => c <- get FBcap ;; o <- get FBoff ;; Ret (c -! o -! 1)
  | Some o => c <- get FBcap ;; Ret (c -! o -! 1)
  end.

(** v3/minibuf.generated.go:297-301 *)
Definition AlignBit : prog unit := o <- get FOff ;; set FBoff (o *! 8).

(** v3/minibuf.generated.go:307-311 *)
Definition WriteBytes (off : Z) (data : slice) : prog unit :=
  s <- get_buf ;;
  dst <- reslice s off (s_len s) ;;
  copy dst data.

(** v3/minibuf.generated.go:315-320 *)
Definition WriteBytesNext (data : slice) : prog unit :=
  off <- get FOff ;;
  WriteBytes off data ;;
  SeekByte (s_len data) true.

(** v3/minibuf.generated.go:772-776 *)
Definition ReadBytes (off n : Z) : prog slice :=
  s <- get_buf ;;
  reslice s off (off +! n).

(** v3/minibuf.generated.go:780-785 *)
Definition ReadBytesNext (n : Z) : prog slice :=
  off <- get FOff ;;
  out <- ReadBytes off n ;;
  SeekByte n true ;;
  Ret out.

(** v3/minibuf.generated.go:1181-1191 *)
Definition AfterByte (off : option Z) : prog Z :=
  match off with
  | None => c <- get FCap ;; o <- get FOff ;; Ret (c -! o -! 1)
  | Some o => c <- get FCap ;; Ret (c -! o -! 1)
  end.

(** v3/minibuf.generated.go:1194-1198 *)
Definition AlignByte : prog unit := o <- get FBoff ;; set FOff (quo o 8).

(** v3/minibuf.generated.go:1203-1208 *)
Definition TruncateLeft (n : Z) : prog unit :=
  s <- get_buf ;;
  cap <- get FCap ;;
  s' <- reslice s n cap ;;
  set_buf s' ;;
  Refresh.

(** v3/minibuf.generated.go:1211-1216 *)
Definition TruncateRight (n : Z) : prog unit :=
  s <- get_buf ;;
  cap <- get FCap ;;
  s' <- reslice s 0 (cap -! n) ;;
  set_buf s' ;;
  Refresh.

(** v3/minibuf.generated.go:1219-1234 *)
Definition Grow (n : Z) : prog unit :=
  s <- get_buf ;;
  cap <- get FCap ;;
  if n <=? s_cap s -! cap then
    s <- get_buf ;;
    cap <- get FCap ;;
    s' <- reslice s 0 (cap +! n) ;;
    set_buf s' ;;
    Refresh
  else
    cap <- get FCap ;;
    s <- get_buf ;;
    tmp <- make_bytes (cap +! n) ((s_cap s +! n) *! 2) ;;
    s <- get_buf ;;
    copy tmp s ;;
    set_buf tmp ;;
    Refresh.

(** v3/minibuf.generated.go:1245-1253 *)
Definition Reset : prog unit :=
  s <- get_buf ;;
  s' <- reslice s 0 0 ;;
  set_buf s' ;;
  set FOff 0 ;; set FBoff 0 ;; set FCap 0 ;; set FBcap 0.

(** v3/minibuf.generated.go:1258-1262 *)
Definition Bytes : prog slice := get_buf.
(** v3/minibuf.generated.go:1265-1269 *)
Definition ByteCapacity : prog Z := get FCap.
(** v3/minibuf.generated.go:1272-1276 *)
Definition BitCapacity : prog Z := get FBcap.
(** v3/minibuf.generated.go:1279-1283 *)
Definition ByteOffset : prog Z := get FOff.
(** v3/minibuf.generated.go:1286-1290 *)
Definition BitOffset : prog Z := get FBoff.
