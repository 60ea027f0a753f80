(** * Typed methods of [Buffer], transcribed from v2/buffer.go by tools/gen_typed_v2.py. *)
From Coq Require Import ZArith List Bool.
From Verif Require Import GoSem Errors V2Buffer.
Import ListNotations.
Open Scope Z_scope.
Open Scope go_scope.

(** v2/buffer.go:316-351 *)
Definition writeU16LE (off : Z) (data : list Z) : prog unit :=
  cap <- get FCap ;;
  panic_if (off +! zlen data *! 2 >? cap) BufferOverwriteError ;;
  panic_if (off <? 0) BufferUnderwriteError ;;
  lock ;;
  goto_loop (zlen data) (fun i _ =>
    d <- elem data i ;; buf_set (off +! (i *! 2)) (byte d) ;;
    d <- elem data i ;; buf_set (off +! (1 +! (i *! 2))) (byte (shr 16 d 8))) tt ;;
  unlock.

(** v2/buffer.go:354-389 *)
Definition writeU16BE (off : Z) (data : list Z) : prog unit :=
  cap <- get FCap ;;
  panic_if (off +! zlen data *! 2 >? cap) BufferOverwriteError ;;
  panic_if (off <? 0) BufferUnderwriteError ;;
  lock ;;
  goto_loop (zlen data) (fun i _ =>
    d <- elem data i ;; buf_set (off +! (i *! 2)) (byte (shr 16 d 8)) ;;
    d <- elem data i ;; buf_set (off +! (1 +! (i *! 2))) (byte d)) tt ;;
  unlock.

(** v2/buffer.go:392-429 *)
Definition writeU32LE (off : Z) (data : list Z) : prog unit :=
  cap <- get FCap ;;
  panic_if (off +! zlen data *! 4 >? cap) BufferOverwriteError ;;
  panic_if (off <? 0) BufferUnderwriteError ;;
  lock ;;
  goto_loop (zlen data) (fun i _ =>
    d <- elem data i ;; buf_set (off +! (i *! 4)) (byte d) ;;
    d <- elem data i ;; buf_set (off +! (1 +! (i *! 4))) (byte (shr 32 d 8)) ;;
    d <- elem data i ;; buf_set (off +! (2 +! (i *! 4))) (byte (shr 32 d 16)) ;;
    d <- elem data i ;; buf_set (off +! (3 +! (i *! 4))) (byte (shr 32 d 24))) tt ;;
  unlock.

(** v2/buffer.go:432-469 *)
Definition writeU32BE (off : Z) (data : list Z) : prog unit :=
  cap <- get FCap ;;
  panic_if (off +! zlen data *! 4 >? cap) BufferOverwriteError ;;
  panic_if (off <? 0) BufferUnderwriteError ;;
  lock ;;
  goto_loop (zlen data) (fun i _ =>
    d <- elem data i ;; buf_set (off +! (i *! 4)) (byte (shr 32 d 24)) ;;
    d <- elem data i ;; buf_set (off +! (1 +! (i *! 4))) (byte (shr 32 d 16)) ;;
    d <- elem data i ;; buf_set (off +! (2 +! (i *! 4))) (byte (shr 32 d 8)) ;;
    d <- elem data i ;; buf_set (off +! (3 +! (i *! 4))) (byte d)) tt ;;
  unlock.

(** v2/buffer.go:472-513 *)
Definition writeU64LE (off : Z) (data : list Z) : prog unit :=
  cap <- get FCap ;;
  panic_if (off +! zlen data *! 8 >? cap) BufferOverwriteError ;;
  panic_if (off <? 0) BufferUnderwriteError ;;
  lock ;;
  goto_loop (zlen data) (fun i _ =>
    d <- elem data i ;; buf_set (off +! (i *! 8)) (byte d) ;;
    d <- elem data i ;; buf_set (off +! (1 +! (i *! 8))) (byte (shr 64 d 8)) ;;
    d <- elem data i ;; buf_set (off +! (2 +! (i *! 8))) (byte (shr 64 d 16)) ;;
    d <- elem data i ;; buf_set (off +! (3 +! (i *! 8))) (byte (shr 64 d 24)) ;;
    d <- elem data i ;; buf_set (off +! (4 +! (i *! 8))) (byte (shr 64 d 32)) ;;
    d <- elem data i ;; buf_set (off +! (5 +! (i *! 8))) (byte (shr 64 d 40)) ;;
    d <- elem data i ;; buf_set (off +! (6 +! (i *! 8))) (byte (shr 64 d 48)) ;;
    d <- elem data i ;; buf_set (off +! (7 +! (i *! 8))) (byte (shr 64 d 56))) tt ;;
  unlock.

(** v2/buffer.go:516-557 *)
Definition writeU64BE (off : Z) (data : list Z) : prog unit :=
  cap <- get FCap ;;
  panic_if (off +! zlen data *! 8 >? cap) BufferOverwriteError ;;
  panic_if (off <? 0) BufferUnderwriteError ;;
  lock ;;
  goto_loop (zlen data) (fun i _ =>
    d <- elem data i ;; buf_set (off +! (i *! 8)) (byte (shr 64 d 56)) ;;
    d <- elem data i ;; buf_set (off +! (1 +! (i *! 8))) (byte (shr 64 d 48)) ;;
    d <- elem data i ;; buf_set (off +! (2 +! (i *! 8))) (byte (shr 64 d 40)) ;;
    d <- elem data i ;; buf_set (off +! (3 +! (i *! 8))) (byte (shr 64 d 32)) ;;
    d <- elem data i ;; buf_set (off +! (4 +! (i *! 8))) (byte (shr 64 d 24)) ;;
    d <- elem data i ;; buf_set (off +! (5 +! (i *! 8))) (byte (shr 64 d 16)) ;;
    d <- elem data i ;; buf_set (off +! (6 +! (i *! 8))) (byte (shr 64 d 8)) ;;
    d <- elem data i ;; buf_set (off +! (7 +! (i *! 8))) (byte d)) tt ;;
  unlock.

(** v2/buffer.go:582-617 *)
Definition readU16LE (off n : Z) : prog (list Z) :=
  cap <- get FCap ;;
  panic_if (off +! n *! 2 >? cap) BufferOverreadError ;;
  panic_if (off <? 0) BufferUnderreadError ;;
  out <- make_elems 2 n ;;
  locked (
    goto_loop n (fun i out =>
      x0 <- buf_get (off +! (i *! 2)) ;;
      x1 <- buf_get (off +! (1 +! (i *! 2))) ;;
      set_elem out i (Z.lor (uconv 16 x0) (ushl 16 (uconv 16 x1) 8))) out).

(** v2/buffer.go:620-655 *)
Definition readU16BE (off n : Z) : prog (list Z) :=
  cap <- get FCap ;;
  panic_if (off +! n *! 2 >? cap) BufferOverreadError ;;
  panic_if (off <? 0) BufferUnderreadError ;;
  out <- make_elems 2 n ;;
  locked (
    goto_loop n (fun i out =>
      x0 <- buf_get (off +! (1 +! (i *! 2))) ;;
      x1 <- buf_get (off +! (i *! 2)) ;;
      set_elem out i (Z.lor (uconv 16 x0) (ushl 16 (uconv 16 x1) 8))) out).

(** v2/buffer.go:658-695 *)
Definition readU32LE (off n : Z) : prog (list Z) :=
  cap <- get FCap ;;
  panic_if (off +! n *! 4 >? cap) BufferOverreadError ;;
  panic_if (off <? 0) BufferUnderreadError ;;
  out <- make_elems 4 n ;;
  locked (
    goto_loop n (fun i out =>
      x0 <- buf_get (off +! (i *! 4)) ;;
      x1 <- buf_get (off +! (1 +! (i *! 4))) ;;
      x2 <- buf_get (off +! (2 +! (i *! 4))) ;;
      x3 <- buf_get (off +! (3 +! (i *! 4))) ;;
      set_elem out i (Z.lor (Z.lor (Z.lor (uconv 32 x0) (ushl 32 (uconv 32 x1) 8)) (ushl 32 (uconv 32 x2) 16)) (ushl 32 (uconv 32 x3) 24))) out).

(** v2/buffer.go:698-735 *)
Definition readU32BE (off n : Z) : prog (list Z) :=
  cap <- get FCap ;;
  panic_if (off +! n *! 4 >? cap) BufferOverreadError ;;
  panic_if (off <? 0) BufferUnderreadError ;;
  out <- make_elems 4 n ;;
  locked (
    goto_loop n (fun i out =>
      x0 <- buf_get (off +! (3 +! (i *! 4))) ;;
      x1 <- buf_get (off +! (2 +! (i *! 4))) ;;
      x2 <- buf_get (off +! (1 +! (i *! 4))) ;;
      x3 <- buf_get (off +! (i *! 4)) ;;
      set_elem out i (Z.lor (Z.lor (Z.lor (uconv 32 x0) (ushl 32 (uconv 32 x1) 8)) (ushl 32 (uconv 32 x2) 16)) (ushl 32 (uconv 32 x3) 24))) out).

(** v2/buffer.go:738-779 *)
Definition readU64LE (off n : Z) : prog (list Z) :=
  cap <- get FCap ;;
  panic_if (off +! n *! 8 >? cap) BufferOverreadError ;;
  panic_if (off <? 0) BufferUnderreadError ;;
  out <- make_elems 8 n ;;
  locked (
    goto_loop n (fun i out =>
      x0 <- buf_get (off +! (i *! 8)) ;;
      x1 <- buf_get (off +! (1 +! (i *! 8))) ;;
      x2 <- buf_get (off +! (2 +! (i *! 8))) ;;
      x3 <- buf_get (off +! (3 +! (i *! 8))) ;;
      x4 <- buf_get (off +! (4 +! (i *! 8))) ;;
      x5 <- buf_get (off +! (5 +! (i *! 8))) ;;
      x6 <- buf_get (off +! (6 +! (i *! 8))) ;;
      x7 <- buf_get (off +! (7 +! (i *! 8))) ;;
      set_elem out i (Z.lor (Z.lor (Z.lor (Z.lor (Z.lor (Z.lor (Z.lor (uconv 64 x0) (ushl 64 (uconv 64 x1) 8)) (ushl 64 (uconv 64 x2) 16)) (ushl 64 (uconv 64 x3) 24)) (ushl 64 (uconv 64 x4) 32)) (ushl 64 (uconv 64 x5) 40)) (ushl 64 (uconv 64 x6) 48)) (ushl 64 (uconv 64 x7) 56))) out).

(** v2/buffer.go:782-822 *)
Definition readU64BE (off n : Z) : prog (list Z) :=
  cap <- get FCap ;;
  panic_if (off +! n *! 8 >? cap) BufferOverreadError ;;
  panic_if (off <? 0) BufferUnderreadError ;;
  out <- make_elems 8 n ;;
  locked (
    goto_loop n (fun i out =>
      x0 <- buf_get (off +! (7 +! (i *! 8))) ;;
      x1 <- buf_get (off +! (6 +! (i *! 8))) ;;
      x2 <- buf_get (off +! (5 +! (i *! 8))) ;;
      x3 <- buf_get (off +! (4 +! (i *! 8))) ;;
      x4 <- buf_get (off +! (3 +! (i *! 8))) ;;
      x5 <- buf_get (off +! (2 +! (i *! 8))) ;;
      x6 <- buf_get (off +! (1 +! (i *! 8))) ;;
      x7 <- buf_get (off +! (i *! 8)) ;;
      set_elem out i (Z.lor (Z.lor (Z.lor (Z.lor (Z.lor (Z.lor (Z.lor (uconv 64 x0) (ushl 64 (uconv 64 x1) 8)) (ushl 64 (uconv 64 x2) 16)) (ushl 64 (uconv 64 x3) 24)) (ushl 64 (uconv 64 x4) 32)) (ushl 64 (uconv 64 x5) 40)) (ushl 64 (uconv 64 x6) 48)) (ushl 64 (uconv 64 x7) 56))) out).

(** v2/buffer.go:1029-1033 *)
Definition ReadU16LE (off n : Z) : prog (list Z) :=
  readU16LE off n.

(** v2/buffer.go:1036-1040 *)
Definition ReadU16BE (off n : Z) : prog (list Z) :=
  readU16BE off n.

(** v2/buffer.go:1043-1047 *)
Definition ReadU32LE (off n : Z) : prog (list Z) :=
  readU32LE off n.

(** v2/buffer.go:1050-1054 *)
Definition ReadU32BE (off n : Z) : prog (list Z) :=
  readU32BE off n.

(** v2/buffer.go:1057-1061 *)
Definition ReadU64LE (off n : Z) : prog (list Z) :=
  readU64LE off n.

(** v2/buffer.go:1064-1068 *)
Definition ReadU64BE (off n : Z) : prog (list Z) :=
  readU64BE off n.

(** v2/buffer.go:1089-1095 *)
Definition ReadU16LENext (n : Z) : prog (list Z) :=
  off <- get FOff ;;
  out <- readU16LE off n ;;
  seek (n *! 2) true ;;
  Ret out.

(** v2/buffer.go:1098-1104 *)
Definition ReadU16BENext (n : Z) : prog (list Z) :=
  off <- get FOff ;;
  out <- readU16BE off n ;;
  seek (n *! 2) true ;;
  Ret out.

(** v2/buffer.go:1107-1113 *)
Definition ReadU32LENext (n : Z) : prog (list Z) :=
  off <- get FOff ;;
  out <- readU32LE off n ;;
  seek (n *! 4) true ;;
  Ret out.

(** v2/buffer.go:1116-1122 *)
Definition ReadU32BENext (n : Z) : prog (list Z) :=
  off <- get FOff ;;
  out <- readU32BE off n ;;
  seek (n *! 4) true ;;
  Ret out.

(** v2/buffer.go:1125-1131 *)
Definition ReadU64LENext (n : Z) : prog (list Z) :=
  off <- get FOff ;;
  out <- readU64LE off n ;;
  seek (n *! 8) true ;;
  Ret out.

(** v2/buffer.go:1134-1140 *)
Definition ReadU64BENext (n : Z) : prog (list Z) :=
  off <- get FOff ;;
  out <- readU64BE off n ;;
  seek (n *! 8) true ;;
  Ret out.

(** v2/buffer.go:1157-1161 *)
Definition WriteU16LE (off : Z) (data : list Z) : prog unit :=
  writeU16LE off data.

(** v2/buffer.go:1164-1168 *)
Definition WriteU16BE (off : Z) (data : list Z) : prog unit :=
  writeU16BE off data.

(** v2/buffer.go:1171-1175 *)
Definition WriteU32LE (off : Z) (data : list Z) : prog unit :=
  writeU32LE off data.

(** v2/buffer.go:1178-1182 *)
Definition WriteU32BE (off : Z) (data : list Z) : prog unit :=
  writeU32BE off data.

(** v2/buffer.go:1185-1189 *)
Definition WriteU64LE (off : Z) (data : list Z) : prog unit :=
  writeU64LE off data.

(** v2/buffer.go:1192-1196 *)
Definition WriteU64BE (off : Z) (data : list Z) : prog unit :=
  writeU64BE off data.

(** v2/buffer.go:1215-1220 *)
Definition WriteU16LENext (data : list Z) : prog unit :=
  off <- get FOff ;;
  writeU16LE off data ;;
  seek (zlen data *! 2) true.

(** v2/buffer.go:1223-1228 *)
Definition WriteU16BENext (data : list Z) : prog unit :=
  off <- get FOff ;;
  writeU16BE off data ;;
  seek (zlen data *! 2) true.

(** v2/buffer.go:1231-1236 *)
Definition WriteU32LENext (data : list Z) : prog unit :=
  off <- get FOff ;;
  writeU32LE off data ;;
  seek (zlen data *! 4) true.

(** v2/buffer.go:1239-1244 *)
Definition WriteU32BENext (data : list Z) : prog unit :=
  off <- get FOff ;;
  writeU32BE off data ;;
  seek (zlen data *! 4) true.

(** v2/buffer.go:1247-1252 *)
Definition WriteU64LENext (data : list Z) : prog unit :=
  off <- get FOff ;;
  writeU64LE off data ;;
  seek (zlen data *! 8) true.

(** v2/buffer.go:1255-1260 *)
Definition WriteU64BENext (data : list Z) : prog unit :=
  off <- get FOff ;;
  writeU64BE off data ;;
  seek (zlen data *! 8) true.

