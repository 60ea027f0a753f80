(** * Typed methods of [Buffer], transcribed from v3/buffer.generated.go by tools/gen_typed.py.
    Elements of float slices are their bit patterns, so the
    [*( *uintN)(unsafe.Pointer(&x))] casts are the identity. *)
From Coq Require Import ZArith List Bool.
From Verif Require Import GoSem Errors V3Buffer.
Import ListNotations.
Open Scope Z_scope.
Open Scope go_scope.

(** v3/buffer.generated.go:403-421 *)
Definition WriteU16LE (off : Z) (data : list Z) : prog unit :=
  cap <- get FCap ;;
  panic_if (off +! zlen data *! 2 >? cap) BufferOverwriteError ;;
  panic_if (off <? 0) BufferUnderwriteError ;;
  goto_loop (zlen data) (fun i _ =>
    d <- elem data i ;; buf_set (off +! (i *! 2)) (byte d) ;;
    d <- elem data i ;; buf_set (off +! (1 +! (i *! 2))) (byte (shr 16 d 8))) tt.

(** v3/buffer.generated.go:426-429 *)
Definition WriteU16LENext (data : list Z) : prog unit :=
  off <- get FOff ;;
  WriteU16LE off data ;;
  SeekByte (zlen data *! 2) true.

(** v3/buffer.generated.go:434-452 *)
Definition WriteU16BE (off : Z) (data : list Z) : prog unit :=
  cap <- get FCap ;;
  panic_if (off +! zlen data *! 2 >? cap) BufferOverwriteError ;;
  panic_if (off <? 0) BufferUnderwriteError ;;
  goto_loop (zlen data) (fun i _ =>
    d <- elem data i ;; buf_set (off +! (i *! 2)) (byte (shr 16 d 8)) ;;
    d <- elem data i ;; buf_set (off +! (1 +! (i *! 2))) (byte d)) tt.

(** v3/buffer.generated.go:457-460 *)
Definition WriteU16BENext (data : list Z) : prog unit :=
  off <- get FOff ;;
  WriteU16BE off data ;;
  SeekByte (zlen data *! 2) true.

(** v3/buffer.generated.go:465-485 *)
Definition WriteU32LE (off : Z) (data : list Z) : prog unit :=
  cap <- get FCap ;;
  panic_if (off +! zlen data *! 4 >? cap) BufferOverwriteError ;;
  panic_if (off <? 0) BufferUnderwriteError ;;
  goto_loop (zlen data) (fun i _ =>
    d <- elem data i ;; buf_set (off +! (i *! 4)) (byte d) ;;
    d <- elem data i ;; buf_set (off +! (1 +! (i *! 4))) (byte (shr 32 d 8)) ;;
    d <- elem data i ;; buf_set (off +! (2 +! (i *! 4))) (byte (shr 32 d 16)) ;;
    d <- elem data i ;; buf_set (off +! (3 +! (i *! 4))) (byte (shr 32 d 24))) tt.

(** v3/buffer.generated.go:490-493 *)
Definition WriteU32LENext (data : list Z) : prog unit :=
  off <- get FOff ;;
  WriteU32LE off data ;;
  SeekByte (zlen data *! 4) true.

(** v3/buffer.generated.go:498-518 *)
Definition WriteU32BE (off : Z) (data : list Z) : prog unit :=
  cap <- get FCap ;;
  panic_if (off +! zlen data *! 4 >? cap) BufferOverwriteError ;;
  panic_if (off <? 0) BufferUnderwriteError ;;
  goto_loop (zlen data) (fun i _ =>
    d <- elem data i ;; buf_set (off +! (i *! 4)) (byte (shr 32 d 24)) ;;
    d <- elem data i ;; buf_set (off +! (1 +! (i *! 4))) (byte (shr 32 d 16)) ;;
    d <- elem data i ;; buf_set (off +! (2 +! (i *! 4))) (byte (shr 32 d 8)) ;;
    d <- elem data i ;; buf_set (off +! (3 +! (i *! 4))) (byte d)) tt.

(** v3/buffer.generated.go:523-526 *)
Definition WriteU32BENext (data : list Z) : prog unit :=
  off <- get FOff ;;
  WriteU32BE off data ;;
  SeekByte (zlen data *! 4) true.

(** v3/buffer.generated.go:531-555 *)
Definition WriteU64LE (off : Z) (data : list Z) : prog unit :=
  cap <- get FCap ;;
  panic_if (off +! zlen data *! 8 >? cap) BufferOverwriteError ;;
  panic_if (off <? 0) BufferUnderwriteError ;;
  goto_loop (zlen data) (fun i _ =>
    d <- elem data i ;; buf_set (off +! (i *! 8)) (byte d) ;;
    d <- elem data i ;; buf_set (off +! (1 +! (i *! 8))) (byte (shr 64 d 8)) ;;
    d <- elem data i ;; buf_set (off +! (2 +! (i *! 8))) (byte (shr 64 d 16)) ;;
    d <- elem data i ;; buf_set (off +! (3 +! (i *! 8))) (byte (shr 64 d 24)) ;;
    d <- elem data i ;; buf_set (off +! (4 +! (i *! 8))) (byte (shr 64 d 32)) ;;
    d <- elem data i ;; buf_set (off +! (5 +! (i *! 8))) (byte (shr 64 d 40)) ;;
    d <- elem data i ;; buf_set (off +! (6 +! (i *! 8))) (byte (shr 64 d 48)) ;;
    d <- elem data i ;; buf_set (off +! (7 +! (i *! 8))) (byte (shr 64 d 56))) tt.

(** v3/buffer.generated.go:560-563 *)
Definition WriteU64LENext (data : list Z) : prog unit :=
  off <- get FOff ;;
  WriteU64LE off data ;;
  SeekByte (zlen data *! 8) true.

(** v3/buffer.generated.go:568-592 *)
Definition WriteU64BE (off : Z) (data : list Z) : prog unit :=
  cap <- get FCap ;;
  panic_if (off +! zlen data *! 8 >? cap) BufferOverwriteError ;;
  panic_if (off <? 0) BufferUnderwriteError ;;
  goto_loop (zlen data) (fun i _ =>
    d <- elem data i ;; buf_set (off +! (i *! 8)) (byte (shr 64 d 56)) ;;
    d <- elem data i ;; buf_set (off +! (1 +! (i *! 8))) (byte (shr 64 d 48)) ;;
    d <- elem data i ;; buf_set (off +! (2 +! (i *! 8))) (byte (shr 64 d 40)) ;;
    d <- elem data i ;; buf_set (off +! (3 +! (i *! 8))) (byte (shr 64 d 32)) ;;
    d <- elem data i ;; buf_set (off +! (4 +! (i *! 8))) (byte (shr 64 d 24)) ;;
    d <- elem data i ;; buf_set (off +! (5 +! (i *! 8))) (byte (shr 64 d 16)) ;;
    d <- elem data i ;; buf_set (off +! (6 +! (i *! 8))) (byte (shr 64 d 8)) ;;
    d <- elem data i ;; buf_set (off +! (7 +! (i *! 8))) (byte d)) tt.

(** v3/buffer.generated.go:597-600 *)
Definition WriteU64BENext (data : list Z) : prog unit :=
  off <- get FOff ;;
  WriteU64BE off data ;;
  SeekByte (zlen data *! 8) true.

(** v3/buffer.generated.go:605-623 *)
Definition WriteI16LE (off : Z) (data : list Z) : prog unit :=
  cap <- get FCap ;;
  panic_if (off +! zlen data *! 2 >? cap) BufferOverwriteError ;;
  panic_if (off <? 0) BufferUnderwriteError ;;
  goto_loop (zlen data) (fun i _ =>
    d <- elem data i ;; buf_set (off +! (i *! 2)) (byte d) ;;
    d <- elem data i ;; buf_set (off +! (1 +! (i *! 2))) (byte (shr 16 d 8))) tt.

(** v3/buffer.generated.go:628-631 *)
Definition WriteI16LENext (data : list Z) : prog unit :=
  off <- get FOff ;;
  WriteI16LE off data ;;
  SeekByte (zlen data *! 2) true.

(** v3/buffer.generated.go:636-654 *)
Definition WriteI16BE (off : Z) (data : list Z) : prog unit :=
  cap <- get FCap ;;
  panic_if (off +! zlen data *! 2 >? cap) BufferOverwriteError ;;
  panic_if (off <? 0) BufferUnderwriteError ;;
  goto_loop (zlen data) (fun i _ =>
    d <- elem data i ;; buf_set (off +! (i *! 2)) (byte (shr 16 d 8)) ;;
    d <- elem data i ;; buf_set (off +! (1 +! (i *! 2))) (byte d)) tt.

(** v3/buffer.generated.go:659-662 *)
Definition WriteI16BENext (data : list Z) : prog unit :=
  off <- get FOff ;;
  WriteI16BE off data ;;
  SeekByte (zlen data *! 2) true.

(** v3/buffer.generated.go:667-687 *)
Definition WriteI32LE (off : Z) (data : list Z) : prog unit :=
  cap <- get FCap ;;
  panic_if (off +! zlen data *! 4 >? cap) BufferOverwriteError ;;
  panic_if (off <? 0) BufferUnderwriteError ;;
  goto_loop (zlen data) (fun i _ =>
    d <- elem data i ;; buf_set (off +! (i *! 4)) (byte d) ;;
    d <- elem data i ;; buf_set (off +! (1 +! (i *! 4))) (byte (shr 32 d 8)) ;;
    d <- elem data i ;; buf_set (off +! (2 +! (i *! 4))) (byte (shr 32 d 16)) ;;
    d <- elem data i ;; buf_set (off +! (3 +! (i *! 4))) (byte (shr 32 d 24))) tt.

(** v3/buffer.generated.go:692-695 *)
Definition WriteI32LENext (data : list Z) : prog unit :=
  off <- get FOff ;;
  WriteI32LE off data ;;
  SeekByte (zlen data *! 4) true.

(** v3/buffer.generated.go:700-720 *)
Definition WriteI32BE (off : Z) (data : list Z) : prog unit :=
  cap <- get FCap ;;
  panic_if (off +! zlen data *! 4 >? cap) BufferOverwriteError ;;
  panic_if (off <? 0) BufferUnderwriteError ;;
  goto_loop (zlen data) (fun i _ =>
    d <- elem data i ;; buf_set (off +! (i *! 4)) (byte (shr 32 d 24)) ;;
    d <- elem data i ;; buf_set (off +! (1 +! (i *! 4))) (byte (shr 32 d 16)) ;;
    d <- elem data i ;; buf_set (off +! (2 +! (i *! 4))) (byte (shr 32 d 8)) ;;
    d <- elem data i ;; buf_set (off +! (3 +! (i *! 4))) (byte d)) tt.

(** v3/buffer.generated.go:725-728 *)
Definition WriteI32BENext (data : list Z) : prog unit :=
  off <- get FOff ;;
  WriteI32BE off data ;;
  SeekByte (zlen data *! 4) true.

(** v3/buffer.generated.go:733-757 *)
Definition WriteI64LE (off : Z) (data : list Z) : prog unit :=
  cap <- get FCap ;;
  panic_if (off +! zlen data *! 8 >? cap) BufferOverwriteError ;;
  panic_if (off <? 0) BufferUnderwriteError ;;
  goto_loop (zlen data) (fun i _ =>
    d <- elem data i ;; buf_set (off +! (i *! 8)) (byte d) ;;
    d <- elem data i ;; buf_set (off +! (1 +! (i *! 8))) (byte (shr 64 d 8)) ;;
    d <- elem data i ;; buf_set (off +! (2 +! (i *! 8))) (byte (shr 64 d 16)) ;;
    d <- elem data i ;; buf_set (off +! (3 +! (i *! 8))) (byte (shr 64 d 24)) ;;
    d <- elem data i ;; buf_set (off +! (4 +! (i *! 8))) (byte (shr 64 d 32)) ;;
    d <- elem data i ;; buf_set (off +! (5 +! (i *! 8))) (byte (shr 64 d 40)) ;;
    d <- elem data i ;; buf_set (off +! (6 +! (i *! 8))) (byte (shr 64 d 48)) ;;
    d <- elem data i ;; buf_set (off +! (7 +! (i *! 8))) (byte (shr 64 d 56))) tt.

(** v3/buffer.generated.go:762-765 *)
Definition WriteI64LENext (data : list Z) : prog unit :=
  off <- get FOff ;;
  WriteI64LE off data ;;
  SeekByte (zlen data *! 8) true.

(** v3/buffer.generated.go:770-794 *)
Definition WriteI64BE (off : Z) (data : list Z) : prog unit :=
  cap <- get FCap ;;
  panic_if (off +! zlen data *! 8 >? cap) BufferOverwriteError ;;
  panic_if (off <? 0) BufferUnderwriteError ;;
  goto_loop (zlen data) (fun i _ =>
    d <- elem data i ;; buf_set (off +! (i *! 8)) (byte (shr 64 d 56)) ;;
    d <- elem data i ;; buf_set (off +! (1 +! (i *! 8))) (byte (shr 64 d 48)) ;;
    d <- elem data i ;; buf_set (off +! (2 +! (i *! 8))) (byte (shr 64 d 40)) ;;
    d <- elem data i ;; buf_set (off +! (3 +! (i *! 8))) (byte (shr 64 d 32)) ;;
    d <- elem data i ;; buf_set (off +! (4 +! (i *! 8))) (byte (shr 64 d 24)) ;;
    d <- elem data i ;; buf_set (off +! (5 +! (i *! 8))) (byte (shr 64 d 16)) ;;
    d <- elem data i ;; buf_set (off +! (6 +! (i *! 8))) (byte (shr 64 d 8)) ;;
    d <- elem data i ;; buf_set (off +! (7 +! (i *! 8))) (byte d)) tt.

(** v3/buffer.generated.go:799-802 *)
Definition WriteI64BENext (data : list Z) : prog unit :=
  off <- get FOff ;;
  WriteI64BE off data ;;
  SeekByte (zlen data *! 8) true.

(** v3/buffer.generated.go:807-827 *)
Definition WriteF32LE (off : Z) (data : list Z) : prog unit :=
  cap <- get FCap ;;
  panic_if (off +! zlen data *! 4 >? cap) BufferOverwriteError ;;
  panic_if (off <? 0) BufferUnderwriteError ;;
  goto_loop (zlen data) (fun i _ =>
    d <- elem data i ;; buf_set (off +! (i *! 4)) (byte d) ;;
    d <- elem data i ;; buf_set (off +! (1 +! (i *! 4))) (byte (shr 32 d 8)) ;;
    d <- elem data i ;; buf_set (off +! (2 +! (i *! 4))) (byte (shr 32 d 16)) ;;
    d <- elem data i ;; buf_set (off +! (3 +! (i *! 4))) (byte (shr 32 d 24))) tt.

(** v3/buffer.generated.go:832-835 *)
Definition WriteF32LENext (data : list Z) : prog unit :=
  off <- get FOff ;;
  WriteF32LE off data ;;
  SeekByte (zlen data *! 4) true.

(** v3/buffer.generated.go:840-860 *)
Definition WriteF32BE (off : Z) (data : list Z) : prog unit :=
  cap <- get FCap ;;
  panic_if (off +! zlen data *! 4 >? cap) BufferOverwriteError ;;
  panic_if (off <? 0) BufferUnderwriteError ;;
  goto_loop (zlen data) (fun i _ =>
    d <- elem data i ;; buf_set (off +! (i *! 4)) (byte (shr 32 d 24)) ;;
    d <- elem data i ;; buf_set (off +! (1 +! (i *! 4))) (byte (shr 32 d 16)) ;;
    d <- elem data i ;; buf_set (off +! (2 +! (i *! 4))) (byte (shr 32 d 8)) ;;
    d <- elem data i ;; buf_set (off +! (3 +! (i *! 4))) (byte d)) tt.

(** v3/buffer.generated.go:865-868 *)
Definition WriteF32BENext (data : list Z) : prog unit :=
  off <- get FOff ;;
  WriteF32BE off data ;;
  SeekByte (zlen data *! 4) true.

(** v3/buffer.generated.go:873-897 *)
Definition WriteF64LE (off : Z) (data : list Z) : prog unit :=
  cap <- get FCap ;;
  panic_if (off +! zlen data *! 8 >? cap) BufferOverwriteError ;;
  panic_if (off <? 0) BufferUnderwriteError ;;
  goto_loop (zlen data) (fun i _ =>
    d <- elem data i ;; buf_set (off +! (i *! 8)) (byte d) ;;
    d <- elem data i ;; buf_set (off +! (1 +! (i *! 8))) (byte (shr 64 d 8)) ;;
    d <- elem data i ;; buf_set (off +! (2 +! (i *! 8))) (byte (shr 64 d 16)) ;;
    d <- elem data i ;; buf_set (off +! (3 +! (i *! 8))) (byte (shr 64 d 24)) ;;
    d <- elem data i ;; buf_set (off +! (4 +! (i *! 8))) (byte (shr 64 d 32)) ;;
    d <- elem data i ;; buf_set (off +! (5 +! (i *! 8))) (byte (shr 64 d 40)) ;;
    d <- elem data i ;; buf_set (off +! (6 +! (i *! 8))) (byte (shr 64 d 48)) ;;
    d <- elem data i ;; buf_set (off +! (7 +! (i *! 8))) (byte (shr 64 d 56))) tt.

(** v3/buffer.generated.go:902-905 *)
Definition WriteF64LENext (data : list Z) : prog unit :=
  off <- get FOff ;;
  WriteF64LE off data ;;
  SeekByte (zlen data *! 8) true.

(** v3/buffer.generated.go:910-934 *)
Definition WriteF64BE (off : Z) (data : list Z) : prog unit :=
  cap <- get FCap ;;
  panic_if (off +! zlen data *! 8 >? cap) BufferOverwriteError ;;
  panic_if (off <? 0) BufferUnderwriteError ;;
  goto_loop (zlen data) (fun i _ =>
    d <- elem data i ;; buf_set (off +! (i *! 8)) (byte (shr 64 d 56)) ;;
    d <- elem data i ;; buf_set (off +! (1 +! (i *! 8))) (byte (shr 64 d 48)) ;;
    d <- elem data i ;; buf_set (off +! (2 +! (i *! 8))) (byte (shr 64 d 40)) ;;
    d <- elem data i ;; buf_set (off +! (3 +! (i *! 8))) (byte (shr 64 d 32)) ;;
    d <- elem data i ;; buf_set (off +! (4 +! (i *! 8))) (byte (shr 64 d 24)) ;;
    d <- elem data i ;; buf_set (off +! (5 +! (i *! 8))) (byte (shr 64 d 16)) ;;
    d <- elem data i ;; buf_set (off +! (6 +! (i *! 8))) (byte (shr 64 d 8)) ;;
    d <- elem data i ;; buf_set (off +! (7 +! (i *! 8))) (byte d)) tt.

(** v3/buffer.generated.go:939-942 *)
Definition WriteF64BENext (data : list Z) : prog unit :=
  off <- get FOff ;;
  WriteF64BE off data ;;
  SeekByte (zlen data *! 8) true.

(** v3/buffer.generated.go:995-1013 *)
Definition ReadU16LE (off n : Z) : prog (list Z) :=
  cap <- get FCap ;;
  panic_if (off +! n *! 2 >? cap) BufferOverreadError ;;
  panic_if (off <? 0) BufferUnderreadError ;;
  out <- make_elems 2 n ;;
  goto_loop n (fun i out =>
    x0 <- buf_get (off +! (i *! 2)) ;;
    x1 <- buf_get (off +! (1 +! (i *! 2))) ;;
    set_elem out i (Z.lor (uconv 16 x0) (ushl 16 (uconv 16 x1) 8))) out.

(** v3/buffer.generated.go:1018-1022 *)
Definition ReadU16LENext (n : Z) : prog (list Z) :=
  off <- get FOff ;;
  out <- ReadU16LE off n ;;
  SeekByte (n *! 2) true ;;
  Ret out.

(** v3/buffer.generated.go:1027-1045 *)
Definition ReadU16BE (off n : Z) : prog (list Z) :=
  cap <- get FCap ;;
  panic_if (off +! n *! 2 >? cap) BufferOverreadError ;;
  panic_if (off <? 0) BufferUnderreadError ;;
  out <- make_elems 2 n ;;
  goto_loop n (fun i out =>
    x0 <- buf_get (off +! (1 +! (i *! 2))) ;;
    x1 <- buf_get (off +! (i *! 2)) ;;
    set_elem out i (Z.lor (uconv 16 x0) (ushl 16 (uconv 16 x1) 8))) out.

(** v3/buffer.generated.go:1050-1054 *)
Definition ReadU16BENext (n : Z) : prog (list Z) :=
  off <- get FOff ;;
  out <- ReadU16BE off n ;;
  SeekByte (n *! 2) true ;;
  Ret out.

(** v3/buffer.generated.go:1059-1077 *)
Definition ReadU32LE (off n : Z) : prog (list Z) :=
  cap <- get FCap ;;
  panic_if (off +! n *! 4 >? cap) BufferOverreadError ;;
  panic_if (off <? 0) BufferUnderreadError ;;
  out <- make_elems 4 n ;;
  goto_loop n (fun i out =>
    x0 <- buf_get (off +! (i *! 4)) ;;
    x1 <- buf_get (off +! (1 +! (i *! 4))) ;;
    x2 <- buf_get (off +! (2 +! (i *! 4))) ;;
    x3 <- buf_get (off +! (3 +! (i *! 4))) ;;
    set_elem out i (Z.lor (Z.lor (Z.lor (uconv 32 x0) (ushl 32 (uconv 32 x1) 8)) (ushl 32 (uconv 32 x2) 16)) (ushl 32 (uconv 32 x3) 24))) out.

(** v3/buffer.generated.go:1082-1086 *)
Definition ReadU32LENext (n : Z) : prog (list Z) :=
  off <- get FOff ;;
  out <- ReadU32LE off n ;;
  SeekByte (n *! 4) true ;;
  Ret out.

(** v3/buffer.generated.go:1091-1109 *)
Definition ReadU32BE (off n : Z) : prog (list Z) :=
  cap <- get FCap ;;
  panic_if (off +! n *! 4 >? cap) BufferOverreadError ;;
  panic_if (off <? 0) BufferUnderreadError ;;
  out <- make_elems 4 n ;;
  goto_loop n (fun i out =>
    x0 <- buf_get (off +! (3 +! (i *! 4))) ;;
    x1 <- buf_get (off +! (2 +! (i *! 4))) ;;
    x2 <- buf_get (off +! (1 +! (i *! 4))) ;;
    x3 <- buf_get (off +! (i *! 4)) ;;
    set_elem out i (Z.lor (Z.lor (Z.lor (uconv 32 x0) (ushl 32 (uconv 32 x1) 8)) (ushl 32 (uconv 32 x2) 16)) (ushl 32 (uconv 32 x3) 24))) out.

(** v3/buffer.generated.go:1114-1118 *)
Definition ReadU32BENext (n : Z) : prog (list Z) :=
  off <- get FOff ;;
  out <- ReadU32BE off n ;;
  SeekByte (n *! 4) true ;;
  Ret out.

(** v3/buffer.generated.go:1123-1141 *)
Definition ReadU64LE (off n : Z) : prog (list Z) :=
  cap <- get FCap ;;
  panic_if (off +! n *! 8 >? cap) BufferOverreadError ;;
  panic_if (off <? 0) BufferUnderreadError ;;
  out <- make_elems 8 n ;;
  goto_loop n (fun i out =>
    x0 <- buf_get (off +! (i *! 8)) ;;
    x1 <- buf_get (off +! (1 +! (i *! 8))) ;;
    x2 <- buf_get (off +! (2 +! (i *! 8))) ;;
    x3 <- buf_get (off +! (3 +! (i *! 8))) ;;
    x4 <- buf_get (off +! (4 +! (i *! 8))) ;;
    x5 <- buf_get (off +! (5 +! (i *! 8))) ;;
    x6 <- buf_get (off +! (6 +! (i *! 8))) ;;
    x7 <- buf_get (off +! (7 +! (i *! 8))) ;;
    set_elem out i (Z.lor (Z.lor (Z.lor (Z.lor (Z.lor (Z.lor (Z.lor (uconv 64 x0) (ushl 64 (uconv 64 x1) 8)) (ushl 64 (uconv 64 x2) 16)) (ushl 64 (uconv 64 x3) 24)) (ushl 64 (uconv 64 x4) 32)) (ushl 64 (uconv 64 x5) 40)) (ushl 64 (uconv 64 x6) 48)) (ushl 64 (uconv 64 x7) 56))) out.

(** v3/buffer.generated.go:1146-1150 *)
Definition ReadU64LENext (n : Z) : prog (list Z) :=
  off <- get FOff ;;
  out <- ReadU64LE off n ;;
  SeekByte (n *! 8) true ;;
  Ret out.

(** v3/buffer.generated.go:1155-1173 *)
Definition ReadU64BE (off n : Z) : prog (list Z) :=
  cap <- get FCap ;;
  panic_if (off +! n *! 8 >? cap) BufferOverreadError ;;
  panic_if (off <? 0) BufferUnderreadError ;;
  out <- make_elems 8 n ;;
  goto_loop n (fun i out =>
    x0 <- buf_get (off +! (7 +! (i *! 8))) ;;
    x1 <- buf_get (off +! (6 +! (i *! 8))) ;;
    x2 <- buf_get (off +! (5 +! (i *! 8))) ;;
    x3 <- buf_get (off +! (4 +! (i *! 8))) ;;
    x4 <- buf_get (off +! (3 +! (i *! 8))) ;;
    x5 <- buf_get (off +! (2 +! (i *! 8))) ;;
    x6 <- buf_get (off +! (1 +! (i *! 8))) ;;
    x7 <- buf_get (off +! (i *! 8)) ;;
    set_elem out i (Z.lor (Z.lor (Z.lor (Z.lor (Z.lor (Z.lor (Z.lor (uconv 64 x0) (ushl 64 (uconv 64 x1) 8)) (ushl 64 (uconv 64 x2) 16)) (ushl 64 (uconv 64 x3) 24)) (ushl 64 (uconv 64 x4) 32)) (ushl 64 (uconv 64 x5) 40)) (ushl 64 (uconv 64 x6) 48)) (ushl 64 (uconv 64 x7) 56))) out.

(** v3/buffer.generated.go:1178-1182 *)
Definition ReadU64BENext (n : Z) : prog (list Z) :=
  off <- get FOff ;;
  out <- ReadU64BE off n ;;
  SeekByte (n *! 8) true ;;
  Ret out.

(** v3/buffer.generated.go:1187-1205 *)
Definition ReadI16LE (off n : Z) : prog (list Z) :=
  cap <- get FCap ;;
  panic_if (off +! n *! 2 >? cap) BufferOverreadError ;;
  panic_if (off <? 0) BufferUnderreadError ;;
  out <- make_elems 2 n ;;
  goto_loop n (fun i out =>
    x0 <- buf_get (off +! (i *! 2)) ;;
    x1 <- buf_get (off +! (1 +! (i *! 2))) ;;
    set_elem out i (Z.lor (sconv 16 x0) (sshl 16 (sconv 16 x1) 8))) out.

(** v3/buffer.generated.go:1210-1214 *)
Definition ReadI16LENext (n : Z) : prog (list Z) :=
  off <- get FOff ;;
  out <- ReadI16LE off n ;;
  SeekByte (n *! 2) true ;;
  Ret out.

(** v3/buffer.generated.go:1219-1237 *)
Definition ReadI16BE (off n : Z) : prog (list Z) :=
  cap <- get FCap ;;
  panic_if (off +! n *! 2 >? cap) BufferOverreadError ;;
  panic_if (off <? 0) BufferUnderreadError ;;
  out <- make_elems 2 n ;;
  goto_loop n (fun i out =>
    x0 <- buf_get (off +! (1 +! (i *! 2))) ;;
    x1 <- buf_get (off +! (i *! 2)) ;;
    set_elem out i (Z.lor (sconv 16 x0) (sshl 16 (sconv 16 x1) 8))) out.

(** v3/buffer.generated.go:1242-1246 *)
Definition ReadI16BENext (n : Z) : prog (list Z) :=
  off <- get FOff ;;
  out <- ReadI16BE off n ;;
  SeekByte (n *! 2) true ;;
  Ret out.

(** v3/buffer.generated.go:1251-1269 *)
Definition ReadI32LE (off n : Z) : prog (list Z) :=
  cap <- get FCap ;;
  panic_if (off +! n *! 4 >? cap) BufferOverreadError ;;
  panic_if (off <? 0) BufferUnderreadError ;;
  out <- make_elems 4 n ;;
  goto_loop n (fun i out =>
    x0 <- buf_get (off +! (i *! 4)) ;;
    x1 <- buf_get (off +! (1 +! (i *! 4))) ;;
    x2 <- buf_get (off +! (2 +! (i *! 4))) ;;
    x3 <- buf_get (off +! (3 +! (i *! 4))) ;;
    set_elem out i (Z.lor (Z.lor (Z.lor (sconv 32 x0) (sshl 32 (sconv 32 x1) 8)) (sshl 32 (sconv 32 x2) 16)) (sshl 32 (sconv 32 x3) 24))) out.

(** v3/buffer.generated.go:1274-1278 *)
Definition ReadI32LENext (n : Z) : prog (list Z) :=
  off <- get FOff ;;
  out <- ReadI32LE off n ;;
  SeekByte (n *! 4) true ;;
  Ret out.

(** v3/buffer.generated.go:1283-1301 *)
Definition ReadI32BE (off n : Z) : prog (list Z) :=
  cap <- get FCap ;;
  panic_if (off +! n *! 4 >? cap) BufferOverreadError ;;
  panic_if (off <? 0) BufferUnderreadError ;;
  out <- make_elems 4 n ;;
  goto_loop n (fun i out =>
    x0 <- buf_get (off +! (3 +! (i *! 4))) ;;
    x1 <- buf_get (off +! (2 +! (i *! 4))) ;;
    x2 <- buf_get (off +! (1 +! (i *! 4))) ;;
    x3 <- buf_get (off +! (i *! 4)) ;;
    set_elem out i (Z.lor (Z.lor (Z.lor (sconv 32 x0) (sshl 32 (sconv 32 x1) 8)) (sshl 32 (sconv 32 x2) 16)) (sshl 32 (sconv 32 x3) 24))) out.

(** v3/buffer.generated.go:1306-1310 *)
Definition ReadI32BENext (n : Z) : prog (list Z) :=
  off <- get FOff ;;
  out <- ReadI32BE off n ;;
  SeekByte (n *! 4) true ;;
  Ret out.

(** v3/buffer.generated.go:1315-1333 *)
Definition ReadI64LE (off n : Z) : prog (list Z) :=
  cap <- get FCap ;;
  panic_if (off +! n *! 8 >? cap) BufferOverreadError ;;
  panic_if (off <? 0) BufferUnderreadError ;;
  out <- make_elems 8 n ;;
  goto_loop n (fun i out =>
    x0 <- buf_get (off +! (i *! 8)) ;;
    x1 <- buf_get (off +! (1 +! (i *! 8))) ;;
    x2 <- buf_get (off +! (2 +! (i *! 8))) ;;
    x3 <- buf_get (off +! (3 +! (i *! 8))) ;;
    x4 <- buf_get (off +! (4 +! (i *! 8))) ;;
    x5 <- buf_get (off +! (5 +! (i *! 8))) ;;
    x6 <- buf_get (off +! (6 +! (i *! 8))) ;;
    x7 <- buf_get (off +! (7 +! (i *! 8))) ;;
    set_elem out i (Z.lor (Z.lor (Z.lor (Z.lor (Z.lor (Z.lor (Z.lor (sconv 64 x0) (sshl 64 (sconv 64 x1) 8)) (sshl 64 (sconv 64 x2) 16)) (sshl 64 (sconv 64 x3) 24)) (sshl 64 (sconv 64 x4) 32)) (sshl 64 (sconv 64 x5) 40)) (sshl 64 (sconv 64 x6) 48)) (sshl 64 (sconv 64 x7) 56))) out.

(** v3/buffer.generated.go:1338-1342 *)
Definition ReadI64LENext (n : Z) : prog (list Z) :=
  off <- get FOff ;;
  out <- ReadI64LE off n ;;
  SeekByte (n *! 8) true ;;
  Ret out.

(** v3/buffer.generated.go:1347-1365 *)
Definition ReadI64BE (off n : Z) : prog (list Z) :=
  cap <- get FCap ;;
  panic_if (off +! n *! 8 >? cap) BufferOverreadError ;;
  panic_if (off <? 0) BufferUnderreadError ;;
  out <- make_elems 8 n ;;
  goto_loop n (fun i out =>
    x0 <- buf_get (off +! (7 +! (i *! 8))) ;;
    x1 <- buf_get (off +! (6 +! (i *! 8))) ;;
    x2 <- buf_get (off +! (5 +! (i *! 8))) ;;
    x3 <- buf_get (off +! (4 +! (i *! 8))) ;;
    x4 <- buf_get (off +! (3 +! (i *! 8))) ;;
    x5 <- buf_get (off +! (2 +! (i *! 8))) ;;
    x6 <- buf_get (off +! (1 +! (i *! 8))) ;;
    x7 <- buf_get (off +! (i *! 8)) ;;
    set_elem out i (Z.lor (Z.lor (Z.lor (Z.lor (Z.lor (Z.lor (Z.lor (sconv 64 x0) (sshl 64 (sconv 64 x1) 8)) (sshl 64 (sconv 64 x2) 16)) (sshl 64 (sconv 64 x3) 24)) (sshl 64 (sconv 64 x4) 32)) (sshl 64 (sconv 64 x5) 40)) (sshl 64 (sconv 64 x6) 48)) (sshl 64 (sconv 64 x7) 56))) out.

(** v3/buffer.generated.go:1370-1374 *)
Definition ReadI64BENext (n : Z) : prog (list Z) :=
  off <- get FOff ;;
  out <- ReadI64BE off n ;;
  SeekByte (n *! 8) true ;;
  Ret out.

(** v3/buffer.generated.go:1379-1399 *)
Definition ReadF32LE (off n : Z) : prog (list Z) :=
  cap <- get FCap ;;
  panic_if (off +! n *! 4 >? cap) BufferOverreadError ;;
  panic_if (off <? 0) BufferUnderreadError ;;
  out <- make_elems 4 n ;;
  goto_loop n (fun i out =>
    x0 <- buf_get (off +! (i *! 4)) ;;
    x1 <- buf_get (off +! (1 +! (i *! 4))) ;;
    x2 <- buf_get (off +! (2 +! (i *! 4))) ;;
    x3 <- buf_get (off +! (3 +! (i *! 4))) ;;
    set_elem out i (Z.lor (Z.lor (Z.lor (uconv 32 x0) (ushl 32 (uconv 32 x1) 8)) (ushl 32 (uconv 32 x2) 16)) (ushl 32 (uconv 32 x3) 24))) out.

(** v3/buffer.generated.go:1404-1408 *)
Definition ReadF32LENext (n : Z) : prog (list Z) :=
  off <- get FOff ;;
  out <- ReadF32LE off n ;;
  SeekByte (n *! 4) true ;;
  Ret out.

(** v3/buffer.generated.go:1413-1433 *)
Definition ReadF32BE (off n : Z) : prog (list Z) :=
  cap <- get FCap ;;
  panic_if (off +! n *! 4 >? cap) BufferOverreadError ;;
  panic_if (off <? 0) BufferUnderreadError ;;
  out <- make_elems 4 n ;;
  goto_loop n (fun i out =>
    x0 <- buf_get (off +! (3 +! (i *! 4))) ;;
    x1 <- buf_get (off +! (2 +! (i *! 4))) ;;
    x2 <- buf_get (off +! (1 +! (i *! 4))) ;;
    x3 <- buf_get (off +! (i *! 4)) ;;
    set_elem out i (Z.lor (Z.lor (Z.lor (uconv 32 x0) (ushl 32 (uconv 32 x1) 8)) (ushl 32 (uconv 32 x2) 16)) (ushl 32 (uconv 32 x3) 24))) out.

(** v3/buffer.generated.go:1438-1442 *)
Definition ReadF32BENext (n : Z) : prog (list Z) :=
  off <- get FOff ;;
  out <- ReadF32BE off n ;;
  SeekByte (n *! 4) true ;;
  Ret out.

(** v3/buffer.generated.go:1447-1467 *)
Definition ReadF64LE (off n : Z) : prog (list Z) :=
  cap <- get FCap ;;
  panic_if (off +! n *! 8 >? cap) BufferOverreadError ;;
  panic_if (off <? 0) BufferUnderreadError ;;
  out <- make_elems 8 n ;;
  goto_loop n (fun i out =>
    x0 <- buf_get (off +! (i *! 8)) ;;
    x1 <- buf_get (off +! (1 +! (i *! 8))) ;;
    x2 <- buf_get (off +! (2 +! (i *! 8))) ;;
    x3 <- buf_get (off +! (3 +! (i *! 8))) ;;
    x4 <- buf_get (off +! (4 +! (i *! 8))) ;;
    x5 <- buf_get (off +! (5 +! (i *! 8))) ;;
    x6 <- buf_get (off +! (6 +! (i *! 8))) ;;
    x7 <- buf_get (off +! (7 +! (i *! 8))) ;;
    set_elem out i (Z.lor (Z.lor (Z.lor (Z.lor (Z.lor (Z.lor (Z.lor (uconv 64 x0) (ushl 64 (uconv 64 x1) 8)) (ushl 64 (uconv 64 x2) 16)) (ushl 64 (uconv 64 x3) 24)) (ushl 64 (uconv 64 x4) 32)) (ushl 64 (uconv 64 x5) 40)) (ushl 64 (uconv 64 x6) 48)) (ushl 64 (uconv 64 x7) 56))) out.

(** v3/buffer.generated.go:1472-1476 *)
Definition ReadF64LENext (n : Z) : prog (list Z) :=
  off <- get FOff ;;
  out <- ReadF64LE off n ;;
  SeekByte (n *! 8) true ;;
  Ret out.

(** v3/buffer.generated.go:1481-1501 *)
Definition ReadF64BE (off n : Z) : prog (list Z) :=
  cap <- get FCap ;;
  panic_if (off +! n *! 8 >? cap) BufferOverreadError ;;
  panic_if (off <? 0) BufferUnderreadError ;;
  out <- make_elems 8 n ;;
  goto_loop n (fun i out =>
    x0 <- buf_get (off +! (7 +! (i *! 8))) ;;
    x1 <- buf_get (off +! (6 +! (i *! 8))) ;;
    x2 <- buf_get (off +! (5 +! (i *! 8))) ;;
    x3 <- buf_get (off +! (4 +! (i *! 8))) ;;
    x4 <- buf_get (off +! (3 +! (i *! 8))) ;;
    x5 <- buf_get (off +! (2 +! (i *! 8))) ;;
    x6 <- buf_get (off +! (1 +! (i *! 8))) ;;
    x7 <- buf_get (off +! (i *! 8)) ;;
    set_elem out i (Z.lor (Z.lor (Z.lor (Z.lor (Z.lor (Z.lor (Z.lor (uconv 64 x0) (ushl 64 (uconv 64 x1) 8)) (ushl 64 (uconv 64 x2) 16)) (ushl 64 (uconv 64 x3) 24)) (ushl 64 (uconv 64 x4) 32)) (ushl 64 (uconv 64 x5) 40)) (ushl 64 (uconv 64 x6) 48)) (ushl 64 (uconv 64 x7) 56))) out.

(** v3/buffer.generated.go:1506-1510 *)
Definition ReadF64BENext (n : Z) : prog (list Z) :=
  off <- get FOff ;;
  out <- ReadF64BE off n ;;
  SeekByte (n *! 8) true ;;
  Ret out.

