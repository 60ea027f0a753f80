(** * Typed methods of [MiniBuffer], transcribed from v3/minibuf.generated.go by tools/gen_typed.py.
    Elements of float slices are their bit patterns, so the
    [*( *uintN)(unsafe.Pointer(&x))] casts are the identity. *)
From Coq Require Import ZArith List Bool.
From Verif Require Import GoSem Errors V3Mini.
Import ListNotations.
Open Scope Z_scope.
Open Scope go_scope.

(** v3/minibuf.generated.go:325-337 *)
Definition WriteU16LE (off : Z) (data : list Z) : prog unit :=
  goto_loop (zlen data) (fun i _ =>
    d <- elem data i ;; buf_set (off +! (i *! 2)) (byte d) ;;
    d <- elem data i ;; buf_set (off +! (1 +! (i *! 2))) (byte (shr 16 d 8))) tt.

(** v3/minibuf.generated.go:342-345 *)
Definition WriteU16LENext (data : list Z) : prog unit :=
  off <- get FOff ;;
  WriteU16LE off data ;;
  SeekByte (zlen data *! 2) true.

(** v3/minibuf.generated.go:350-362 *)
Definition WriteU16BE (off : Z) (data : list Z) : prog unit :=
  goto_loop (zlen data) (fun i _ =>
    d <- elem data i ;; buf_set (off +! (i *! 2)) (byte (shr 16 d 8)) ;;
    d <- elem data i ;; buf_set (off +! (1 +! (i *! 2))) (byte d)) tt.

(** v3/minibuf.generated.go:367-370 *)
Definition WriteU16BENext (data : list Z) : prog unit :=
  off <- get FOff ;;
  WriteU16BE off data ;;
  SeekByte (zlen data *! 2) true.

(** v3/minibuf.generated.go:375-389 *)
Definition WriteU32LE (off : Z) (data : list Z) : prog unit :=
  goto_loop (zlen data) (fun i _ =>
    d <- elem data i ;; buf_set (off +! (i *! 4)) (byte d) ;;
    d <- elem data i ;; buf_set (off +! (1 +! (i *! 4))) (byte (shr 32 d 8)) ;;
    d <- elem data i ;; buf_set (off +! (2 +! (i *! 4))) (byte (shr 32 d 16)) ;;
    d <- elem data i ;; buf_set (off +! (3 +! (i *! 4))) (byte (shr 32 d 24))) tt.

(** v3/minibuf.generated.go:394-397 *)
Definition WriteU32LENext (data : list Z) : prog unit :=
  off <- get FOff ;;
  WriteU32LE off data ;;
  SeekByte (zlen data *! 4) true.

(** v3/minibuf.generated.go:402-416 *)
Definition WriteU32BE (off : Z) (data : list Z) : prog unit :=
  goto_loop (zlen data) (fun i _ =>
    d <- elem data i ;; buf_set (off +! (i *! 4)) (byte (shr 32 d 24)) ;;
    d <- elem data i ;; buf_set (off +! (1 +! (i *! 4))) (byte (shr 32 d 16)) ;;
    d <- elem data i ;; buf_set (off +! (2 +! (i *! 4))) (byte (shr 32 d 8)) ;;
    d <- elem data i ;; buf_set (off +! (3 +! (i *! 4))) (byte d)) tt.

(** v3/minibuf.generated.go:421-424 *)
Definition WriteU32BENext (data : list Z) : prog unit :=
  off <- get FOff ;;
  WriteU32BE off data ;;
  SeekByte (zlen data *! 4) true.

(** v3/minibuf.generated.go:429-447 *)
Definition WriteU64LE (off : Z) (data : list Z) : prog unit :=
  goto_loop (zlen data) (fun i _ =>
    d <- elem data i ;; buf_set (off +! (i *! 8)) (byte d) ;;
    d <- elem data i ;; buf_set (off +! (1 +! (i *! 8))) (byte (shr 64 d 8)) ;;
    d <- elem data i ;; buf_set (off +! (2 +! (i *! 8))) (byte (shr 64 d 16)) ;;
    d <- elem data i ;; buf_set (off +! (3 +! (i *! 8))) (byte (shr 64 d 24)) ;;
    d <- elem data i ;; buf_set (off +! (4 +! (i *! 8))) (byte (shr 64 d 32)) ;;
    d <- elem data i ;; buf_set (off +! (5 +! (i *! 8))) (byte (shr 64 d 40)) ;;
    d <- elem data i ;; buf_set (off +! (6 +! (i *! 8))) (byte (shr 64 d 48)) ;;
    d <- elem data i ;; buf_set (off +! (7 +! (i *! 8))) (byte (shr 64 d 56))) tt.

(** v3/minibuf.generated.go:452-455 *)
Definition WriteU64LENext (data : list Z) : prog unit :=
  off <- get FOff ;;
  WriteU64LE off data ;;
  SeekByte (zlen data *! 8) true.

(** v3/minibuf.generated.go:460-478 *)
Definition WriteU64BE (off : Z) (data : list Z) : prog unit :=
  goto_loop (zlen data) (fun i _ =>
    d <- elem data i ;; buf_set (off +! (i *! 8)) (byte (shr 64 d 56)) ;;
    d <- elem data i ;; buf_set (off +! (1 +! (i *! 8))) (byte (shr 64 d 48)) ;;
    d <- elem data i ;; buf_set (off +! (2 +! (i *! 8))) (byte (shr 64 d 40)) ;;
    d <- elem data i ;; buf_set (off +! (3 +! (i *! 8))) (byte (shr 64 d 32)) ;;
    d <- elem data i ;; buf_set (off +! (4 +! (i *! 8))) (byte (shr 64 d 24)) ;;
    d <- elem data i ;; buf_set (off +! (5 +! (i *! 8))) (byte (shr 64 d 16)) ;;
    d <- elem data i ;; buf_set (off +! (6 +! (i *! 8))) (byte (shr 64 d 8)) ;;
    d <- elem data i ;; buf_set (off +! (7 +! (i *! 8))) (byte d)) tt.

(** v3/minibuf.generated.go:483-486 *)
Definition WriteU64BENext (data : list Z) : prog unit :=
  off <- get FOff ;;
  WriteU64BE off data ;;
  SeekByte (zlen data *! 8) true.

(** v3/minibuf.generated.go:491-503 *)
Definition WriteI16LE (off : Z) (data : list Z) : prog unit :=
  goto_loop (zlen data) (fun i _ =>
    d <- elem data i ;; buf_set (off +! (i *! 2)) (byte d) ;;
    d <- elem data i ;; buf_set (off +! (1 +! (i *! 2))) (byte (shr 16 d 8))) tt.

(** v3/minibuf.generated.go:508-511 *)
Definition WriteI16LENext (data : list Z) : prog unit :=
  off <- get FOff ;;
  WriteI16LE off data ;;
  SeekByte (zlen data *! 2) true.

(** v3/minibuf.generated.go:516-528 *)
Definition WriteI16BE (off : Z) (data : list Z) : prog unit :=
  goto_loop (zlen data) (fun i _ =>
    d <- elem data i ;; buf_set (off +! (i *! 2)) (byte (shr 16 d 8)) ;;
    d <- elem data i ;; buf_set (off +! (1 +! (i *! 2))) (byte d)) tt.

(** v3/minibuf.generated.go:533-536 *)
Definition WriteI16BENext (data : list Z) : prog unit :=
  off <- get FOff ;;
  WriteI16BE off data ;;
  SeekByte (zlen data *! 2) true.

(** v3/minibuf.generated.go:541-555 *)
Definition WriteI32LE (off : Z) (data : list Z) : prog unit :=
  goto_loop (zlen data) (fun i _ =>
    d <- elem data i ;; buf_set (off +! (i *! 4)) (byte d) ;;
    d <- elem data i ;; buf_set (off +! (1 +! (i *! 4))) (byte (shr 32 d 8)) ;;
    d <- elem data i ;; buf_set (off +! (2 +! (i *! 4))) (byte (shr 32 d 16)) ;;
    d <- elem data i ;; buf_set (off +! (3 +! (i *! 4))) (byte (shr 32 d 24))) tt.

(** v3/minibuf.generated.go:560-563 *)
Definition WriteI32LENext (data : list Z) : prog unit :=
  off <- get FOff ;;
  WriteI32LE off data ;;
  SeekByte (zlen data *! 4) true.

(** v3/minibuf.generated.go:568-582 *)
Definition WriteI32BE (off : Z) (data : list Z) : prog unit :=
  goto_loop (zlen data) (fun i _ =>
    d <- elem data i ;; buf_set (off +! (i *! 4)) (byte (shr 32 d 24)) ;;
    d <- elem data i ;; buf_set (off +! (1 +! (i *! 4))) (byte (shr 32 d 16)) ;;
    d <- elem data i ;; buf_set (off +! (2 +! (i *! 4))) (byte (shr 32 d 8)) ;;
    d <- elem data i ;; buf_set (off +! (3 +! (i *! 4))) (byte d)) tt.

(** v3/minibuf.generated.go:587-590 *)
Definition WriteI32BENext (data : list Z) : prog unit :=
  off <- get FOff ;;
  WriteI32BE off data ;;
  SeekByte (zlen data *! 4) true.

(** v3/minibuf.generated.go:595-613 *)
Definition WriteI64LE (off : Z) (data : list Z) : prog unit :=
  goto_loop (zlen data) (fun i _ =>
    d <- elem data i ;; buf_set (off +! (i *! 8)) (byte d) ;;
    d <- elem data i ;; buf_set (off +! (1 +! (i *! 8))) (byte (shr 64 d 8)) ;;
    d <- elem data i ;; buf_set (off +! (2 +! (i *! 8))) (byte (shr 64 d 16)) ;;
    d <- elem data i ;; buf_set (off +! (3 +! (i *! 8))) (byte (shr 64 d 24)) ;;
    d <- elem data i ;; buf_set (off +! (4 +! (i *! 8))) (byte (shr 64 d 32)) ;;
    d <- elem data i ;; buf_set (off +! (5 +! (i *! 8))) (byte (shr 64 d 40)) ;;
    d <- elem data i ;; buf_set (off +! (6 +! (i *! 8))) (byte (shr 64 d 48)) ;;
    d <- elem data i ;; buf_set (off +! (7 +! (i *! 8))) (byte (shr 64 d 56))) tt.

(** v3/minibuf.generated.go:618-621 *)
Definition WriteI64LENext (data : list Z) : prog unit :=
  off <- get FOff ;;
  WriteI64LE off data ;;
  SeekByte (zlen data *! 8) true.

(** v3/minibuf.generated.go:626-644 *)
Definition WriteI64BE (off : Z) (data : list Z) : prog unit :=
  goto_loop (zlen data) (fun i _ =>
    d <- elem data i ;; buf_set (off +! (i *! 8)) (byte (shr 64 d 56)) ;;
    d <- elem data i ;; buf_set (off +! (1 +! (i *! 8))) (byte (shr 64 d 48)) ;;
    d <- elem data i ;; buf_set (off +! (2 +! (i *! 8))) (byte (shr 64 d 40)) ;;
    d <- elem data i ;; buf_set (off +! (3 +! (i *! 8))) (byte (shr 64 d 32)) ;;
    d <- elem data i ;; buf_set (off +! (4 +! (i *! 8))) (byte (shr 64 d 24)) ;;
    d <- elem data i ;; buf_set (off +! (5 +! (i *! 8))) (byte (shr 64 d 16)) ;;
    d <- elem data i ;; buf_set (off +! (6 +! (i *! 8))) (byte (shr 64 d 8)) ;;
    d <- elem data i ;; buf_set (off +! (7 +! (i *! 8))) (byte d)) tt.

(** v3/minibuf.generated.go:649-652 *)
Definition WriteI64BENext (data : list Z) : prog unit :=
  off <- get FOff ;;
  WriteI64BE off data ;;
  SeekByte (zlen data *! 8) true.

(** v3/minibuf.generated.go:657-671 *)
Definition WriteF32LE (off : Z) (data : list Z) : prog unit :=
  goto_loop (zlen data) (fun i _ =>
    d <- elem data i ;; buf_set (off +! (i *! 4)) (byte d) ;;
    d <- elem data i ;; buf_set (off +! (1 +! (i *! 4))) (byte (shr 32 d 8)) ;;
    d <- elem data i ;; buf_set (off +! (2 +! (i *! 4))) (byte (shr 32 d 16)) ;;
    d <- elem data i ;; buf_set (off +! (3 +! (i *! 4))) (byte (shr 32 d 24))) tt.

(** v3/minibuf.generated.go:676-679 *)
Definition WriteF32LENext (data : list Z) : prog unit :=
  off <- get FOff ;;
  WriteF32LE off data ;;
  SeekByte (zlen data *! 4) true.

(** v3/minibuf.generated.go:684-698 *)
Definition WriteF32BE (off : Z) (data : list Z) : prog unit :=
  goto_loop (zlen data) (fun i _ =>
    d <- elem data i ;; buf_set (off +! (i *! 4)) (byte (shr 32 d 24)) ;;
    d <- elem data i ;; buf_set (off +! (1 +! (i *! 4))) (byte (shr 32 d 16)) ;;
    d <- elem data i ;; buf_set (off +! (2 +! (i *! 4))) (byte (shr 32 d 8)) ;;
    d <- elem data i ;; buf_set (off +! (3 +! (i *! 4))) (byte d)) tt.

(** v3/minibuf.generated.go:703-706 *)
Definition WriteF32BENext (data : list Z) : prog unit :=
  off <- get FOff ;;
  WriteF32BE off data ;;
  SeekByte (zlen data *! 4) true.

(** v3/minibuf.generated.go:711-729 *)
Definition WriteF64LE (off : Z) (data : list Z) : prog unit :=
  goto_loop (zlen data) (fun i _ =>
    d <- elem data i ;; buf_set (off +! (i *! 8)) (byte d) ;;
    d <- elem data i ;; buf_set (off +! (1 +! (i *! 8))) (byte (shr 64 d 8)) ;;
    d <- elem data i ;; buf_set (off +! (2 +! (i *! 8))) (byte (shr 64 d 16)) ;;
    d <- elem data i ;; buf_set (off +! (3 +! (i *! 8))) (byte (shr 64 d 24)) ;;
    d <- elem data i ;; buf_set (off +! (4 +! (i *! 8))) (byte (shr 64 d 32)) ;;
    d <- elem data i ;; buf_set (off +! (5 +! (i *! 8))) (byte (shr 64 d 40)) ;;
    d <- elem data i ;; buf_set (off +! (6 +! (i *! 8))) (byte (shr 64 d 48)) ;;
    d <- elem data i ;; buf_set (off +! (7 +! (i *! 8))) (byte (shr 64 d 56))) tt.

(** v3/minibuf.generated.go:734-737 *)
Definition WriteF64LENext (data : list Z) : prog unit :=
  off <- get FOff ;;
  WriteF64LE off data ;;
  SeekByte (zlen data *! 8) true.

(** v3/minibuf.generated.go:742-760 *)
Definition WriteF64BE (off : Z) (data : list Z) : prog unit :=
  goto_loop (zlen data) (fun i _ =>
    d <- elem data i ;; buf_set (off +! (i *! 8)) (byte (shr 64 d 56)) ;;
    d <- elem data i ;; buf_set (off +! (1 +! (i *! 8))) (byte (shr 64 d 48)) ;;
    d <- elem data i ;; buf_set (off +! (2 +! (i *! 8))) (byte (shr 64 d 40)) ;;
    d <- elem data i ;; buf_set (off +! (3 +! (i *! 8))) (byte (shr 64 d 32)) ;;
    d <- elem data i ;; buf_set (off +! (4 +! (i *! 8))) (byte (shr 64 d 24)) ;;
    d <- elem data i ;; buf_set (off +! (5 +! (i *! 8))) (byte (shr 64 d 16)) ;;
    d <- elem data i ;; buf_set (off +! (6 +! (i *! 8))) (byte (shr 64 d 8)) ;;
    d <- elem data i ;; buf_set (off +! (7 +! (i *! 8))) (byte d)) tt.

(** v3/minibuf.generated.go:765-768 *)
Definition WriteF64BENext (data : list Z) : prog unit :=
  off <- get FOff ;;
  WriteF64BE off data ;;
  SeekByte (zlen data *! 8) true.

(** v3/minibuf.generated.go:790-800 *)
Definition ReadU16LE (off n : Z) : prog unit :=
  goto_loop n (fun i _ =>
    x0 <- buf_get (off +! (i *! 2)) ;;
    x1 <- buf_get (off +! (1 +! (i *! 2))) ;;
    GetOuts (fun out => out' <- set_elem out i (Z.lor (uconv 16 x0) (ushl 16 (uconv 16 x1) 8)) ;; SetOuts out' (Ret tt))) tt.

(** v3/minibuf.generated.go:805-808 *)
Definition ReadU16LENext (n : Z) : prog unit :=
  off <- get FOff ;;
  ReadU16LE off n ;;
  SeekByte (n *! 2) true.

(** v3/minibuf.generated.go:813-823 *)
Definition ReadU16BE (off n : Z) : prog unit :=
  goto_loop n (fun i _ =>
    x0 <- buf_get (off +! (1 +! (i *! 2))) ;;
    x1 <- buf_get (off +! (i *! 2)) ;;
    GetOuts (fun out => out' <- set_elem out i (Z.lor (uconv 16 x0) (ushl 16 (uconv 16 x1) 8)) ;; SetOuts out' (Ret tt))) tt.

(** v3/minibuf.generated.go:828-831 *)
Definition ReadU16BENext (n : Z) : prog unit :=
  off <- get FOff ;;
  ReadU16BE off n ;;
  SeekByte (n *! 2) true.

(** v3/minibuf.generated.go:836-846 *)
Definition ReadU32LE (off n : Z) : prog unit :=
  goto_loop n (fun i _ =>
    x0 <- buf_get (off +! (i *! 4)) ;;
    x1 <- buf_get (off +! (1 +! (i *! 4))) ;;
    x2 <- buf_get (off +! (2 +! (i *! 4))) ;;
    x3 <- buf_get (off +! (3 +! (i *! 4))) ;;
    GetOuts (fun out => out' <- set_elem out i (Z.lor (Z.lor (Z.lor (uconv 32 x0) (ushl 32 (uconv 32 x1) 8)) (ushl 32 (uconv 32 x2) 16)) (ushl 32 (uconv 32 x3) 24)) ;; SetOuts out' (Ret tt))) tt.

(** v3/minibuf.generated.go:851-854 *)
Definition ReadU32LENext (n : Z) : prog unit :=
  off <- get FOff ;;
  ReadU32LE off n ;;
  SeekByte (n *! 4) true.

(** v3/minibuf.generated.go:859-869 *)
Definition ReadU32BE (off n : Z) : prog unit :=
  goto_loop n (fun i _ =>
    x0 <- buf_get (off +! (3 +! (i *! 4))) ;;
    x1 <- buf_get (off +! (2 +! (i *! 4))) ;;
    x2 <- buf_get (off +! (1 +! (i *! 4))) ;;
    x3 <- buf_get (off +! (i *! 4)) ;;
    GetOuts (fun out => out' <- set_elem out i (Z.lor (Z.lor (Z.lor (uconv 32 x0) (ushl 32 (uconv 32 x1) 8)) (ushl 32 (uconv 32 x2) 16)) (ushl 32 (uconv 32 x3) 24)) ;; SetOuts out' (Ret tt))) tt.

(** v3/minibuf.generated.go:874-877 *)
Definition ReadU32BENext (n : Z) : prog unit :=
  off <- get FOff ;;
  ReadU32BE off n ;;
  SeekByte (n *! 4) true.

(** v3/minibuf.generated.go:882-892 *)
Definition ReadU64LE (off n : Z) : prog unit :=
  goto_loop n (fun i _ =>
    x0 <- buf_get (off +! (i *! 8)) ;;
    x1 <- buf_get (off +! (1 +! (i *! 8))) ;;
    x2 <- buf_get (off +! (2 +! (i *! 8))) ;;
    x3 <- buf_get (off +! (3 +! (i *! 8))) ;;
    x4 <- buf_get (off +! (4 +! (i *! 8))) ;;
    x5 <- buf_get (off +! (5 +! (i *! 8))) ;;
    x6 <- buf_get (off +! (6 +! (i *! 8))) ;;
    x7 <- buf_get (off +! (7 +! (i *! 8))) ;;
    GetOuts (fun out => out' <- set_elem out i (Z.lor (Z.lor (Z.lor (Z.lor (Z.lor (Z.lor (Z.lor (uconv 64 x0) (ushl 64 (uconv 64 x1) 8)) (ushl 64 (uconv 64 x2) 16)) (ushl 64 (uconv 64 x3) 24)) (ushl 64 (uconv 64 x4) 32)) (ushl 64 (uconv 64 x5) 40)) (ushl 64 (uconv 64 x6) 48)) (ushl 64 (uconv 64 x7) 56)) ;; SetOuts out' (Ret tt))) tt.

(** v3/minibuf.generated.go:897-900 *)
Definition ReadU64LENext (n : Z) : prog unit :=
  off <- get FOff ;;
  ReadU64LE off n ;;
  SeekByte (n *! 8) true.

(** v3/minibuf.generated.go:905-915 *)
Definition ReadU64BE (off n : Z) : prog unit :=
  goto_loop n (fun i _ =>
    x0 <- buf_get (off +! (7 +! (i *! 8))) ;;
    x1 <- buf_get (off +! (6 +! (i *! 8))) ;;
    x2 <- buf_get (off +! (5 +! (i *! 8))) ;;
    x3 <- buf_get (off +! (4 +! (i *! 8))) ;;
    x4 <- buf_get (off +! (3 +! (i *! 8))) ;;
    x5 <- buf_get (off +! (2 +! (i *! 8))) ;;
    x6 <- buf_get (off +! (1 +! (i *! 8))) ;;
    x7 <- buf_get (off +! (i *! 8)) ;;
    GetOuts (fun out => out' <- set_elem out i (Z.lor (Z.lor (Z.lor (Z.lor (Z.lor (Z.lor (Z.lor (uconv 64 x0) (ushl 64 (uconv 64 x1) 8)) (ushl 64 (uconv 64 x2) 16)) (ushl 64 (uconv 64 x3) 24)) (ushl 64 (uconv 64 x4) 32)) (ushl 64 (uconv 64 x5) 40)) (ushl 64 (uconv 64 x6) 48)) (ushl 64 (uconv 64 x7) 56)) ;; SetOuts out' (Ret tt))) tt.

(** v3/minibuf.generated.go:920-923 *)
Definition ReadU64BENext (n : Z) : prog unit :=
  off <- get FOff ;;
  ReadU64BE off n ;;
  SeekByte (n *! 8) true.

(** v3/minibuf.generated.go:928-938 *)
Definition ReadI16LE (off n : Z) : prog unit :=
  goto_loop n (fun i _ =>
    x0 <- buf_get (off +! (i *! 2)) ;;
    x1 <- buf_get (off +! (1 +! (i *! 2))) ;;
    GetOuts (fun out => out' <- set_elem out i (Z.lor (sconv 16 x0) (sshl 16 (sconv 16 x1) 8)) ;; SetOuts out' (Ret tt))) tt.

(** v3/minibuf.generated.go:943-946 *)
Definition ReadI16LENext (n : Z) : prog unit :=
  off <- get FOff ;;
  ReadI16LE off n ;;
  SeekByte (n *! 2) true.

(** v3/minibuf.generated.go:951-961 *)
Definition ReadI16BE (off n : Z) : prog unit :=
  goto_loop n (fun i _ =>
    x0 <- buf_get (off +! (1 +! (i *! 2))) ;;
    x1 <- buf_get (off +! (i *! 2)) ;;
    GetOuts (fun out => out' <- set_elem out i (Z.lor (sconv 16 x0) (sshl 16 (sconv 16 x1) 8)) ;; SetOuts out' (Ret tt))) tt.

(** v3/minibuf.generated.go:966-969 *)
Definition ReadI16BENext (n : Z) : prog unit :=
  off <- get FOff ;;
  ReadI16BE off n ;;
  SeekByte (n *! 2) true.

(** v3/minibuf.generated.go:974-984 *)
Definition ReadI32LE (off n : Z) : prog unit :=
  goto_loop n (fun i _ =>
    x0 <- buf_get (off +! (i *! 4)) ;;
    x1 <- buf_get (off +! (1 +! (i *! 4))) ;;
    x2 <- buf_get (off +! (2 +! (i *! 4))) ;;
    x3 <- buf_get (off +! (3 +! (i *! 4))) ;;
    GetOuts (fun out => out' <- set_elem out i (Z.lor (Z.lor (Z.lor (sconv 32 x0) (sshl 32 (sconv 32 x1) 8)) (sshl 32 (sconv 32 x2) 16)) (sshl 32 (sconv 32 x3) 24)) ;; SetOuts out' (Ret tt))) tt.

(** v3/minibuf.generated.go:989-992 *)
Definition ReadI32LENext (n : Z) : prog unit :=
  off <- get FOff ;;
  ReadI32LE off n ;;
  SeekByte (n *! 4) true.

(** v3/minibuf.generated.go:997-1007 *)
Definition ReadI32BE (off n : Z) : prog unit :=
  goto_loop n (fun i _ =>
    x0 <- buf_get (off +! (3 +! (i *! 4))) ;;
    x1 <- buf_get (off +! (2 +! (i *! 4))) ;;
    x2 <- buf_get (off +! (1 +! (i *! 4))) ;;
    x3 <- buf_get (off +! (i *! 4)) ;;
    GetOuts (fun out => out' <- set_elem out i (Z.lor (Z.lor (Z.lor (sconv 32 x0) (sshl 32 (sconv 32 x1) 8)) (sshl 32 (sconv 32 x2) 16)) (sshl 32 (sconv 32 x3) 24)) ;; SetOuts out' (Ret tt))) tt.

(** v3/minibuf.generated.go:1012-1015 *)
Definition ReadI32BENext (n : Z) : prog unit :=
  off <- get FOff ;;
  ReadI32BE off n ;;
  SeekByte (n *! 4) true.

(** v3/minibuf.generated.go:1020-1030 *)
Definition ReadI64LE (off n : Z) : prog unit :=
  goto_loop n (fun i _ =>
    x0 <- buf_get (off +! (i *! 8)) ;;
    x1 <- buf_get (off +! (1 +! (i *! 8))) ;;
    x2 <- buf_get (off +! (2 +! (i *! 8))) ;;
    x3 <- buf_get (off +! (3 +! (i *! 8))) ;;
    x4 <- buf_get (off +! (4 +! (i *! 8))) ;;
    x5 <- buf_get (off +! (5 +! (i *! 8))) ;;
    x6 <- buf_get (off +! (6 +! (i *! 8))) ;;
    x7 <- buf_get (off +! (7 +! (i *! 8))) ;;
    GetOuts (fun out => out' <- set_elem out i (Z.lor (Z.lor (Z.lor (Z.lor (Z.lor (Z.lor (Z.lor (sconv 64 x0) (sshl 64 (sconv 64 x1) 8)) (sshl 64 (sconv 64 x2) 16)) (sshl 64 (sconv 64 x3) 24)) (sshl 64 (sconv 64 x4) 32)) (sshl 64 (sconv 64 x5) 40)) (sshl 64 (sconv 64 x6) 48)) (sshl 64 (sconv 64 x7) 56)) ;; SetOuts out' (Ret tt))) tt.

(** v3/minibuf.generated.go:1035-1038 *)
Definition ReadI64LENext (n : Z) : prog unit :=
  off <- get FOff ;;
  ReadI64LE off n ;;
  SeekByte (n *! 8) true.

(** v3/minibuf.generated.go:1043-1053 *)
Definition ReadI64BE (off n : Z) : prog unit :=
  goto_loop n (fun i _ =>
    x0 <- buf_get (off +! (7 +! (i *! 8))) ;;
    x1 <- buf_get (off +! (6 +! (i *! 8))) ;;
    x2 <- buf_get (off +! (5 +! (i *! 8))) ;;
    x3 <- buf_get (off +! (4 +! (i *! 8))) ;;
    x4 <- buf_get (off +! (3 +! (i *! 8))) ;;
    x5 <- buf_get (off +! (2 +! (i *! 8))) ;;
    x6 <- buf_get (off +! (1 +! (i *! 8))) ;;
    x7 <- buf_get (off +! (i *! 8)) ;;
    GetOuts (fun out => out' <- set_elem out i (Z.lor (Z.lor (Z.lor (Z.lor (Z.lor (Z.lor (Z.lor (sconv 64 x0) (sshl 64 (sconv 64 x1) 8)) (sshl 64 (sconv 64 x2) 16)) (sshl 64 (sconv 64 x3) 24)) (sshl 64 (sconv 64 x4) 32)) (sshl 64 (sconv 64 x5) 40)) (sshl 64 (sconv 64 x6) 48)) (sshl 64 (sconv 64 x7) 56)) ;; SetOuts out' (Ret tt))) tt.

(** v3/minibuf.generated.go:1058-1061 *)
Definition ReadI64BENext (n : Z) : prog unit :=
  off <- get FOff ;;
  ReadI64BE off n ;;
  SeekByte (n *! 8) true.

(** v3/minibuf.generated.go:1066-1078 *)
Definition ReadF32LE (off n : Z) : prog unit :=
  goto_loop n (fun i _ =>
    x0 <- buf_get (off +! (i *! 4)) ;;
    x1 <- buf_get (off +! (1 +! (i *! 4))) ;;
    x2 <- buf_get (off +! (2 +! (i *! 4))) ;;
    x3 <- buf_get (off +! (3 +! (i *! 4))) ;;
    GetOuts (fun out => out' <- set_elem out i (Z.lor (Z.lor (Z.lor (uconv 32 x0) (ushl 32 (uconv 32 x1) 8)) (ushl 32 (uconv 32 x2) 16)) (ushl 32 (uconv 32 x3) 24)) ;; SetOuts out' (Ret tt))) tt.

(** v3/minibuf.generated.go:1083-1086 *)
Definition ReadF32LENext (n : Z) : prog unit :=
  off <- get FOff ;;
  ReadF32LE off n ;;
  SeekByte (n *! 4) true.

(** v3/minibuf.generated.go:1091-1103 *)
Definition ReadF32BE (off n : Z) : prog unit :=
  goto_loop n (fun i _ =>
    x0 <- buf_get (off +! (3 +! (i *! 4))) ;;
    x1 <- buf_get (off +! (2 +! (i *! 4))) ;;
    x2 <- buf_get (off +! (1 +! (i *! 4))) ;;
    x3 <- buf_get (off +! (i *! 4)) ;;
    GetOuts (fun out => out' <- set_elem out i (Z.lor (Z.lor (Z.lor (uconv 32 x0) (ushl 32 (uconv 32 x1) 8)) (ushl 32 (uconv 32 x2) 16)) (ushl 32 (uconv 32 x3) 24)) ;; SetOuts out' (Ret tt))) tt.

(** v3/minibuf.generated.go:1108-1111 *)
Definition ReadF32BENext (n : Z) : prog unit :=
  off <- get FOff ;;
  ReadF32BE off n ;;
  SeekByte (n *! 4) true.

(** v3/minibuf.generated.go:1116-1128 *)
Definition ReadF64LE (off n : Z) : prog unit :=
  goto_loop n (fun i _ =>
    x0 <- buf_get (off +! (i *! 8)) ;;
    x1 <- buf_get (off +! (1 +! (i *! 8))) ;;
    x2 <- buf_get (off +! (2 +! (i *! 8))) ;;
    x3 <- buf_get (off +! (3 +! (i *! 8))) ;;
    x4 <- buf_get (off +! (4 +! (i *! 8))) ;;
    x5 <- buf_get (off +! (5 +! (i *! 8))) ;;
    x6 <- buf_get (off +! (6 +! (i *! 8))) ;;
    x7 <- buf_get (off +! (7 +! (i *! 8))) ;;
    GetOuts (fun out => out' <- set_elem out i (Z.lor (Z.lor (Z.lor (Z.lor (Z.lor (Z.lor (Z.lor (uconv 64 x0) (ushl 64 (uconv 64 x1) 8)) (ushl 64 (uconv 64 x2) 16)) (ushl 64 (uconv 64 x3) 24)) (ushl 64 (uconv 64 x4) 32)) (ushl 64 (uconv 64 x5) 40)) (ushl 64 (uconv 64 x6) 48)) (ushl 64 (uconv 64 x7) 56)) ;; SetOuts out' (Ret tt))) tt.

(** v3/minibuf.generated.go:1133-1136 *)
Definition ReadF64LENext (n : Z) : prog unit :=
  off <- get FOff ;;
  ReadF64LE off n ;;
  SeekByte (n *! 8) true.

(** v3/minibuf.generated.go:1141-1153 *)
Definition ReadF64BE (off n : Z) : prog unit :=
  goto_loop n (fun i _ =>
    x0 <- buf_get (off +! (7 +! (i *! 8))) ;;
    x1 <- buf_get (off +! (6 +! (i *! 8))) ;;
    x2 <- buf_get (off +! (5 +! (i *! 8))) ;;
    x3 <- buf_get (off +! (4 +! (i *! 8))) ;;
    x4 <- buf_get (off +! (3 +! (i *! 8))) ;;
    x5 <- buf_get (off +! (2 +! (i *! 8))) ;;
    x6 <- buf_get (off +! (1 +! (i *! 8))) ;;
    x7 <- buf_get (off +! (i *! 8)) ;;
    GetOuts (fun out => out' <- set_elem out i (Z.lor (Z.lor (Z.lor (Z.lor (Z.lor (Z.lor (Z.lor (uconv 64 x0) (ushl 64 (uconv 64 x1) 8)) (ushl 64 (uconv 64 x2) 16)) (ushl 64 (uconv 64 x3) 24)) (ushl 64 (uconv 64 x4) 32)) (ushl 64 (uconv 64 x5) 40)) (ushl 64 (uconv 64 x6) 48)) (ushl 64 (uconv 64 x7) 56)) ;; SetOuts out' (Ret tt))) tt.

(** v3/minibuf.generated.go:1158-1161 *)
Definition ReadF64BENext (n : Z) : prog unit :=
  off <- get FOff ;;
  ReadF64BE off n ;;
  SeekByte (n *! 8) true.

