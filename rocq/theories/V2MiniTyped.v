(** * Typed methods of [MiniBuffer], transcribed from v2/minibuf.go by tools/gen_typed_v2.py. *)
From Coq Require Import ZArith List Bool.
From Verif Require Import GoSem Errors V2Mini.
Import ListNotations.
Open Scope Z_scope.
Open Scope go_scope.

(** v2/minibuf.go:247-266 *)
Definition writeU16LE (off : Z) (data : list Z) : prog unit :=
  goto_loop (zlen data) (fun i _ =>
    d <- elem data i ;; buf_set (off +! (i *! 2)) (byte d) ;;
    d <- elem data i ;; buf_set (off +! (1 +! (i *! 2))) (byte (shr 16 d 8))) tt.

(** v2/minibuf.go:269-288 *)
Definition writeU16BE (off : Z) (data : list Z) : prog unit :=
  goto_loop (zlen data) (fun i _ =>
    d <- elem data i ;; buf_set (off +! (i *! 2)) (byte (shr 16 d 8)) ;;
    d <- elem data i ;; buf_set (off +! (1 +! (i *! 2))) (byte d)) tt.

(** v2/minibuf.go:291-312 *)
Definition writeU32LE (off : Z) (data : list Z) : prog unit :=
  goto_loop (zlen data) (fun i _ =>
    d <- elem data i ;; buf_set (off +! (i *! 4)) (byte d) ;;
    d <- elem data i ;; buf_set (off +! (1 +! (i *! 4))) (byte (shr 32 d 8)) ;;
    d <- elem data i ;; buf_set (off +! (2 +! (i *! 4))) (byte (shr 32 d 16)) ;;
    d <- elem data i ;; buf_set (off +! (3 +! (i *! 4))) (byte (shr 32 d 24))) tt.

(** v2/minibuf.go:315-336 *)
Definition writeU32BE (off : Z) (data : list Z) : prog unit :=
  goto_loop (zlen data) (fun i _ =>
    d <- elem data i ;; buf_set (off +! (i *! 4)) (byte (shr 32 d 24)) ;;
    d <- elem data i ;; buf_set (off +! (1 +! (i *! 4))) (byte (shr 32 d 16)) ;;
    d <- elem data i ;; buf_set (off +! (2 +! (i *! 4))) (byte (shr 32 d 8)) ;;
    d <- elem data i ;; buf_set (off +! (3 +! (i *! 4))) (byte d)) tt.

(** v2/minibuf.go:339-364 *)
Definition writeU64LE (off : Z) (data : list Z) : prog unit :=
  goto_loop (zlen data) (fun i _ =>
    d <- elem data i ;; buf_set (off +! (i *! 8)) (byte d) ;;
    d <- elem data i ;; buf_set (off +! (1 +! (i *! 8))) (byte (shr 64 d 8)) ;;
    d <- elem data i ;; buf_set (off +! (2 +! (i *! 8))) (byte (shr 64 d 16)) ;;
    d <- elem data i ;; buf_set (off +! (3 +! (i *! 8))) (byte (shr 64 d 24)) ;;
    d <- elem data i ;; buf_set (off +! (4 +! (i *! 8))) (byte (shr 64 d 32)) ;;
    d <- elem data i ;; buf_set (off +! (5 +! (i *! 8))) (byte (shr 64 d 40)) ;;
    d <- elem data i ;; buf_set (off +! (6 +! (i *! 8))) (byte (shr 64 d 48)) ;;
    d <- elem data i ;; buf_set (off +! (7 +! (i *! 8))) (byte (shr 64 d 56))) tt.

(** v2/minibuf.go:367-392 *)
Definition writeU64BE (off : Z) (data : list Z) : prog unit :=
  goto_loop (zlen data) (fun i _ =>
    d <- elem data i ;; buf_set (off +! (i *! 8)) (byte (shr 64 d 56)) ;;
    d <- elem data i ;; buf_set (off +! (1 +! (i *! 8))) (byte (shr 64 d 48)) ;;
    d <- elem data i ;; buf_set (off +! (2 +! (i *! 8))) (byte (shr 64 d 40)) ;;
    d <- elem data i ;; buf_set (off +! (3 +! (i *! 8))) (byte (shr 64 d 32)) ;;
    d <- elem data i ;; buf_set (off +! (4 +! (i *! 8))) (byte (shr 64 d 24)) ;;
    d <- elem data i ;; buf_set (off +! (5 +! (i *! 8))) (byte (shr 64 d 16)) ;;
    d <- elem data i ;; buf_set (off +! (6 +! (i *! 8))) (byte (shr 64 d 8)) ;;
    d <- elem data i ;; buf_set (off +! (7 +! (i *! 8))) (byte d)) tt.

(** v2/minibuf.go:402-418 *)
Definition readU16LE (off n : Z) : prog unit :=
  goto_loop n (fun i _ =>
    x0 <- buf_get (off +! (i *! 2)) ;;
    x1 <- buf_get (off +! (1 +! (i *! 2))) ;;
    GetOuts (fun out => out' <- set_elem out i (Z.lor (uconv 16 x0) (ushl 16 (uconv 16 x1) 8)) ;; SetOuts out' (Ret tt))) tt.

(** v2/minibuf.go:421-437 *)
Definition readU16BE (off n : Z) : prog unit :=
  goto_loop n (fun i _ =>
    x0 <- buf_get (off +! (1 +! (i *! 2))) ;;
    x1 <- buf_get (off +! (i *! 2)) ;;
    GetOuts (fun out => out' <- set_elem out i (Z.lor (uconv 16 x0) (ushl 16 (uconv 16 x1) 8)) ;; SetOuts out' (Ret tt))) tt.

(** v2/minibuf.go:440-458 *)
Definition readU32LE (off n : Z) : prog unit :=
  goto_loop n (fun i _ =>
    x0 <- buf_get (off +! (i *! 4)) ;;
    x1 <- buf_get (off +! (1 +! (i *! 4))) ;;
    x2 <- buf_get (off +! (2 +! (i *! 4))) ;;
    x3 <- buf_get (off +! (3 +! (i *! 4))) ;;
    GetOuts (fun out => out' <- set_elem out i (Z.lor (Z.lor (Z.lor (uconv 32 x0) (ushl 32 (uconv 32 x1) 8)) (ushl 32 (uconv 32 x2) 16)) (ushl 32 (uconv 32 x3) 24)) ;; SetOuts out' (Ret tt))) tt.

(** v2/minibuf.go:461-479 *)
Definition readU32BE (off n : Z) : prog unit :=
  goto_loop n (fun i _ =>
    x0 <- buf_get (off +! (3 +! (i *! 4))) ;;
    x1 <- buf_get (off +! (2 +! (i *! 4))) ;;
    x2 <- buf_get (off +! (1 +! (i *! 4))) ;;
    x3 <- buf_get (off +! (i *! 4)) ;;
    GetOuts (fun out => out' <- set_elem out i (Z.lor (Z.lor (Z.lor (uconv 32 x0) (ushl 32 (uconv 32 x1) 8)) (ushl 32 (uconv 32 x2) 16)) (ushl 32 (uconv 32 x3) 24)) ;; SetOuts out' (Ret tt))) tt.

(** v2/minibuf.go:482-504 *)
Definition readU64LE (off n : Z) : prog unit :=
  goto_loop n (fun i _ =>
    x0 <- buf_get (off +! (i *! 8)) ;;
    x1 <- buf_get (off +! (1 +! (i *! 8))) ;;
    x2 <- buf_get (off +! (2 +! (i *! 8))) ;;
    x3 <- buf_get (off +! (3 +! (i *! 8))) ;;
    x4 <- buf_get (off +! (4 +! (i *! 8))) ;;
    x5 <- buf_get (off +! (5 +! (i *! 8))) ;;
    x6 <- buf_get (off +! (6 +! (i *! 8))) ;;
    x7 <- buf_get (off +! (7 +! (i *! 8))) ;;
    GetOuts (fun out => out' <- set_elem out i (Z.lor (Z.lor (Z.lor (Z.lor (Z.lor (Z.lor (Z.lor (uconv 64 x0) (ushl 64 (uconv 64 x1) 8)) (ushl 64 (uconv 64 x2) 16)) (ushl 64 (uconv 64 x3) 24)) (ushl 64 (uconv 64 x4) 32)) (ushl 64 (uconv 64 x5) 40)) (ushl 64 (uconv 64 x6) 48)) (ushl 64 (uconv 64 x7) 56)) ;; SetOuts out' (Ret tt))) tt.

(** v2/minibuf.go:507-529 *)
Definition readU64BE (off n : Z) : prog unit :=
  goto_loop n (fun i _ =>
    x0 <- buf_get (off +! (7 +! (i *! 8))) ;;
    x1 <- buf_get (off +! (6 +! (i *! 8))) ;;
    x2 <- buf_get (off +! (5 +! (i *! 8))) ;;
    x3 <- buf_get (off +! (4 +! (i *! 8))) ;;
    x4 <- buf_get (off +! (3 +! (i *! 8))) ;;
    x5 <- buf_get (off +! (2 +! (i *! 8))) ;;
    x6 <- buf_get (off +! (1 +! (i *! 8))) ;;
    x7 <- buf_get (off +! (i *! 8)) ;;
    GetOuts (fun out => out' <- set_elem out i (Z.lor (Z.lor (Z.lor (Z.lor (Z.lor (Z.lor (Z.lor (uconv 64 x0) (ushl 64 (uconv 64 x1) 8)) (ushl 64 (uconv 64 x2) 16)) (ushl 64 (uconv 64 x3) 24)) (ushl 64 (uconv 64 x4) 32)) (ushl 64 (uconv 64 x5) 40)) (ushl 64 (uconv 64 x6) 48)) (ushl 64 (uconv 64 x7) 56)) ;; SetOuts out' (Ret tt))) tt.

(** v2/minibuf.go:710-714 *)
Definition ReadU16LE (off n : Z) : prog unit :=
  readU16LE off n.

(** v2/minibuf.go:717-721 *)
Definition ReadU16BE (off n : Z) : prog unit :=
  readU16BE off n.

(** v2/minibuf.go:724-728 *)
Definition ReadU32LE (off n : Z) : prog unit :=
  readU32LE off n.

(** v2/minibuf.go:731-735 *)
Definition ReadU32BE (off n : Z) : prog unit :=
  readU32BE off n.

(** v2/minibuf.go:738-742 *)
Definition ReadU64LE (off n : Z) : prog unit :=
  readU64LE off n.

(** v2/minibuf.go:745-749 *)
Definition ReadU64BE (off n : Z) : prog unit :=
  readU64BE off n.

(** v2/minibuf.go:760-765 *)
Definition ReadU16LENext (n : Z) : prog unit :=
  off <- get FOff ;;
  readU16LE off n ;;
  seek (n *! 2) true.

(** v2/minibuf.go:768-773 *)
Definition ReadU16BENext (n : Z) : prog unit :=
  off <- get FOff ;;
  readU16BE off n ;;
  seek (n *! 2) true.

(** v2/minibuf.go:776-781 *)
Definition ReadU32LENext (n : Z) : prog unit :=
  off <- get FOff ;;
  readU32LE off n ;;
  seek (n *! 4) true.

(** v2/minibuf.go:784-789 *)
Definition ReadU32BENext (n : Z) : prog unit :=
  off <- get FOff ;;
  readU32BE off n ;;
  seek (n *! 4) true.

(** v2/minibuf.go:792-797 *)
Definition ReadU64LENext (n : Z) : prog unit :=
  off <- get FOff ;;
  readU64LE off n ;;
  seek (n *! 8) true.

(** v2/minibuf.go:800-805 *)
Definition ReadU64BENext (n : Z) : prog unit :=
  off <- get FOff ;;
  readU64BE off n ;;
  seek (n *! 8) true.

(** v2/minibuf.go:815-819 *)
Definition WriteU16LE (off : Z) (data : list Z) : prog unit :=
  writeU16LE off data.

(** v2/minibuf.go:822-826 *)
Definition WriteU16BE (off : Z) (data : list Z) : prog unit :=
  writeU16BE off data.

(** v2/minibuf.go:829-833 *)
Definition WriteU32LE (off : Z) (data : list Z) : prog unit :=
  writeU32LE off data.

(** v2/minibuf.go:836-840 *)
Definition WriteU32BE (off : Z) (data : list Z) : prog unit :=
  writeU32BE off data.

(** v2/minibuf.go:843-847 *)
Definition WriteU64LE (off : Z) (data : list Z) : prog unit :=
  writeU64LE off data.

(** v2/minibuf.go:850-854 *)
Definition WriteU64BE (off : Z) (data : list Z) : prog unit :=
  writeU64BE off data.

(** v2/minibuf.go:865-870 *)
Definition WriteU16LENext (data : list Z) : prog unit :=
  off <- get FOff ;;
  writeU16LE off data ;;
  seek (zlen data *! 2) true.

(** v2/minibuf.go:873-878 *)
Definition WriteU16BENext (data : list Z) : prog unit :=
  off <- get FOff ;;
  writeU16BE off data ;;
  seek (zlen data *! 2) true.

(** v2/minibuf.go:881-886 *)
Definition WriteU32LENext (data : list Z) : prog unit :=
  off <- get FOff ;;
  writeU32LE off data ;;
  seek (zlen data *! 4) true.

(** v2/minibuf.go:889-894 *)
Definition WriteU32BENext (data : list Z) : prog unit :=
  off <- get FOff ;;
  writeU32BE off data ;;
  seek (zlen data *! 4) true.

(** v2/minibuf.go:897-902 *)
Definition WriteU64LENext (data : list Z) : prog unit :=
  off <- get FOff ;;
  writeU64LE off data ;;
  seek (zlen data *! 8) true.

(** v2/minibuf.go:905-910 *)
Definition WriteU64BENext (data : list Z) : prog unit :=
  off <- get FOff ;;
  writeU64BE off data ;;
  seek (zlen data *! 8) true.

