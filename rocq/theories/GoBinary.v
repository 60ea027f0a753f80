(** * GoBinary: the two byte orders of encoding/binary.

    Go's standard library, not a file of the repository: [PutUintN] and [UintN] of
    [binary.LittleEndian] and [binary.BigEndian], as encoding/binary/binary.go writes
    them.  Simplification: the load of the last byte with which each begins, a
    bounds check, is left out; every slice that v1 passes has N/8 bytes. *)
From Coq Require Import ZArith List Bool.
From Verif Require Import GoSem Spec.
Import ListNotations.
Open Scope Z_scope.
Open Scope go_scope.

(** The bytes of [v] in the order they are stored. *)
Definition put16 (e : endian) (v : Z) : list Z :=
  match e with
  | LE => [byte v; byte (shr 16 v 8)]
  | BE => [byte (shr 16 v 8); byte v]
  end.
Definition put32 (e : endian) (v : Z) : list Z :=
  match e with
  | LE => [byte v; byte (shr 32 v 8); byte (shr 32 v 16); byte (shr 32 v 24)]
  | BE => [byte (shr 32 v 24); byte (shr 32 v 16); byte (shr 32 v 8); byte v]
  end.
Definition put64 (e : endian) (v : Z) : list Z :=
  match e with
  | LE => [byte v; byte (shr 64 v 8); byte (shr 64 v 16); byte (shr 64 v 24);
           byte (shr 64 v 32); byte (shr 64 v 40); byte (shr 64 v 48); byte (shr 64 v 56)]
  | BE => [byte (shr 64 v 56); byte (shr 64 v 48); byte (shr 64 v 40); byte (shr 64 v 32);
           byte (shr 64 v 24); byte (shr 64 v 16); byte (shr 64 v 8); byte v]
  end.

(** [b[k] = x0; b[k+1] = x1; ...] *)
Fixpoint store_all (b : slice) (k : Z) (l : list Z) : prog unit :=
  match l with
  | [] => Ret tt
  | x :: r => slice_set b k x ;; store_all b (k + 1) r
  end.
(** encoding/binary: [endian.PutUintN(b, v)]. *)
Definition PutUint16 (e : endian) (b : slice) (v : Z) : prog unit := store_all b 0 (put16 e v).
Definition PutUint32 (e : endian) (b : slice) (v : Z) : prog unit := store_all b 0 (put32 e v).
Definition PutUint64 (e : endian) (b : slice) (v : Z) : prog unit := store_all b 0 (put64 e v).

(** encoding/binary: [endian.UintN(b)]. *)
Definition uint16 (e : endian) (s : slice) : prog Z :=
  x0 <- slice_get s 0 ;; x1 <- slice_get s 1 ;;
  Ret (match e with
       | LE => Z.lor (uconv 16 x0) (ushl 16 (uconv 16 x1) 8)
       | BE => Z.lor (uconv 16 x1) (ushl 16 (uconv 16 x0) 8)
       end).
Definition uint32 (e : endian) (s : slice) : prog Z :=
  x0 <- slice_get s 0 ;; x1 <- slice_get s 1 ;; x2 <- slice_get s 2 ;; x3 <- slice_get s 3 ;;
  Ret (match e with
       | LE => Z.lor (Z.lor (Z.lor (uconv 32 x0) (ushl 32 (uconv 32 x1) 8))
                 (ushl 32 (uconv 32 x2) 16)) (ushl 32 (uconv 32 x3) 24)
       | BE => Z.lor (Z.lor (Z.lor (uconv 32 x3) (ushl 32 (uconv 32 x2) 8))
                 (ushl 32 (uconv 32 x1) 16)) (ushl 32 (uconv 32 x0) 24)
       end).
Definition uint64 (e : endian) (s : slice) : prog Z :=
  x0 <- slice_get s 0 ;; x1 <- slice_get s 1 ;; x2 <- slice_get s 2 ;; x3 <- slice_get s 3 ;;
  x4 <- slice_get s 4 ;; x5 <- slice_get s 5 ;; x6 <- slice_get s 6 ;; x7 <- slice_get s 7 ;;
  Ret (match e with
       | LE => Z.lor (Z.lor (Z.lor (Z.lor (Z.lor (Z.lor (Z.lor (uconv 64 x0)
                 (ushl 64 (uconv 64 x1) 8)) (ushl 64 (uconv 64 x2) 16)) (ushl 64 (uconv 64 x3) 24))
                 (ushl 64 (uconv 64 x4) 32)) (ushl 64 (uconv 64 x5) 40)) (ushl 64 (uconv 64 x6) 48))
                 (ushl 64 (uconv 64 x7) 56)
       | BE => Z.lor (Z.lor (Z.lor (Z.lor (Z.lor (Z.lor (Z.lor (uconv 64 x7)
                 (ushl 64 (uconv 64 x6) 8)) (ushl 64 (uconv 64 x5) 16)) (ushl 64 (uconv 64 x4) 24))
                 (ushl 64 (uconv 64 x3) 32)) (ushl 64 (uconv 64 x2) 40)) (ushl 64 (uconv 64 x1) 48))
                 (ushl 64 (uconv 64 x0) 56)
       end).
