(** * TypedCanon: one canonical form for the generated typed methods. *)
From Coq Require Import ZArith List Bool Lia ZifyBool.
From Verif Require Import GoSem Errors Spec GoLemmas CodecLemmas Typed V3BitLemmas V3ByteLemmas.
From Verif Require V3Buffer V3Mini V3BufferTyped V3MiniTyped.
Import ListNotations.
Open Scope Z_scope.

Notation index_err := (RuntimeError IndexOutOfRange).
Notation make_err := (RuntimeError MakeLenOutOfRange).

(** ** Canonical form of the generated loops

    These definitions only serve the proofs: the transcribed functions are equal
    to them by computation. *)

Definition cidx (w k i : Z) : Z := if k =? 0 then i *! w else k +! (i *! w).
Definition sbyte (bits d sh : Z) : Z := if sh =? 0 then byte d else byte (shr bits d sh).

Fixpoint stores (bits w off i : Z) (data : list Z) (l : list (Z * Z)) : prog unit :=
  match l with
  | [] => Ret tt
  | (k, sh) :: r =>
      match r with
      | [] => d <- elem data i ;; buf_set (off +! cidx w k i) (sbyte bits d sh)
      | _ => d <- elem data i ;; buf_set (off +! cidx w k i) (sbyte bits d sh) ;;
             stores bits w off i data r
      end
  end.

Definition iota (n : nat) : list Z := map Z.of_nat (seq 0 n).
Definition bits_of (t : numty) : Z := 8 * tsize t.

(** (position, shift) of the bytes, in the order of the stores. *)
Definition wlayout (t : numty) : list (Z * Z) :=
  map (fun j => (j, match ty_endian t with LE => 8 * j | BE => 8 * (tsize t - 1 - j) end))
      (iota (ty_bytes t)).

Lemma MiniWriteT_canon t off data :
  MiniWriteT t off data =
  goto_loop (zlen data) (fun i _ => stores (bits_of t) (tsize t) off i data (wlayout t)) tt.
Proof. destruct t; reflexivity. Qed.

Lemma WriteT_canon t off data :
  WriteT t off data =
  (cap <- get FCap ;;
   panic_if (off +! zlen data *! tsize t >? cap) BufferOverwriteError ;;
   panic_if (off <? 0) BufferUnderwriteError ;;
   MiniWriteT t off data).
Proof. destruct t; reflexivity. Qed.

Lemma WriteTNext_canon t data :
  WriteTNext t data =
  (off <- get FOff ;; WriteT t off data ;; V3Buffer.SeekByte (zlen data *! tsize t) true).
Proof. destruct t; reflexivity. Qed.
Lemma MiniWriteTNext_canon t data :
  MiniWriteTNext t data =
  (off <- get FOff ;; MiniWriteT t off data ;; V3Mini.SeekByte (zlen data *! tsize t) true).
Proof. destruct t; reflexivity. Qed.

(** Reads: positions in the order of the loads (least significant byte first). *)
Fixpoint loads {A} (w off i : Z) (ks acc : list Z) (K : list Z -> prog A) : prog A :=
  match ks with
  | [] => K (rev acc)
  | k :: r => x <- buf_get (off +! cidx w k i) ;; loads w off i r (x :: acc) K
  end.

Fixpoint comb (sg : bool) (bits acc j : Z) (xs : list Z) : Z :=
  match xs with
  | [] => acc
  | x :: r =>
      comb sg bits (Z.lor acc (if sg then sshl bits (sconv bits x) (8 * j) else ushl bits (uconv bits x) (8 * j)))
           (j + 1) r
  end.
Definition comb0 (sg : bool) (bits : Z) (xs : list Z) : Z :=
  match xs with
  | [] => 0
  | x :: r => comb sg bits (if sg then sconv bits x else uconv bits x) 1 r
  end.

Definition is_signed (t : numty) : bool := match ty_sign t with Signed => true | _ => false end.
Definition rlayout (t : numty) : list Z :=
  map (fun j => match ty_endian t with LE => j | BE => tsize t - 1 - j end) (iota (ty_bytes t)).

Definition rbody (t : numty) (off i : Z) (out : list Z) : prog (list Z) :=
  loads (tsize t) off i (rlayout t) [] (fun xs => set_elem out i (comb0 (is_signed t) (bits_of t) xs)).
Definition mrbody (t : numty) (off i : Z) : prog unit :=
  loads (tsize t) off i (rlayout t) [] (fun xs =>
    GetOuts (fun out => out' <- set_elem out i (comb0 (is_signed t) (bits_of t) xs) ;; SetOuts out' (Ret tt))).

Lemma ReadT_canon t off n :
  ReadT t off n =
  (cap <- get FCap ;;
   panic_if (off +! n *! tsize t >? cap) BufferOverreadError ;;
   panic_if (off <? 0) BufferUnderreadError ;;
   out <- make_elems (tsize t) n ;;
   goto_loop n (rbody t off) out).
Proof. destruct t; reflexivity. Qed.
Lemma MiniReadT_canon t off n :
  MiniReadT t off n = goto_loop n (fun i _ => mrbody t off i) tt.
Proof. destruct t; reflexivity. Qed.
Lemma ReadTNext_canon t n :
  ReadTNext t n =
  (off <- get FOff ;; out <- ReadT t off n ;; V3Buffer.SeekByte (n *! tsize t) true ;; Ret out).
Proof. destruct t; reflexivity. Qed.
Lemma MiniReadTNext_canon t n :
  MiniReadTNext t n =
  (off <- get FOff ;; MiniReadT t off n ;; V3Mini.SeekByte (n *! tsize t) true).
Proof. destruct t; reflexivity. Qed.
