(** * Examples: the programs in examples/, with what they print. *)
From Coq Require Import ZArith List Ascii String.
From Verif Require Import GoSem Spec.
From Verif Require V3Buffer V3BufferTyped.
Import ListNotations.
Open Scope Z_scope.
Open Scope go_scope.

(** [fmt.Println] of a byte slice looks at its bytes; the text it makes of them
    (decimal or as a string) is not modelled. *)
Definition print_bytes (s : slice) : prog (list Z) :=
  for_loop (s_len s) (fun i acc => x <- slice_get s i ;; Ret (acc ++ [x])) [].

(** [[]byte("...")] *)
Definition bytes_of_string (t : string) : list Z :=
  map (fun c => Z.of_nat (nat_of_ascii c)) (list_ascii_of_string t).

Definition hello_world : list Z := bytes_of_string "hello, world".

(** examples/helloworld/main.go:9-23 *)
Definition helloworld (pol : Z -> Z -> Z) : prog (list Z) :=
  V3Buffer.NewBuffer pol [] ;;
  V3Buffer.Grow 12 ;;
  d <- lit_bytes hello_world ;;
  V3Buffer.WriteBytesNext d ;;
  b <- V3Buffer.Bytes ;;
  print_bytes b.

(** examples/signed-integers/main.go:9-35: the two things printed. *)
Definition signed_integers (pol : Z -> Z -> Z) : prog (list Z * list Z) :=
  V3Buffer.NewBuffer pol [] ;;
  V3Buffer.Grow (4 * 2) ;;
  V3BufferTyped.WriteI32LENext [-42; 69] ;;
  b <- V3Buffer.Bytes ;;
  l <- print_bytes b ;;
  V3Buffer.SeekByte 0 false ;;
  v <- V3BufferTyped.ReadI32LENext 2 ;;
  Ret (l, v).

(** The bit patterns of 69.0, -21.0, -42.42, 3.621 as float64
    (Props_Float.v shows that they are). *)
Definition the_floats : list Z :=
  [4634555860285128704; 13849976229047828480; 13854538938420308214; 4615336185925371691].

(** examples/floating-point/main.go:9-36 *)
Definition floating_point (pol : Z -> Z -> Z) : prog (list Z * list Z) :=
  V3Buffer.NewBuffer pol [] ;;
  V3Buffer.Grow (8 * 4) ;;
  V3BufferTyped.WriteF64BENext the_floats ;;
  b <- V3Buffer.Bytes ;;
  l <- print_bytes b ;;
  V3Buffer.SeekByte 0 false ;;
  v <- V3BufferTyped.ReadF64BENext 4 ;;
  Ret (l, v).
