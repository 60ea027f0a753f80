(** * GoMain: what a Go program with a [main] means.

    [GoEval.v] gives a meaning to the functions of a package.  Here is one for a
    file [package main] that imports such a package and [fmt] and whose [main] is
    a sequence of calls: it makes one buffer, calls its methods with constants,
    and prints what they return.  Anything else has no meaning ([OutOfFuel]).

    The result of the program is the list of the lines it prints. *)
From Coq Require Import ZArith List Bool String Ascii DecimalString.
From Verif Require Import GoSem GoLex GoParse GoEval.
Import ListNotations.
Open Scope Z_scope.
Open Scope go_scope.

(** ** Constants *)

Inductive const : Type :=
| CInt (z : Z)
| CDec (m : Z) (e : nat)          (* m / 10^e *)
| CBool (b : bool).

Fixpoint constant (x : gexpr) : option const :=
  match x with
  | EInt z => Some (CInt z)
  | EFloat m e => Some (CDec m e)
  | EVar s => if String.eqb s "true" then Some (CBool true) else if String.eqb s "false" then Some (CBool false) else None
  | EUn op a =>
      if String.eqb op "-" then
        match constant a with
        | Some (CInt z) => Some (CInt (- z))
        | Some (CDec m e) => Some (CDec (- m) e)
        | _ => None
        end
      else None
  | EBin op a b =>
      match constant a, constant b with
      | Some (CInt x), Some (CInt y) =>
          if String.eqb op "*" then Some (CInt (x * y))
          else if String.eqb op "+" then Some (CInt (x + y))
          else if String.eqb op "-" then Some (CInt (x - y)) else None
      | _, _ => None
      end
  | _ => None
  end.

(** [n / d] rounded to the nearest integer, ties to even. *)
Definition nearest (n d : Z) : Z :=
  let q := n / d in
  match 2 * (n mod d) ?= d with
  | Lt => q
  | Gt => q + 1
  | Eq => if Z.even q then q else q + 1
  end.
(** The bits of the float64 nearest to [num / den] (IEEE 754, ties to even), for
    [0 <= num] and [0 < den]; [None] when it is too large.  [k] is the exponent of
    the last bit of the significand: the bits of [q * 2^k] with
    [2^52 <= q <= 2^53], or [k = -1074] and [q < 2^52], are [(k + 1074) * 2^52 + q]. *)
Definition nearest64 (num den : Z) : option Z :=
  if num =? 0 then Some 0
  else
    let l := Z.log2 num - Z.log2 den in                                  (* within 1 above log2 (num/den) *)
    let l := if (if 0 <=? l then num <? den * 2 ^ l else num * 2 ^ (- l) <? den) then l - 1 else l in
    let k := Z.max (-1074) (l - 52) in
    let q := if 0 <=? k then nearest num (den * 2 ^ k) else nearest (num * 2 ^ (- k)) den in
    let b := (k + 1074) * 2 ^ 52 + q in
    if b <? 2047 * 2 ^ 52 then Some b else None.
(** The bits of the float64 that the constant [m * 10^x] is converted to. *)
Definition float64_of (m x : Z) : option Z :=
  option_map (fun b => if m <? 0 then 2 ^ 63 + b else b)
    (if 0 <=? x then nearest64 (Z.abs m * 10 ^ x) 1 else nearest64 (Z.abs m) (10 ^ (- x))).

(** A constant as an element of type [t]. *)
Definition as_elem (t : ity) (c : const) : option Z :=
  match t, c with
  | F64, CInt z => float64_of z 0
  | F64, CDec m e => float64_of m (- Z.of_nat e)
  | F32, _ => None
  | _, CInt z => as_int t (VConst z)
  | _, _ => None
  end.
Fixpoint all_some {A} (l : list (option A)) : option (list A) :=
  match l with
  | [] => Some []
  | Some x :: r => option_map (cons x) (all_some r)
  | None :: _ => None
  end.

(** ** fmt.Println

    [%v] of a string, of a slice of integers and of a slice of float64. *)

Definition decimal (z : Z) : string := NilEmpty.string_of_int (Z.to_int z).

(** The value of the bits [b] of a float64 that is not negative: [q * 2^k]. *)
Definition unpack64 (b : Z) : Z * Z :=
  let ex := b / 2 ^ 52 in
  if ex =? 0 then (b, -1074) else (2 ^ 52 + b mod 2 ^ 52, ex - 1075).
(** [q * 2^k] as a fraction. *)
Definition fraction_of (q k : Z) : Z * Z := if 0 <=? k then (q * 2 ^ k, 1) else (q, 2 ^ (- k)).
(** [floor (num / den / 10^j)] *)
Definition scaled (num den j : Z) : Z := if 0 <=? j then num / (den * 10 ^ j) else (num * 10 ^ (- j)) / den.

(** The decimal numbers [d * 10^j] next to [num / den] that are converted to the
    bits [b], the nearer one first. *)
Definition candidate (b num den j : Z) : option Z :=
  let d := scaled num den j in
  let back d := match float64_of d j with Some b' => b' =? b | None => false end in
  (* is [num/den] below [(d + 1/2) * 10^j]? *)
  let low := if 0 <=? j then 2 * num <? (2 * d + 1) * (den * 10 ^ j) else 2 * num * 10 ^ (- j) <? (2 * d + 1) * den in
  let '(x, y) := if low then (d, d + 1) else (d + 1, d) in
  if back x then Some x else if back y then Some y else None.
(** Shortest: the largest [j] that has one.  [fuel] steps down from [j]. *)
Fixpoint shortest (fuel : nat) (b num den j : Z) : option (Z * Z) :=
  match fuel with
  | O => None
  | S f => match candidate b num den j with
           | Some d => if d =? 0 then shortest f b num den (j - 1) else Some (d, j)
           | None => shortest f b num den (j - 1)
           end
  end.

Fixpoint zeros (n : nat) : string := match n with O => EmptyString | S n => String "0" (zeros n) end.
(** The digits [ds] with the decimal point after the first [p] of them, or [p] zeros
    more, as [%f] prints them. *)
Definition with_point (ds : string) (p : Z) : string :=
  let n := Z.of_nat (String.length ds) in
  if p <=? 0 then ("0." ++ zeros (Z.to_nat (- p)) ++ ds)%string
  else if n <=? p then (ds ++ zeros (Z.to_nat (p - n)))%string
  else (substring 0 (Z.to_nat p) ds ++ "." ++ substring (Z.to_nat p) (Z.to_nat (n - p)) ds)%string.

(** [%v] of a float64: the shortest decimal that is converted to it.  Only numbers
    from 1e-4 to 1e6 (not included), which are printed without an exponent, have a meaning here. *)
Definition print_float (b : Z) : option string :=
  let '(sign, b) := if 2 ^ 63 <=? b then ("-"%string, b - 2 ^ 63) else (EmptyString, b) in
  if b =? 0 then Some (sign ++ "0")%string
  else
    let '(q, k) := unpack64 b in
    let '(num, den) := fraction_of q k in
    match shortest 40 b num den 6 with
    | Some (d, j) =>
        let ds := decimal d in
        let p := Z.of_nat (String.length ds) + j in
        if (-4 <? p) && (p <=? 6) then Some (sign ++ with_point ds p)%string else None
    | None => None
    end.

Fixpoint spaced (l : list string) : string :=
  match l with
  | [] => EmptyString
  | [x] => x
  | x :: r => (x ++ " " ++ spaced r)%string
  end.
Definition brackets (l : list string) : string := ("[" ++ spaced l ++ "]")%string.
Definition string_of_bytes (l : list Z) : string :=
  string_of_list_ascii (map (fun z => ascii_of_nat (Z.to_nat z)) l).
Definition bytes_of_string (t : string) : list Z :=
  map (fun c => Z.of_nat (nat_of_ascii c)) (list_ascii_of_string t).

(** The bytes of a slice, as reading them finds them. *)
Definition bytes_in (s : slice) : prog (list Z) :=
  for_loop (s_len s) (fun i acc => x <- slice_get s i ;; Ret (acc ++ [x])%list) [].

Definition opt {A} (o : option A) : prog A := match o with Some a => Ret a | None => OutOfFuel end.

Definition print_val (v : val) : prog string :=
  match v with
  | VBytes s => l <- bytes_in s ;; Ret (brackets (map decimal l))
  | VInts F64 l => ss <- opt (all_some (map print_float l)) ;; Ret (brackets ss)
  | VInts F32 _ => OutOfFuel
  | VInts _ l => Ret (brackets (map decimal l))
  | _ => OutOfFuel
  end.

(** ** main *)

(** What a path means: a package with functions, or [fmt]. *)
Definition imported (specs : list (string * string)) (x : string) : option string :=
  option_map snd (find (fun s => String.eqb (fst s) x || String.eqb (fst s) "" && String.eqb (snd s) x) specs).

Section Main.
Variable package : string -> option (list gdecl).       (* the text of the packages that can be imported *)
Variable pol : Z -> Z -> Z.
Variable n : nat.                                       (* see [den] *)
Variable specs : list (string * string).                (* the imports *)

(** An argument. *)
Definition arg (x : gexpr) : prog val :=
  match constant x with
  | Some (CInt z) => Ret (VConst z)
  | Some (CBool b) => Ret (VBool b)
  | Some (CDec _ _) => OutOfFuel
  | None =>
      match x with
      | EComp (GSlice (GNamed s)) elts =>                                (* []T{...} *)
          t <- opt (ity_of s) ;;
          l <- opt (all_some (map (fun kx => match constant (snd kx) with Some c => as_elem t c | None => None end) elts)) ;;
          match t with
          | U8 => b <- lit_bytes l ;; Ret (VBytes b)
          | _ => Ret (VInts t l)
          end
      | ECall (ETy (GSlice (GNamed s))) [EStr t] false =>                (* []byte("...") *)
          if String.eqb s "byte" then b <- lit_bytes (bytes_of_string t) ;; Ret (VBytes b) else OutOfFuel
      | _ => OutOfFuel
      end
  end.
Fixpoint args (l : list gexpr) : prog (list val) :=
  match l with
  | [] => Ret []
  | x :: r => v <- arg x ;; vs <- args r ;; Ret (v :: vs)
  end.

(** The variables: a name and the path of the package of its type.  There is one
    object in the model, so there is at most one variable. *)
Definition vars : Type := list (string * string).

Definition is_method (f : gfunc) : bool := match f_recv f with Some _ => true | None => false end.
(** The call [f(xs)] in the package at [path], with a receiver or not.  A missing
    variadic argument is the empty list. *)
Definition call_in (path : string) (method : bool) (f : string) (xs : list gexpr) : prog val :=
  ds <- opt (package path) ;;
  g <- opt (find_func f ds) ;;
  if Bool.eqb (is_method g) method then
    vs <- args xs ;;
    flat (call_func ds (den ds pol n) f
      (match f_params g, vs with [(_, GVariadic _)], [] => [VSlices []] | _, _ => vs end))
  else OutOfFuel.

(** [x.m(xs)] for a variable [x]. *)
Definition call_on (e : vars) (x m : string) (xs : list gexpr) : prog val :=
  path <- opt (lookup x e) ;; call_in path true m xs.

(** What is printed. *)
Definition printed (e : vars) (x : gexpr) : prog string :=
  match x with
  | ECall (EVar f) [ECall (ESel (EVar y) m) xs false] false =>           (* string(y.m(xs)) *)
      if String.eqb f "string" then
        v <- call_on e y m xs ;;
        match v with VBytes s => l <- bytes_in s ;; Ret (string_of_bytes l) | _ => OutOfFuel end
      else OutOfFuel
  | ECall (ESel (EVar y) m) xs false => v <- call_on e y m xs ;; print_val v
  | _ => OutOfFuel
  end.

Fixpoint exec_main (e : vars) (b : list gstmt) : prog (list string) :=
  match b with
  | [] => Ret []
  | SDefine x (ECall (ESel (EVar p) f) xs false) :: r =>                 (* x := p.f(xs) *)
      match e with
      | [] =>
          path <- opt (imported specs p) ;;
          v <- call_in path false f xs ;;
          match v with VSelf => exec_main [(x, path)] r | _ => OutOfFuel end
      | _ => OutOfFuel
      end
  | SExpr (ECall (ESel (EVar p) m) xs false) :: r =>
      match imported specs p with
      | Some path =>                                                     (* fmt.Println(x) *)
          if String.eqb path "fmt" && String.eqb m "Println" then
            match xs with
            | [x] => line <- printed e x ;; rest <- exec_main e r ;; Ret (line :: rest)
            | _ => OutOfFuel
            end
          else OutOfFuel
      | None => call_on e p m xs ;; exec_main e r                        (* x.m(xs) *)
      end
  | _ => OutOfFuel
  end.
End Main.

(** A source file: the lines it prints. *)
Definition run_main (package : string -> option (list gdecl)) (pol : Z -> Z -> Z) (n : nat) (src : list string)
  : prog (list string) :=
  match parse src with
  | Some [DPackage m; DImport specs; DFunc f] =>
      if String.eqb m "main" && String.eqb (f_name f) "main" then
        match f_recv f, f_params f, f_results f with
        | None, [], [] => exec_main package pol n specs [] (f_body f)
        | _, _, _ => OutOfFuel
        end
      else OutOfFuel
  | _ => OutOfFuel
  end.
