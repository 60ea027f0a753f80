(** * GoEval: what the Go code means.

    An interpreter for the syntax trees of GoParse.v: it turns a call of a
    function of a Go file into the tree of accesses ([prog], GoSem.v) that the
    call makes.  Nothing in it is about crunch but the five fields of the
    receiver's struct.  Front*.v prove that the hand-written models (V3Buffer.v,
    ...) are what this interpreter makes of the text of the repository.

    Conventions:
    - integers carry their Go type; constants are untyped until they meet a type;
      an ill-typed or unsupported construct is [Undef], that is [OutOfFuel], which no theorem
      accepts as a behaviour;
    - operands are evaluated from left to right, the right-hand side of an
      assignment before its left-hand side; [x op= e] is [x = x op e];
    - floats are their bit patterns, so [*( *T)(unsafe.Pointer(&x))] with [T] as
      wide as [x] keeps the bits;
    - every object of the type with the methods is the one receiver of the model:
      the parameter [b], the result of [&Buffer{...}] and the variable [*out] it
      is stored in;
    - a parameter [out *T] is, for [T] an integer of one byte, [int64], [[]byte],
      [interface{}] or a pointer, a result that is assigned to the caller's variable on return;
      for [T] = [uint64] or a slice of integers or floats it is the variable
      [outs] of the state;
    - [panic] has an error value of the package; [Lock] and [Unlock] are those of
      the embedded mutex;
    - [fuel] bounds calls and loops. *)
From Coq Require Import ZArith List Bool String.
From Verif Require Import GoSem GoLex GoParse.
From Verif Require Spec GoBinary.
Import ListNotations.
Open Scope Z_scope.
Declare Scope act_scope.
Open Scope act_scope.

(** ** Types and values *)

Inductive ity : Set := U8 | U16 | U32 | U64 | UInt | I16 | I32 | I64 | IInt | F32 | F64.

Definition ity_eqb (a b : ity) : bool :=
  match a, b with
  | U8, U8 | U16, U16 | U32, U32 | U64, U64 | UInt, UInt | I16, I16 | I32, I32 | I64, I64
  | IInt, IInt | F32, F32 | F64, F64 => true
  | _, _ => false
  end.
Definition width (t : ity) : Z :=
  match t with
  | U8 => 8 | U16 | I16 => 16 | U32 | I32 | F32 => 32 | U64 | UInt | I64 | IInt | F64 => 64
  end.
Definition bytes_of (t : ity) : Z :=
  match t with
  | U8 => 1 | U16 | I16 => 2 | U32 | I32 | F32 => 4 | U64 | UInt | I64 | IInt | F64 => 8
  end.
Definition same_width (t t' : ity) : bool := match bytes_of t ?= bytes_of t' with Eq => true | _ => false end.
(** [Some true]: signed integer, [Some false]: unsigned integer, [None]: float. *)
Definition signed (t : ity) : option bool :=
  match t with
  | U8 | U16 | U32 | U64 | UInt => Some false
  | I16 | I32 | I64 | IInt => Some true
  | F32 | F64 => None
  end.

Definition ity_of (s : string) : option ity :=
  if String.eqb s "byte" then Some U8 else if String.eqb s "uint8" then Some U8
  else if String.eqb s "uint16" then Some U16 else if String.eqb s "uint32" then Some U32
  else if String.eqb s "uint64" then Some U64 else if String.eqb s "uint" then Some UInt
  else if String.eqb s "int16" then Some I16 else if String.eqb s "int32" then Some I32
  else if String.eqb s "int64" then Some I64 else if String.eqb s "int" then Some IInt
  else if String.eqb s "float32" then Some F32 else if String.eqb s "float64" then Some F64
  else if String.eqb s "IntegerSize" then Some IInt
  else None.

Inductive val : Type :=
| VConst (z : Z)                    (* an untyped integer constant *)
| VInt (t : ity) (z : Z)            (* an integer, or a float by its bits *)
| VBool (b : bool)
| VBytes (s : slice)                (* []byte *)
| VInts (t : ity) (l : list Z)      (* []T for another T *)
| VSlices (l : list slice)          (* [][]byte *)
| VErr (e : err)
| VSelf                             (* a pointer to the receiver *)
| VCell                             (* a pointer parameter that is a result *)
| VOutWord (t : ity)                (* a pointer to the variable [outs], an integer *)
| VOutSlice (t : ity)               (* a pointer to the variable [outs], a slice *)
| VAny (v : val)                    (* an interface{} that holds [v]; nil if [v] is [VUnit] *)
| VEndian (e : Spec.endian)         (* a binary.ByteOrder *)
| VUnit.

(** ** Computations

    A [prog] whose steps are kept in view: [Do p k] runs [p] and goes on with [k],
    [Cond] is a conditional.  [flat] forgets the difference. *)
Inductive act (A : Type) : Type :=
| Ok (a : A)
| Undef                                          (* outside the subset of Go *)
| Fail (e : err)
| Do (X : Type) (p : prog X) (k : X -> act A)
| Cond (b : bool) (p q : act A).
Arguments Ok {A} a. Arguments Undef {A}. Arguments Fail {A} e. Arguments Do {A X} p k. Arguments Cond {A} b p q.

Fixpoint andthen {A B} (p : act A) (f : A -> act B) : act B :=
  match p with
  | Ok a => f a
  | Undef => Undef
  | Fail e => Fail e
  | Do p k => Do p (fun x => andthen (k x) f)
  | Cond b p q => Cond b (andthen p f) (andthen q f)
  end.
Fixpoint flat {A} (p : act A) : prog A :=
  match p with
  | Ok a => Ret a
  | Undef => OutOfFuel
  | Fail e => Panic e
  | Do p k => bind p (fun x => flat (k x))
  | Cond b p q => if b then flat p else flat q
  end.
Notation "x <- p ;; q" := (andthen p (fun x => q))
  (at level 100, p at next level, right associativity) : act_scope.
Notation "p ;; q" := (andthen p (fun _ => q))
  (at level 100, right associativity) : act_scope.
Delimit Scope act_scope with act.

Definition do_ {A} (p : prog A) : act A := Do p (fun x => Ok x).
Definition ret_opt {A} (o : option A) : act A := match o with Some a => Ok a | None => Undef end.

(** Constants must be representable in the type they take: [z] has at most the
    number of bits of the type, one less for signed types (Front.v, [fits_spec]). *)
Definition bits_of (t : ity) : nat :=
  match t with U8 => 8 | U16 | I16 => 16 | U32 | I32 | F32 => 32 | U64 | UInt | I64 | IInt | F64 => 64 end.
Definition fits (t : ity) (z : Z) : bool :=
  match signed t with
  | None => false
  | Some sg =>
      match z with
      | Z0 => true
      | Zpos p => Nat.leb (Pos.size_nat p) (if sg then pred (bits_of t) else bits_of t)
      | Zneg p => if sg then Nat.leb (Pos.size_nat (Pos.pred p)) (pred (bits_of t)) else false
      end
  end.

(** The value of [v] as an integer of type [t]. *)
Definition as_int (t : ity) (v : val) : option Z :=
  match v with
  | VConst z => if fits t z then Some z else None
  | VInt t' z => if ity_eqb t t' then Some z else None
  | _ => None
  end.
(** An index or a length: any integer type. *)
Definition as_index (v : val) : option Z :=
  match v with
  | VConst z => Some z
  | VInt t z => match signed t with Some _ => Some z | None => None end
  | _ => None
  end.
Definition type_of (v : val) : option ity := match v with VInt t _ => Some t | _ => None end.

(** ** Operators *)

Fixpoint member (f : string -> bool) (l : list string) : bool :=
  match l with [] => false | x :: r => if f x then true else member f r end.

Definition arith (t : ity) (op : string) (x y : Z) : option Z :=
  match signed t with
  | None => None
  | Some sg =>
      let wrap z := if sg then sconv (width t) z else uconv (width t) z in
      if String.eqb op "+" then Some (match t with I64 | IInt => x +! y | _ => wrap (x + y) end)
      else if String.eqb op "-" then Some (match t with I64 | IInt => x -! y | _ => wrap (x - y) end)
      else if String.eqb op "*" then Some (match t with I64 | IInt => x *! y | _ => wrap (x * y) end)
      else if String.eqb op "/" then match y with Zpos _ => Some (quo x y) | _ => None end
      else if String.eqb op "%" then match y with Zpos _ => Some (rem x y) | _ => None end
      else if String.eqb op "&" then Some (Z.land x y)
      else if String.eqb op "|" then Some (Z.lor x y)
      else if String.eqb op "^" then Some (Z.lxor x y)
      else None
  end.
Definition compare (op : string) (x y : Z) : option bool :=
  if String.eqb op "<" then Some (x <? y)
  else if String.eqb op "<=" then Some (x <=? y)
  else if String.eqb op ">" then Some (x >? y)
  else if String.eqb op ">=" then Some (x >=? y)
  else if String.eqb op "==" then Some (x =? y)
  else if String.eqb op "!=" then Some (negb (x =? y))
  else None.
Definition is_compare (op : string) : bool := member (String.eqb op) ["<"; "<="; ">"; ">="; "=="; "!="]%string.
Definition is_shift (op : string) : bool := member (String.eqb op) ["<<"; ">>"]%string.

(** [a op b]: a constant takes the type of the other operand. *)
Definition binop (op : string) (a b : val) : option val :=
  match a, b with
  | VInt t x, _ =>
      match as_int t b with
      | Some y =>
          if is_compare op then option_map VBool (compare op x y)
          else option_map (VInt t) (arith t op x y)
      | None => None
      end
  | VConst x, VInt t y =>
      if fits t x then
        if is_compare op then option_map VBool (compare op x y)
        else option_map (VInt t) (arith t op x y)
      else None
  | _, _ => None
  end.
(** [a << b] and [a >> b]: the count is an unsigned integer or a constant; a
    constant [a] takes the type [want] that the context asks for. *)
Definition shift (op : string) (want : option ity) (a b : val) : option val :=
  match (match b with
         | VConst c => Some c
         | VInt t c => match signed t with Some false => Some c | _ => None end
         | _ => None
         end),
        (match a, want with
         | VInt t x, _ => Some (t, x)
         | VConst x, Some t => if fits t x then Some (t, x) else None
         | _, _ => None
         end) with
  | Some c, Some (t, x) =>
      match signed t with
      | Some sg =>
          Some (VInt t (if String.eqb op ">>" then shr (width t) x c
                        else if sg then sshl (width t) x c else ushl (width t) x c))
      | None => None
      end
  | _, _ => None
  end.
(** [T(v)] *)
Definition convert (t : ity) (v : val) : option val :=
  match v with
  | VConst z => if fits t z then Some (VInt t z) else None
  | VInt t' z =>
      match signed t, signed t' with
      | Some sg, Some sg' =>
          if (if Bool.eqb sg sg' then same_width t t' else false) then Some (VInt t z)
          else Some (VInt t (if sg then sconv (width t) z else uconv (width t) z))
      | _, _ => None
      end
  | _ => None
  end.
(** [*( *T)(unsafe.Pointer(&v))] *)
Definition reinterpret (t : ity) (v : val) : option val :=
  match v with
  | VInt t' z =>
      match signed t, signed t' with
      | Some false, Some false | Some false, None | None, Some false | None, None =>
          if same_width t t' then Some (VInt t z) else None
      | _, _ => None
      end
  | _ => None
  end.

(** ** Typed assignment *)

(** What a variable of type [ty] holds when [v] is assigned to it. *)
Definition coerce (ty : gotype) (v : val) : option val :=
  match ty, v with
  | GNamed s, VBool b => if String.eqb s "bool" then Some v else None
  | GNamed s, _ =>
      match ity_of s with
      | Some t => option_map (VInt t) (as_int t v)
      | None => None
      end
  | GSlice (GNamed s), _ | GVariadic (GNamed s), _ =>
      match ity_of s, v with
      | Some U8, VBytes _ => Some v
      | Some t, VInts t' _ => if ity_eqb t t' then Some v else None
      | _, _ => None
      end
  | GVariadic (GSlice (GNamed s)), VSlices _ => Some v
  | GPtr _, VSelf | GPtr _, VCell | GPtr _, VOutWord _ | GPtr _, VOutSlice _ => Some v
  | GIface, VAny _ => Some v
  | GIface, VBytes _ | GIface, VInts _ _ => Some (VAny v)
  | GQual p s, VEndian _ => if String.eqb p "binary" then if String.eqb s "ByteOrder" then Some v else None else None
  | _, _ => None
  end.
(** The zero value of a type. *)
Definition zero_of (ty : gotype) : option val :=
  match ty with
  | GNamed s => option_map (fun t => VInt t 0) (ity_of s)
  | GSlice (GNamed s) =>
      match ity_of s with
      | Some U8 => Some (VBytes (mkSlice 0 0 0 0))
      | Some t => Some (VInts t [])
      | None => None
      end
  | GPtr _ => Some VUnit
  | GIface => Some (VAny VUnit)
  | _ => None
  end.
(** [v.(T)] for [v] an interface{} that holds [w]: [Some None] when [w] has another type. *)
Definition assertion (ty : gotype) (w : val) : option (option val) :=
  match ty with
  | GSlice (GNamed s) =>
      match ity_of s with
      | Some t =>
          Some (match w with
                | VBytes _ => if ity_eqb t U8 then Some w else None
                | VInts t' _ => if ity_eqb t t' then Some w else None
                | _ => None
                end)
      | None => None
      end
  | _ => None
  end.
(** What a variable that holds [old] holds when [v] is assigned to it. *)
Definition like (old v : val) : option val :=
  match old, v with
  | VInt t _, _ => option_map (VInt t) (as_int t v)
  | VBool _, VBool _ | VBytes _, VBytes _ | VUnit, VSelf => Some v
  | VInts t _, VInts t' _ => if ity_eqb t t' then Some v else None
  | VAny _, VAny _ => Some v
  | _, _ => None
  end.
(** [:=] gives an untyped constant the type [int]. *)
Definition default (v : val) : option val :=
  match v with
  | VConst z => if fits IInt z then Some (VInt IInt z) else None
  | _ => Some v
  end.

(** ** Variables *)

Definition env : Type := list (string * val).
Fixpoint lookup {A} (x : string) (e : list (string * A)) : option A :=
  match e with
  | [] => None
  | (y, v) :: r => if String.eqb x y then Some v else lookup x r
  end.
Fixpoint update (x : string) (v : val) (e : env) : env :=
  match e with
  | [] => []
  | (y, w) :: r => if String.eqb x y then (y, v) :: r else (y, w) :: update x v r
  end.
(** The variables that were there when [e] had [k] of them. *)
Definition trunc (k : nat) (e : env) : env := skipn (List.length e - k) e.

(** The variable a result pointer [p] points to. *)
Definition cell (p : string) : string := String.append "*" p.

(** ** Programs *)

Definition find_func (name : string) (ds : list gdecl) : option gfunc :=
  let fix go l :=
    match l with
    | [] => None
    | DFunc f :: r => if String.eqb (f_name f) name then Some f else go r
    | _ :: r => go r
    end in
  go ds.
(** The package-level errors and constants. *)
Definition find_global (name : string) (ds : list gdecl) : option val :=
  let fix go l :=
    match l with
    | [] => None
    | DVar x _ (Some e) :: r =>
        if String.eqb x name then
          match e with
          | EComp _ [(_, EStr scope); (_, EStr msg)] => Some (VErr (CrunchError scope msg))
          | EInt z => Some (VConst z)
          | ESel (EVar p) s =>
              if String.eqb p "binary" then
                if String.eqb s "LittleEndian" then Some (VEndian Spec.LE)
                else if String.eqb s "BigEndian" then Some (VEndian Spec.BE) else None
              else None
          | _ => None
          end
        else go r
    | _ :: r => go r
    end in
  go ds.

(** How a pointer parameter is passed. *)
Definition pointer_mode (ty : gotype) : option val :=
  match ty with
  | GPtr (GNamed s) =>
      match ity_of s with
      | Some U8 | Some I64 => Some VCell
      | Some t => Some (VOutWord t)
      | None => None
      end
  | GPtr (GSlice (GNamed s)) =>
      match ity_of s with
      | Some U8 => Some VCell
      | Some t => Some (VOutSlice t)
      | None => None
      end
  | GPtr (GPtr _) | GPtr GIface => Some VCell
  | _ => None
  end.

(** How a statement ends. *)
Inductive signal : Type := Next | Break | Goto (l : string) | Return (v : val).
Definition code : Type := env -> act (env * signal).

(** What the interpreter of one function asks of the world outside its text:
    a call, or one more round of a loop. *)
Inductive query : Type :=
| QCall (f : string) (args : list val)
| QLabel (f l : string) (d : nat) (rest : list gstmt) (e : env)     (* go on at the label [l], before [rest] *)
| QFor (f : string) (c : gexpr) (post : gstmt) (body : list gstmt) (e : env)
| QRange (f : string) (k v : string) (x : val) (i : Z) (body : list gstmt) (e : env).

(** The result of a call. *)
Definition int_result (t : ity) (r : env * signal) : prog Z :=
  match r with (_, Return (VInt t' z)) => if ity_eqb t t' then Ret z else OutOfFuel | _ => OutOfFuel end.
Definition bytes_result (r : env * signal) : prog slice :=
  match r with (_, Return (VBytes s)) => Ret s | _ => OutOfFuel end.
Definition ints_result (t : ity) (r : env * signal) : prog (list Z) :=
  match r with (_, Return (VInts t' l)) => if ity_eqb t t' then Ret l else OutOfFuel | _ => OutOfFuel end.
Definition self_result (r : env * signal) : prog unit :=
  match r with (_, Return VSelf) => Ret tt | _ => OutOfFuel end.
Definition unit_result (r : env * signal) : prog unit :=
  match r with (_, Return VUnit) => Ret tt | _ => OutOfFuel end.

Definition any_result (r : env * signal) : prog val :=
  match r with (_, Return (VAny v)) => Ret v | _ => OutOfFuel end.

Section Eval.
Variable pol : Z -> Z -> Z.                             (* the growth policy of [append] *)
Variable decls : list gdecl.
Variable ask : query -> prog (env * signal).
Variable fn : gfunc.                                    (* the function *)

(** The call [f(vs)], whose value has the type that [f] declares; [f] with a
    result pointer returns what it points to. *)
Definition call (g : gfunc) (f : string) (vs : list val) : act val :=
  match f_results g, f_params g with
  | [(_, t)], _ | [], (_, GPtr t) :: _ =>
      match t with
      | GNamed s =>
          match ity_of s, pointer_mode (GPtr t), f_results g with
          | Some t, Some VCell, _ | Some t, _, [_] => z <- do_ (bind (ask (QCall f vs)) (int_result t)) ;; Ok (VInt t z)
          | Some t, _, _ => do_ (bind (ask (QCall f vs)) unit_result) ;; Ok VUnit
          | None, _, _ => Undef
          end
      | GSlice (GNamed s) =>
          match ity_of s, f_results g with
          | Some U8, _ => z <- do_ (bind (ask (QCall f vs)) bytes_result) ;; Ok (VBytes z)
          | Some t, [_] => z <- do_ (bind (ask (QCall f vs)) (ints_result t)) ;; Ok (VInts t z)
          | Some t, _ => do_ (bind (ask (QCall f vs)) unit_result) ;; Ok VUnit
          | None, _ => Undef
          end
      | GPtr _ => do_ (bind (ask (QCall f vs)) self_result) ;; Ok VSelf
      | GIface => v <- do_ (bind (ask (QCall f vs)) any_result) ;; Ok (VAny v)
      | _ => Undef
      end
  | [], _ => do_ (bind (ask (QCall f vs)) unit_result) ;; Ok VUnit
  | _, _ => Undef
  end.

(** ** Operations on values *)

Definition index (a i : val) : act val :=
  match as_index i with
  | None => Undef
  | Some i =>
      match a with
      | VBytes s => x <- do_ (slice_get s i) ;; Ok (VInt U8 x)
      | VInts t l => x <- do_ (elem l i) ;; Ok (VInt t x)
      | VSlices l =>
          Cond ((0 <=? i) && (i <? zlen l)) (Ok (VBytes (nth (Z.to_nat i) l (mkSlice 0 0 0 0))))
            (Fail (RuntimeError IndexOutOfRange))
      | _ => Undef
      end
  end.
Definition length_of (v : val) : option Z :=
  match v with
  | VBytes s => Some (s_len s)
  | VInts _ l => Some (zlen l)
  | VSlices l => Some (zlen l)
  | _ => None
  end.

Definition field (f : string) : act val :=
  if String.eqb f "buf" then s <- do_ get_buf ;; Ok (VBytes s)
  else if String.eqb f "off" then x <- do_ (get FOff) ;; Ok (VInt I64 x)
  else if String.eqb f "cap" then x <- do_ (get FCap) ;; Ok (VInt I64 x)
  else if String.eqb f "boff" then x <- do_ (get FBoff) ;; Ok (VInt I64 x)
  else if String.eqb f "bcap" then x <- do_ (get FBcap) ;; Ok (VInt I64 x)
  else Undef.
Definition set_field (f : string) (v : val) : act unit :=
  if String.eqb f "buf" then match v with VBytes s => do_ (set_buf s) | _ => Undef end
  else match as_int I64 v with
       | None => Undef
       | Some z =>
           if String.eqb f "off" then do_ (set FOff z)
           else if String.eqb f "cap" then do_ (set FCap z)
           else if String.eqb f "boff" then do_ (set FBoff z)
           else if String.eqb f "bcap" then do_ (set FBcap z)
           else Undef
       end.
(** [&Buffer{...}]: the fields in order, those not mentioned are zero. *)
Definition new_struct (fields : list (string * val)) : act val :=
  match lookup "buf"%string fields with
  | Some b =>
      let z f := match lookup f fields with Some v => v | None => VConst 0 end in
      set_field "buf" b ;; set_field "off" (z "off"%string) ;; set_field "cap" (z "cap"%string) ;;
      set_field "boff" (z "boff"%string) ;; set_field "bcap" (z "bcap"%string) ;; Ok VSelf
  | None => Undef
  end.
(** [*p] for a pointer variable [p]. *)
Definition deref (e : env) (p : string) : act val :=
  match lookup p e with
  | Some VCell => ret_opt (lookup (cell p) e)
  | Some (VOutWord t) => o <- do_ (GetOuts (fun o => Ret o)) ;; Ok (VInt t (hd 0 o))
  | Some (VOutSlice t) => o <- do_ (GetOuts (fun o => Ret o)) ;; Ok (VInts t o)
  | _ => Undef
  end.

(** [v.(T)] *)
Definition assert_type (ty : gotype) (v : val) : act val :=
  match v with
  | VAny w =>
      match assertion ty w with
      | Some (Some w) => Ok w
      | Some None => Fail (RuntimeError TypeAssertion)
      | None => Undef
      end
  | _ => Undef
  end.

(** ** Calls *)

(** The methods of binary.ByteOrder. *)
Definition call_endian (en : Spec.endian) (m : string) (vs : list val) : act val :=
  let put t (p : slice -> Z -> prog unit) :=
    match vs with [VBytes s; v] => z <- ret_opt (as_int t v) ;; do_ (p s z) ;; Ok VUnit | _ => Undef end in
  let get t (p : slice -> prog Z) :=
    match vs with [VBytes s] => z <- do_ (p s) ;; Ok (VInt t z) | _ => Undef end in
  if String.eqb m "PutUint16" then put U16 (GoBinary.PutUint16 en)
  else if String.eqb m "PutUint32" then put U32 (GoBinary.PutUint32 en)
  else if String.eqb m "PutUint64" then put U64 (GoBinary.PutUint64 en)
  else if String.eqb m "Uint16" then get U16 (GoBinary.uint16 en)
  else if String.eqb m "Uint32" then get U32 (GoBinary.uint32 en)
  else if String.eqb m "Uint64" then get U64 (GoBinary.uint64 en)
  else Undef.

(** A call of the function or method [f]: constants take the types of its
    parameters. *)
Fixpoint coerce_all (ps : list (string * gotype)) (vs : list val) : option (list val) :=
  match ps, vs with
  | [], [] => Some []
  | (_, t) :: ps, v :: vs =>
      match coerce t v, coerce_all ps vs with
      | Some v, Some vs => Some (v :: vs)
      | _, _ => None
      end
  | _, _ => None
  end.
Definition call_func (f : string) (vs : list val) : act val :=
  match find_func f decls with
  | Some g => vs <- ret_opt (coerce_all (f_params g) vs) ;; call g f vs
  | None => Undef
  end.
Definition call_method (r : val) (m : string) (vs : list val) : act val :=
  match r with
  | VSelf =>
      if String.eqb m "Lock" then match vs with [] => do_ lock ;; Ok VUnit | _ => Undef end
      else if String.eqb m "Unlock" then match vs with [] => do_ unlock ;; Ok VUnit | _ => Undef end
      else call_func m vs
  | VEndian en => call_endian en m vs
  | _ => Undef
  end.
Definition call_builtin (f : string) (spread : bool) (vs : list val) : act val :=
  if String.eqb f "len" then
    match vs with [v] => z <- ret_opt (length_of v) ;; Ok (VInt IInt z) | _ => Undef end
  else if String.eqb f "cap" then
    match vs with [VBytes s] => Ok (VInt IInt (s_cap s)) | _ => Undef end
  else if String.eqb f "append" then
    match vs, spread with [VBytes s; VBytes t], true => r <- do_ (append pol s t) ;; Ok (VBytes r) | _, _ => Undef end
  else if String.eqb f "copy" then
    match vs with [VBytes d; VBytes s] => do_ (copy d s) ;; Ok VUnit | _ => Undef end
  else
    match ity_of f with
    | Some t => match vs with [v] => ret_opt (convert t v) | _ => Undef end
    | None => call_func f vs
    end.
(** [make([]T, n)] and [make([]byte, n, c)] *)
Definition make_ (ty : gotype) (vs : list val) : act val :=
  match ty with
  | GSlice (GNamed s) =>
      match ity_of s, vs with
      | Some U8, [n] => n <- ret_opt (as_index n) ;; r <- do_ (make_bytes n n) ;; Ok (VBytes r)
      | Some U8, [n; c] =>
          n <- ret_opt (as_index n) ;; c <- ret_opt (as_index c) ;; r <- do_ (make_bytes n c) ;; Ok (VBytes r)
      | Some t, [n] => n <- ret_opt (as_index n) ;; r <- do_ (make_elems (bytes_of t) n) ;; Ok (VInts t r)
      | _, _ => Undef
      end
  | _ => Undef
  end.

(** ** Expressions *)

Fixpoint eval (e : env) (want : option ity) (x : gexpr) {struct x} : act val :=
  let evals := (fix go l : act (list val) :=
                  match l with
                  | [] => Ok []
                  | y :: r => v <- eval e None y ;; vs <- go r ;; Ok (v :: vs)
                  end) in
  let keyed := (fix go want l : act (list (string * val)) :=
                  match l with
                  | [] => Ok []
                  | (k, y) :: r => v <- eval e want y ;; vs <- go want r ;; Ok ((k, v) :: vs)
                  end) in
  match x with
  | EVar s =>
      if String.eqb s "true" then Ok (VBool true)
      else if String.eqb s "false" then Ok (VBool false)
      else match lookup s e with
           | Some v => Ok v
           | None => ret_opt (find_global s decls)
           end
  | EInt z => Ok (VConst z)
  | EBin op a b =>
      if is_shift op then
        va <- eval e want a ;; vb <- eval e None b ;; ret_opt (shift op want va vb)
      else if is_compare op then
        va <- eval e None a ;; vb <- eval e (type_of va) b ;; ret_opt (binop op va vb)
      else
        va <- eval e want a ;;
        vb <- eval e (match type_of va with Some t => Some t | None => want end) b ;;
        ret_opt (binop op va vb)
  | EUn op a =>
      if String.eqb op "^" then
        v <- eval e want a ;;
        match v with VInt U8 z => Ok (VInt U8 (not8 z)) | _ => Undef end
      else if String.eqb op "*" then
        match a with
        | EVar p => deref e p
        | ECall (EUn _ (EVar ty)) [ECall (ESel (EVar _) _) [EUn _ y] _] _ =>  (* *( *T)(unsafe.Pointer(&y)) *)
            match ity_of ty with
            | Some t => v <- eval e None y ;; ret_opt (reinterpret t v)
            | None => Undef
            end
        | _ => Undef
        end
      else if String.eqb op "&" then
        match a with
        | EComp (GNamed _) elts => vs <- keyed None elts ;; new_struct vs
        | _ => Undef
        end
      else Undef
  | ESel a f =>
      v <- eval e None a ;;
      match v with VSelf => field f | _ => Undef end
  | EIndex a i => va <- eval e None a ;; vi <- eval e None i ;; index va vi
  | ESlice a lo hi =>
      va <- eval e None a ;;
      match va with
      | VBytes s =>
          lo <- match lo with Some y => v <- eval e None y ;; ret_opt (as_index v) | None => Ok 0 end ;;
          hi <- match hi with Some y => v <- eval e None y ;; ret_opt (as_index v) | None => Ok (s_len s) end ;;
          r <- do_ (reslice s lo hi) ;; Ok (VBytes r)
      | _ => Undef
      end
  | ECall f args spread =>
      match f with
      | EVar g =>
          match args with
          | ETy ty :: rest => if String.eqb g "make" then vs <- evals rest ;; make_ ty vs else Undef
          | _ => vs <- evals args ;; call_builtin g spread vs
          end
      | ESel r m => vr <- eval e None r ;; vs <- evals args ;; call_method vr m vs
      | _ => Undef
      end
  | EComp (GSlice (GNamed s)) elts =>
      if String.eqb s "byte" then
        vs <- keyed (Some U8) elts ;;
        l <- (fix go l : act (list Z) :=
                match l with
                | [] => Ok []
                | (_, v) :: r => z <- ret_opt (as_int U8 v) ;; zs <- go r ;; Ok (z :: zs)
                end) vs ;;
        r <- do_ (lit_bytes l) ;; Ok (VBytes r)
      else Undef
  | EAssert a ty => v <- eval e None a ;; assert_type ty v
  | _ => Undef
  end.
Fixpoint evals (e : env) (l : list gexpr) : act (list val) :=
  match l with
  | [] => Ok []
  | y :: r => v <- eval e None y ;; vs <- evals e r ;; Ok (v :: vs)
  end.

(** ** Assignments *)

Definition assign (e : env) (x : gexpr) (v : val) : act env :=
  match x with
  | EVar s =>
      match lookup s e with
      | Some old => v <- ret_opt (like old v) ;; Ok (update s v e)
      | None => Undef
      end
  | ESel a f =>
      r <- eval e None a ;;
      match r with VSelf => set_field f v ;; Ok e | _ => Undef end
  | EUn _ (EVar p) =>
      match lookup p e with
      | Some VCell =>
          match lookup p (f_params fn) with
          | Some (GPtr t) => v <- ret_opt (coerce t v) ;; Ok (update (cell p) v e)
          | _ => Undef
          end
      | Some (VOutWord t) => z <- ret_opt (as_int t v) ;; do_ (SetOuts [z] (Ret tt)) ;; Ok e
      | _ => Undef
      end
  | EIndex (EUn _ (EVar p)) i =>
      match lookup p e with
      | Some (VOutSlice t) =>
          o <- do_ (GetOuts (fun o => Ret o)) ;;
          vi <- eval e None i ;; i <- ret_opt (as_index vi) ;; z <- ret_opt (as_int t v) ;;
          o <- do_ (set_elem o i z) ;; do_ (SetOuts o (Ret tt)) ;; Ok e
      | _ => Undef
      end
  | EIndex (EAssert (EUn _ (EVar p)) ty) i =>
      match lookup p e with
      | Some VCell =>
          c <- ret_opt (lookup (cell p) e) ;; va <- assert_type ty c ;;
          vi <- eval e None i ;; i <- ret_opt (as_index vi) ;;
          match va with
          | VInts t l =>
              z <- ret_opt (as_int t v) ;; l' <- do_ (set_elem l i z) ;;
              Ok (update (cell p) (VAny (VInts t l')) e)
          | _ => Undef
          end
      | _ => Undef
      end
  | EIndex a i =>
      va <- eval e None a ;; vi <- eval e None i ;; i <- ret_opt (as_index vi) ;;
      match va with
      | VBytes s => z <- ret_opt (as_int U8 v) ;; do_ (slice_set s i z) ;; Ok e
      | VInts t l =>
          match a with
          | EVar s => z <- ret_opt (as_int t v) ;; l' <- do_ (set_elem l i z) ;; Ok (update s (VInts t l') e)
          | _ => Undef
          end
      | _ => Undef
      end
  | _ => Undef
  end.

(** ** Statements *)

Definition seq (a b : code) : code := fun e =>
  r <- a e ;; match r with (e', Next) => b e' | _ => Ok r end.
Definition skip : code := fun e => Ok (e, Next).

(** The parameter that is a result, if any: always the first. *)
Definition cell_param (f : gfunc) : bool :=
  match f_params f with
  | (_, t) :: _ => match pointer_mode t with Some VCell => true | _ => false end
  | [] => false
  end.
(** What a plain [return] returns: the result pointer's variable or the named result. *)
Definition result_of (e : env) : act val :=
  match f_params fn, f_results fn with
  | (p, t) :: _, [] => match pointer_mode t with Some VCell => ret_opt (lookup (cell p) e) | _ => Ok VUnit end
  | _, [(x, _)] => if String.eqb x "" then Undef else ret_opt (lookup x e)
  | _, _ => Ok VUnit
  end.
Definition result_type : option gotype := match f_results fn with [(_, t)] => Some t | _ => None end.

Definition declares (s : gstmt) : nat :=
  match s with SDefine _ _ | SVar _ _ _ => 1 | _ => 0 end.
(** The statements after the label [l] and the number of variables declared before it. *)
Fixpoint find_label (l : string) (d : nat) (b : list gstmt) : option (nat * list gstmt) :=
  match b with
  | [] => None
  | SLabel x :: r => if String.eqb x l then Some (d, r) else find_label l d r
  | s :: r => find_label l (d + declares s)%nat r
  end.
(** The block [b], of which [c] runs the statements: a jump to one of its labels
    goes on there; its variables go out of scope at its end. *)
Definition in_block (b : list gstmt) (c : code) : code := fun e =>
  r <- c e ;;
  r <- match r with
       | (e', Goto l) =>
           match find_label l 0 b with
           | Some (d, rest) =>
               do_ (ask (QLabel (f_name fn) l (List.length e + d) rest (trunc (List.length e + d) e')))
           | None => Ok r
           end
       | _ => Ok r
       end ;;
  let '(e', s) := r in Ok (trunc (List.length e) e', s).

Fixpoint exec (s : gstmt) {struct s} : code :=
  let list_ := (fix go (l : list gstmt) {struct l} : code :=
    match l with
    | [] => skip
    | y :: r => seq (exec y) (go r)
    end) in
  match s with
  | SExpr (ECall (EVar f) [x] sp) =>
      if String.eqb f "panic" then fun e =>
        v <- eval e None x ;; match v with VErr er => Fail er | _ => Undef end
      else fun e => _ <- eval e None (ECall (EVar f) [x] sp) ;; Ok (e, Next)
  | SExpr (ECall (ESel r m) (x :: args) sp) =>
      match find_func m decls with
      | Some f =>
          if cell_param f then fun e =>
            vr <- eval e None r ;; vs <- evals e args ;;
            v <- call_method vr m (VCell :: vs) ;;
            match x with
            | EUn _ (EVar y) =>
                match lookup y e with
                | Some old => v <- ret_opt (like old v) ;; Ok (update y v e, Next)
                | None => Undef
                end
            | EVar p => match lookup p e with Some VCell => Ok (update (cell p) v e, Next) | _ => Undef end
            | _ => Undef
            end
          else fun e => _ <- eval e None (ECall (ESel r m) (x :: args) sp) ;; Ok (e, Next)
      | None => fun e => _ <- eval e None (ECall (ESel r m) (x :: args) sp) ;; Ok (e, Next)
      end
  | SExpr x => fun e => _ <- eval e None x ;; Ok (e, Next)
  | SAssign l op r => fun e =>
      if String.eqb op "=" then
        v <- eval e None r ;; e' <- assign e l v ;; Ok (e', Next)
      else
        let op1 := substring 0 (String.length op - 1) op in
        cur <- eval e None l ;; v <- eval e (type_of cur) r ;;
        v <- ret_opt (if is_shift op1 then shift op1 None cur v else binop op1 cur v) ;;
        e' <- assign e l v ;; Ok (e', Next)
  | SDefine x a => fun e => v <- eval e None a ;; v <- ret_opt (default v) ;; Ok ((x, v) :: e, Next)
  | SVar x None (Some a) => fun e => v <- eval e None a ;; v <- ret_opt (default v) ;; Ok ((x, v) :: e, Next)
  | SVar x (Some t) None => fun e => v <- ret_opt (zero_of t) ;; Ok ((x, v) :: e, Next)
  | SVar _ _ _ => fun _ => Undef
  | SIncDec x op => fun e =>
      if String.eqb op "++" then
        v <- eval e None x ;; v <- ret_opt (binop "+" v (VConst 1)) ;; e' <- assign e x v ;; Ok (e', Next)
      else Undef
  | SIf c th el => fun e =>
      v <- eval e None c ;;
      match v with
      | VBool b => Cond b (in_block th (list_ th) e) (in_block el (list_ el) e)
      | _ => Undef
      end
  | SGoto l => fun e => Ok (e, Goto l)
  | SLabel l => fun e => Ok (e, Goto l)
  | SBlock b => in_block b (list_ b)
  | SReturn None => fun e => v <- result_of e ;; Ok (e, Return v)
  | SReturn (Some x) => fun e =>
      v <- eval e None x ;;
      match result_type with
      | Some t => v <- ret_opt (coerce t v) ;; Ok (e, Return v)
      | None => Undef
      end
  | SSwitch x cases => fun e =>
      v <- eval e None x ;;
      r <- (fix go (l : list (list gexpr * list gstmt)) : act (env * signal) :=
              match l with
              | [] => Ok (e, Next)
              | (guards, body) :: r =>
                  match guards with
                  | [] => in_block body (list_ body) e         (* default, always the last *)
                  | [g] =>
                      vg <- eval e (type_of v) g ;; eq <- ret_opt (binop "==" v vg) ;;
                      match eq with
                      | VBool b => Cond b (in_block body (list_ body) e) (go r)
                      | _ => Undef
                      end
                  | _ => Undef
                  end
              end) cases ;;
      match r with (e', Break) => Ok (e', Next) | _ => Ok r end
  | SBreak => fun e => Ok (e, Break)
  | SDefer _ => fun _ => Undef
  | SFor init c post body => fun e =>
      r <- exec init e ;;
      r <- do_ (ask (QFor (f_name fn) c post body (fst r))) ;;
      let '(e', s) := r in Ok (trunc (List.length e) e', s)
  | SRange k v x body => fun e =>
      vx <- eval e None x ;; do_ (ask (QRange (f_name fn) k v vx 0 body e))
  end.
Fixpoint exec_list (l : list gstmt) : code :=
  match l with
  | [] => skip
  | y :: r => seq (exec y) (exec_list r)
  end.

(** The statements of a function: [defer] runs its call when the rest is done,
    however it ends. *)
Fixpoint exec_top (l : list gstmt) {struct l} : code :=
  match l with
  | [] => skip
  | SDefer y :: r => fun e =>
      do_ (finally (flat (in_block r (exec_list r) e)) (flat (_ <- eval e None y ;; Ok tt)))
  | y :: r => seq (exec y) (exec_top r)
  end.

(** Reached the label [l], or jumped to it. *)
Definition label_step (l : string) (d : nat) (rest : list gstmt) (e : env) : act (env * signal) :=
  r <- exec_list rest e ;;
  match r with
  | (e', Goto l') => if String.eqb l' l then do_ (ask (QLabel (f_name fn) l d rest (trunc d e'))) else Ok r
  | _ => Ok r
  end.
(** [for ; c; post { body }] *)
Definition for_step (c : gexpr) (post : gstmt) (body : list gstmt) (e : env) : act (env * signal) :=
  v <- eval e None c ;;
  match v with
  | VBool b =>
      Cond b
        (r <- in_block body (exec_list body) e ;;
         match r with
         | (e1, Next) => r <- exec post e1 ;; do_ (ask (QFor (f_name fn) c post body (fst r)))
         | _ => Ok r
         end)
        (Ok (e, Next))
  | _ => Undef
  end.
(** [for k, v := range x { body }], at the index [i] *)
Definition range_step (k v : string) (x : val) (i : Z) (body : list gstmt) (e : env) : act (env * signal) :=
  n <- ret_opt (length_of x) ;;
  Cond (i <? n)
    (e1 <- (if member (String.eqb v) [""; "_"]%string then Ok e
            else match x with
                 | VSlices l => Ok ((v, VBytes (nth (Z.to_nat i) l (mkSlice 0 0 0 0))) :: e)
                 | _ => Undef
                 end) ;;
     r <- in_block body (exec_list body) (if String.eqb k "_" then e1 else (k, VInt IInt i) :: e1) ;;
     match r with
     | (e2, Next) => do_ (ask (QRange (f_name fn) k v x (i +! 1) body (trunc (List.length e) e2)))
     | _ => Ok r
     end)
    (Ok (e, Next)).

(** ** Functions *)

Fixpoint bind_params (ps : list (string * gotype)) (vs : list val) : option env :=
  match ps, vs with
  | [], [] => Some []
  | (x, t) :: ps, v :: vs =>
      match coerce t v, bind_params ps vs with
      | Some v, Some e => Some ((x, v) :: (match v with VCell => [(cell x, VUnit)] | _ => [] end) ++ e)%list
      | _, _ => None
      end
  | _, _ => None
  end.
Definition func_step (args : list val) : act (env * signal) :=
  let recv := match f_recv fn with Some (b, _) => [(b, VSelf)] | None => [] end in
  ps <- ret_opt (bind_params (f_params fn) args) ;;
  rs <- ret_opt (match f_results fn with
                 | [] => Some []
                 | [(x, t)] => if String.eqb x "" then Some [] else option_map (fun v => [(x, v)]) (zero_of t)
                 | _ => None
                 end) ;;
  r <- in_block (f_body fn) (exec_top (f_body fn)) (recv ++ ps ++ rs)%list ;;
  match r with
  | (_, Return v) => Ok ([], Return v)
  | (e, Next) => v <- result_of e ;; Ok ([], Return v)
  | _ => Undef
  end.
End Eval.

(** ** Programs *)

Definition step (decls : list gdecl) (pol : Z -> Z -> Z) (ask : query -> prog (env * signal)) (q : query)
  : prog (env * signal) :=
  match find_func (match q with QCall f _ | QLabel f _ _ _ _ | QFor f _ _ _ _ | QRange f _ _ _ _ _ _ => f end) decls with
  | Some fn =>
      flat match q with
           | QCall _ args => func_step pol decls ask fn args
           | QLabel _ l d rest e => label_step pol decls ask fn l d rest e
           | QFor _ c post body e => for_step pol decls ask fn c post body e
           | QRange _ k v x i body e => range_step pol decls ask fn k v x i body e
           end
  | None => OutOfFuel
  end.
(** [n] bounds the nesting of calls and loops. *)
Fixpoint den (decls : list gdecl) (pol : Z -> Z -> Z) (n : nat) (q : query) : prog (env * signal) :=
  match n with
  | O => OutOfFuel
  | S m => step decls pol (den decls pol m) q
  end.
