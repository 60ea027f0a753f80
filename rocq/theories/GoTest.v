(** * GoTest: running the unit tests of the repository.

    Nothing is proved with this file.  It is a check of the definitions that
    everything else rests on, GoLex.v, GoParse.v, GoEval.v and GoSem.v: the authors'
    own test functions (v?/buffer_test.go, v?/minibuf_test.go) are read from their text and
    run on what the interpreter makes of the text of the packages.

    A test function is a sequence of declarations, assignments, method calls and [if]
    statements that call [t.Fatalf].  Anything else has no meaning ([OutOfFuel]), and
    a test without a meaning does not pass. *)
From Coq Require Import ZArith List Bool String Ascii.
From Verif Require Import GoSem GoLex GoParse GoEval GoMain.
Import ListNotations.
Open Scope string_scope.
Open Scope Z_scope.
Open Scope go_scope.

(** ** Reading

    The test files have two things that the packages have not: numbers with an
    exponent and string literals with escaped quotes. *)
Fixpoint last_of (s : string) : option ascii :=
  match s with
  | EmptyString => None
  | String c EmptyString => Some c
  | String _ r => last_of r
  end.
Definition is_last (c : ascii) (s : string) : bool :=
  match last_of s with Some d => Ascii.eqb c d | None => false end.
(** [s] is the part of a number up to the [e] of its exponent. *)
Definition open_exponent (s : string) : bool :=
  match s with
  | String "0" (String "x" _) => false
  | _ => is_last "e" s
  end.
(** The number [s], at the [e] if it has one. *)
Fixpoint at_e (s : string) : string * option string :=
  match s with
  | EmptyString => (EmptyString, None)
  | String c r =>
      if Ascii.eqb c "e" then (EmptyString, Some r)
      else let '(a, b) := at_e r in (String c a, b)
  end.
Definition exponent (s : string) : Z :=
  match s with
  | String "-" r => - digits 10 0 r
  | String "+" r => digits 10 0 r
  | _ => digits 10 0 s
  end.
Definition number_of (s : string) : tok :=
  match s with
  | String "0" (String "x" _) => literal s
  | _ =>
      match at_e s with
      | (m, Some x) =>
          let '(m, d) := fraction 0 m in
          let x := exponent x - Z.of_nat (match d with Some d => d | None => O end) in
          if 0 <=? x then TFloat (m * 10 ^ x) 0 else TFloat m (Z.to_nat (- x))
      | _ => literal s
      end
  end.
Definition tflush (m : mode) : list tok := match m with MNum s => [number_of s] | _ => flush m end.
Definition tstep (m : mode) (c : ascii) : mode * list tok :=
  match m with
  | MNum s =>
      if open_exponent s && (Ascii.eqb c "+" || Ascii.eqb c "-") then (MNum (snoc s c), [])
      else if is_idchar c || Ascii.eqb c "." && no_letter s then (MNum (snoc s c), [])
      else let '(m', t) := GoLex.start c in (m', number_of s :: t)
  | MStr s => if Ascii.eqb c quote && is_last "\" s then (MStr (snoc s c), []) else GoLex.step m c
  | _ => GoLex.step m c
  end.
Fixpoint tscan (m : mode) (s : string) : mode * list tok :=
  match s with
  | EmptyString => (m, [])
  | String c r =>
      if in_op_slash m && Ascii.eqb c "/" then (MStart, [TComment ("//" ++ r)]) else
      let '(m1, t1) := tstep m c in
      let '(m2, t2) := tscan m1 r in
      (m2, t1 ++ t2)%list
  end.
Fixpoint tlex (in_block : bool) (ls : list string) : list tok :=
  match ls with
  | [] => []
  | l :: r =>
      let '(m, t) := tscan (if in_block then MBlock "" else MStart) l in
      end_line (t ++ tflush m)%list ++ tlex (match m with MBlock _ => true | _ => false end) r
  end%list.

(** The test functions of a file: [func TestX(...) {...}]. *)
Definition is_test (f : string) : bool := String.prefix "Test" f.
Definition test_fuel : nat := 40 * 50.
Fixpoint test_functions (n : nat) (t : list tok) : list (option gfunc) :=
  match n with
  | O => [None]
  | S n =>
      match t with
      | [] => []
      | TId "func" :: TId f :: r =>
          if is_test f then
            match p_func test_fuel (TId f :: r) with
            | Some (g, r) => Some g :: test_functions n r
            | None => None :: test_functions n r
            end
          else test_functions n r
      | _ :: r => test_functions n r
      end
  end.
Definition tests_of (src : list string) : list (option gfunc) :=
  let t := no_comments (tlex false src) in test_functions (S (List.length t)) t.

(** ** Float constants of type float32 *)
Definition nearest32 (num den : Z) : option Z :=
  if num =? 0 then Some 0
  else
    let l := Z.log2 num - Z.log2 den in
    let l := if (if 0 <=? l then num <? den * 2 ^ l else num * 2 ^ (- l) <? den) then l - 1 else l in
    let k := Z.max (-149) (l - 23) in
    let q := if 0 <=? k then nearest num (den * 2 ^ k) else nearest (num * 2 ^ (- k)) den in
    let b := (k + 149) * 2 ^ 23 + q in
    if b <? 255 * 2 ^ 23 then Some b else None.
Definition float32_of (m x : Z) : option Z :=
  option_map (fun b => if m <? 0 then 2 ^ 31 + b else b)
    (if 0 <=? x then nearest32 (Z.abs m * 10 ^ x) 1 else nearest32 (Z.abs m) (10 ^ (- x))).
Definition as_elem' (t : ity) (c : const) : option Z :=
  match t, c with
  | F32, CInt z => float32_of z 0
  | F32, CDec m e => float32_of m (- Z.of_nat e)
  | _, _ => as_elem t c
  end.

(** ** Running *)

(** A variable: a value, the buffer (there is one object), or a struct literal, by
    the bytes of its [buf] and its other fields, that is only compared. *)
Inductive tval : Type :=
| TV (v : val)
| TBuf
| TStruct (l : list Z) (off cap boff bcap : Z).
Definition tenv : Type := list (string * tval).
Fixpoint set_var (x : string) (v : tval) (e : tenv) : tenv :=
  match e with
  | [] => []
  | (y, w) :: r => if String.eqb x y then (y, v) :: r else (y, w) :: set_var x v r
  end.
Definition no_buf (x : string) (e : tenv) : bool :=
  forallb (fun yv => match snd yv with TBuf => String.eqb (fst yv) x | _ => true end) e.
Definition is_blank (x : string) : bool := String.eqb x "_".

Section Test.
Variable decls : list gdecl.          (* the package *)
Variable pol : Z -> Z -> Z.
Variable n : nat.                     (* see [den] *)

Definition value (p : prog tval) : prog val := v <- p ;; match v with TV v => Ret v | _ => OutOfFuel end.
(** The arguments as the parameters take them: those of a variadic [...int64] are
    collected, a constant for an interface{} is an [int]. *)
Fixpoint collect (t : ity) (vs : list val) : option (list Z) :=
  match vs with
  | [] => Some []
  | v :: r => match as_int t v, collect t r with Some z, Some l => Some (z :: l) | _, _ => None end
  end.
Fixpoint pass (ps : list (string * gotype)) (vs : list val) : option (list val) :=
  match ps, vs with
  | [], [] => Some []
  | [(_, GVariadic (GNamed s))], _ =>
      match ity_of s with Some t => option_map (fun l => [VInts t l]) (collect t vs) | None => None end
  | (_, ty) :: ps, v :: vs =>
      option_map (cons (match ty, v with GIface, VConst z => VAny (VInt IInt z) | _, _ => v end)) (pass ps vs)
  | _, _ => None
  end.
Definition the_call (f : string) (vs : list val) : prog val :=
  g <- opt (find_func f decls) ;; vs <- opt (pass (f_params g) vs) ;;
  flat (call_func decls (den decls pol n) f vs).
Definition the_elts (t : ity) (elts : list (string * gexpr)) : prog (list Z) :=
  opt (all_some (map (fun kx => match constant (snd kx) with Some c => as_elem' t c | None => None end) elts)).
Definition int_field (f : string) (elts : list (string * gexpr)) : option Z :=
  match lookup f elts with
  | None => Some 0
  | Some x => match constant x with Some (CInt z) => Some z | _ => None end
  end.
(** The arguments of NewBuffer and NewMiniBuffer are variadic. *)
Fixpoint slices (vs : list val) : prog (list slice) :=
  match vs with
  | [] => Ret []
  | VBytes s :: r => l <- slices r ;; Ret (s :: l)
  | _ => OutOfFuel
  end.

Fixpoint tex (e : tenv) (x : gexpr) {struct x} : prog tval :=
  let texs := (fix go l : prog (list val) :=
                 match l with
                 | [] => Ret []
                 | y :: r => v <- value (tex e y) ;; vs <- go r ;; Ret (v :: vs)
                 end) in
  match constant x with
  | Some (CInt z) => Ret (TV (VConst z))
  | Some (CBool b) => Ret (TV (VBool b))
  | Some (CDec _ _) => OutOfFuel
  | None =>
      match x with
      | EVar s => match lookup s e with Some v => Ret v | None => v <- opt (find_global s decls) ;; Ret (TV v) end
      | ESel a f =>
          v <- tex e a ;;
          match v with TBuf => v <- flat (field f) ;; Ret (TV v) | _ => OutOfFuel end
      | EIndex a i =>
          v <- value (tex e a) ;; i <- value (tex e i) ;; v <- flat (index v i) ;; Ret (TV v)
      | ESlice a (Some lo) (Some hi) =>
          v <- value (tex e a) ;; lo <- value (tex e lo) ;; hi <- value (tex e hi) ;;
          match v, as_index lo, as_index hi with
          | VBytes s, Some lo, Some hi => r <- reslice s lo hi ;; Ret (TV (VBytes r))
          | _, _, _ => OutOfFuel
          end
      | EAssert a ty => v <- value (tex e a) ;; v <- flat (assert_type ty v) ;; Ret (TV v)
      | EComp (GSlice (GNamed s)) elts =>
          t <- opt (ity_of s) ;; l <- the_elts t elts ;;
          match t with
          | U8 => b <- lit_bytes l ;; Ret (TV (VBytes b))
          | _ => Ret (TV (VInts t l))
          end
      | EUn o (EComp (GNamed _) elts) =>                                        (* &T{...} *)
          if String.eqb o "&" then
            l <- match lookup "buf" elts with
                 | None => Ret []
                 | Some (EComp (GSlice (GNamed _)) es) => the_elts U8 es
                 | Some _ => OutOfFuel
                 end ;;
            off <- opt (int_field "off" elts) ;; cp <- opt (int_field "cap" elts) ;;
            boff <- opt (int_field "boff" elts) ;; bcap <- opt (int_field "bcap" elts) ;;
            Ret (TStruct l off cp boff bcap)
          else OutOfFuel
      | ECall (EVar f) (ETy ty :: rest) false =>
          if String.eqb f "make" then vs <- texs rest ;; v <- flat (make_ ty vs) ;; Ret (TV v) else OutOfFuel
      | ECall (EVar f) xs false =>
          vs <- texs xs ;;
          if String.eqb f "NewBuffer" then
            l <- slices vs ;; the_call "NewBuffer" [VSlices l] ;; Ret TBuf
          else
            t <- opt (ity_of f) ;;
            match vs with [v] => v <- opt (convert t v) ;; Ret (TV v) | _ => OutOfFuel end
      | ECall (ESel a m) xs false =>
          b <- tex e a ;;
          match b with TBuf => vs <- texs xs ;; v <- the_call m vs ;; Ret (TV v) | _ => OutOfFuel end
      | _ => OutOfFuel
      end
  end.
Fixpoint texs (e : tenv) (l : list gexpr) : prog (list val) :=
  match l with
  | [] => Ret []
  | y :: r => v <- value (tex e y) ;; vs <- texs e r ;; Ret (v :: vs)
  end.

(** cmp.Equal: slices of the same type with the same elements.  The structs are
    compared by the authors' BufferComparer and MiniBufferComparer, field by field. *)
Fixpoint same (l l' : list Z) : bool :=
  match l, l' with
  | [], [] => true
  | x :: l, y :: l' => (x =? y) && same l l'
  | _, _ => false
  end.
Definition equal (a b : tval) : prog bool :=
  match a, b with
  | TV (VBytes s), TV (VBytes t) => l <- bytes_in s ;; l' <- bytes_in t ;; Ret (same l l')
  | TV (VInts t l), TV (VInts t' l') => Ret (ity_eqb t t' && same l l')
  | TStruct l off cp boff bcap, TBuf =>
      s <- get_buf ;; l' <- bytes_in s ;;
      off' <- get FOff ;; cp' <- get FCap ;; boff' <- get FBoff ;; bcap' <- get FBcap ;;
      Ret (same l l' && (off =? off') && (cp =? cp') && (boff =? boff') && (bcap =? bcap'))
  | _, _ => OutOfFuel
  end.

(** The condition under which the test fails. *)
Fixpoint cond (e : tenv) (x : gexpr) : prog bool :=
  match x with
  | EUn o (ECall (ESel (EVar p) f) (a :: b :: _) false) =>
      if String.eqb o "!" && String.eqb p "cmp" && String.eqb f "Equal" then
        a <- tex e a ;; b <- tex e b ;; r <- equal a b ;; Ret (negb r)
      else OutOfFuel
  | EBin o a b =>
      if String.eqb o "||" then r <- cond e a ;; if r then Ret true else cond e b
      else if String.eqb o "!=" then
        a <- value (tex e a) ;; b <- value (tex e b) ;; r <- opt (binop "!=" a b) ;;
        match r with VBool r => Ret r | _ => OutOfFuel end
      else OutOfFuel
  | _ => OutOfFuel
  end.

(** [x.m(&y, xs)]: [y] afterwards. *)
Definition call_out (m : string) (mode : option val) (old : val) (vs : list val) : prog val :=
  match mode, old with
  | Some VCell, _ => v <- the_call m (VCell :: vs) ;; opt (like old v)
  | Some (VOutWord t), VInt t' z =>
      if ity_eqb t t' then SetOuts [z] (the_call m (VOutWord t :: vs) ;; GetOuts (fun o => match o with [z] => Ret (VInt t z) | _ => OutOfFuel end))
      else OutOfFuel
  | Some (VOutSlice t), VInts t' l =>
      if ity_eqb t t' then SetOuts l (the_call m (VOutSlice t :: vs) ;; GetOuts (fun o => Ret (VInts t o)))
      else OutOfFuel
  | _, _ => OutOfFuel
  end.

Definition is_fatal (b : list gstmt) : bool :=
  match b with [SExpr (ECall (ESel (EVar t) f) _ _)] => String.eqb t "t" && String.eqb f "Fatalf" | _ => false end.
Definition bind_var (x : string) (v : tval) (e : tenv) : prog tenv :=
  match v with
  | TBuf => if no_buf x e then Ret ((x, v) :: e)%list else OutOfFuel
  | TV w => w <- opt (default w) ;; Ret ((x, TV w) :: e)%list
  | _ => Ret ((x, v) :: e)%list
  end.

(** [true]: reached the end of the test without a call of [t.Fatalf]. *)
Fixpoint exec_test (e : tenv) (b : list gstmt) : prog bool :=
  match b with
  | [] => Ret true
  | SVar x (Some t) None :: r => v <- opt (zero_of t) ;; exec_test ((x, TV v) :: e)%list r
  | SVar x None (Some a) :: r | SDefine x a :: r => v <- tex e a ;; e <- bind_var x v e ;; exec_test e r
  | SVar x (Some t) (Some a) :: r => v <- value (tex e a) ;; v <- opt (coerce t v) ;; exec_test ((x, TV v) :: e)%list r
  | SAssign (EVar x) o a :: r =>
      if String.eqb o "=" then
        v <- tex e a ;;
        if is_blank x then exec_test e r
        else match lookup x e, v with
             | Some (TV old), TV v => v <- opt (like old v) ;; exec_test (set_var x (TV v) e) r
             | Some TBuf, TBuf => if no_buf x e then exec_test e r else OutOfFuel
             | _, _ => OutOfFuel
             end
      else OutOfFuel
  | SIf c th [] :: r => if is_fatal th then f <- cond e c ;; if f then Ret false else exec_test e r else OutOfFuel
  | SExpr (ECall (EVar f) (EUn o (EVar x) :: xs) false) :: r =>                  (* NewMiniBuffer(&x, xs) *)
      if String.eqb f "NewMiniBuffer" && String.eqb o "&" && no_buf x e then
        match lookup x e with
        | Some TBuf | Some (TStruct _ _ _ _ _) =>
            vs <- texs e xs ;; l <- slices vs ;; the_call f [VCell; VSlices l] ;; exec_test (set_var x TBuf e) r
        | _ => OutOfFuel
        end
      else OutOfFuel
  | SExpr (ECall (ESel (EVar b) m) xs false) :: r =>
      match lookup b e with
      | Some TBuf =>
          match xs with
          | EUn o (EVar y) :: xs =>
              if String.eqb o "&" then
                g <- opt (find_func m decls) ;;
                vs <- texs e xs ;;
                match lookup y e, f_params g with
                | Some (TV old), (_, ty) :: _ => v <- call_out m (pointer_mode ty) old vs ;; exec_test (set_var y (TV v) e) r
                | _, _ => OutOfFuel
                end
              else vs <- texs e (EUn o (EVar y) :: xs) ;; the_call m vs ;; exec_test e r
          | _ => vs <- texs e xs ;; the_call m vs ;; exec_test e r
          end
      | None => if String.eqb b "t" && String.eqb m "Log" then exec_test e r else OutOfFuel
      | _ => OutOfFuel
      end
  | _ => OutOfFuel
  end.

(** The arguments of [defer panicChecker(t, errs...)]. *)
Fixpoint errors (l : list gexpr) : option (list err) :=
  match l with
  | [] => Some []
  | EVar x :: r =>
      match find_global x decls, errors r with Some (VErr er), Some l => Some (er :: l) | _, _ => None end
  | _ => None
  end.
Definition err_same (a b : err) : bool :=
  match a, b with CrunchError s m, CrunchError s' m' => String.eqb s s' && String.eqb m m' | _, _ => false end.

Definition no_bytes : St := mkSt [] (mkBuf (mkSlice 0 0 0 0) 0 0 0 0) false [].

(** The test passes.  v?/testutils_test.go: panicChecker wants a panic with one of
    the errors. *)
Definition passes (f : gfunc) : bool :=
  match f_body f with
  | SDefer (ECall (EVar c) (EVar t :: es) false) :: b =>
      if String.eqb c "panicChecker" && String.eqb t "t" then
        match errors es, run (exec_test [] b) no_bytes with
        | Some es, Panicked er _ => existsb (err_same er) es
        | _, _ => false
        end
      else false
  | b => match run (exec_test [] b) no_bytes with Done r _ => r | _ => false end
  end.
End Test.

(** The names of the tests of a file that do not pass. *)
Definition failing (decls : list gdecl) (pol : Z -> Z -> Z) (n : nat) (src : list string) : list string :=
  flat_map (fun o => match o with
                     | Some f => if passes decls pol n f then [] else [f_name f]
                     | None => ["?"]
                     end) (tests_of src).
