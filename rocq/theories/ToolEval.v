(** * ToolEval: what the Go program of the code generator means.

    An interpreter for the syntax of [ToolParse.v], with the parts of the
    libraries that generation/*.go calls: regexp, strings, strconv, fmt, bytes,
    flag, filepath, os, ioutil and jennifer (package jen).  The world the program
    runs in is a parameter: how jennifer lays tokens out, in which order Go walks
    a map, the command line, the directory and which system calls fail.
    Where Go panics, where the program leaves the subset, and when the fuel runs
    out, there is no result ([None]).

    Simplifications.  Messages ([fmt.Println], [fmt.Printf]) are dropped.  A
    slice of bytes is the string of its bytes; slices are not assigned to.
    Integers are unbounded.  The right side of an assignment is evaluated before
    the operands on its left.  A function literal captures the values of the
    variables it uses, not the variables, and may not assign to them; that is the
    same as long as none of them is assigned after the capture, which
    [no_late_assignment] checks in the syntax.  A callback of [ReplaceAllFunc]
    that captures no pointer can neither see objects that were there before nor
    leave behind any of its own, as its result is bytes: it runs on a heap of its
    own.

    The interpreter is in continuation-passing style: [k] is what happens with
    the result. *)
From Coq Require Import ZArith List Bool String Ascii.
From Verif Require Import GoLex GoParse Gen ToolParse ToolRegex.
Import ListNotations.
Open Scope string_scope.

(** ** Values and objects *)

Inductive val : Type :=
| VStr (s : string)                (* a string or a slice of bytes *)
| VInt (z : Z)
| VBool (b : bool)
| VNil
| VErr (s : string)                (* an error that is not nil *)
| VList (l : list val)             (* a slice *)
| VTup (l : list val)              (* the results of a call *)
| VRef (r : nat)                   (* a pointer or a map *)
| VRe (p : list rx)                (* a compiled regular expression *)
| VInfo (name : string) (d : bool) (* an os.FileInfo: its name, and whether it is a directory *)
| VFlags (l : list string)         (* flags of os.OpenFile *)
| VFun (ps rs : list (string * ttype)) (body : list tstmt) (cap : list (string * val))
| VPrim (s : string)               (* a function of a package *)
| VMeth (v : val) (m : string).    (* a method of a value *)

(** What a jennifer statement is made of: tokens, or a list of statements, or
    those of a group. *)
Inductive kind : Set := KParams | KCall | KParens | KIndex | KIf | KBlock | KPanic | KLen.
Inductive item : Set :=
| IToks (l : list tok)
| IList (k : kind) (l : list nat)
| IGroup (k : kind) (g : nat).

Inductive obj : Type :=
| OStmt (l : list item)                           (* jen.Statement *)
| OGroup (l : list nat)                           (* jen.Group: its statements *)
| OBuf (s : string)                               (* bytes.Buffer *)
| OMap (zero : val) (m : list (string * val))     (* a map with string keys *)
| OCell (v : val)                                 (* a variable that is pointed to *)
| ODir                                            (* the directory, opened *)
| OFile (name : string) (pos : nat).              (* a file, opened *)

(** ** The world *)

Record world : Type := mkWorld {
  layout : list tok -> option string;             (* Group.Render: the text, or an error *)
  order : nat -> list string -> list string;      (* the order of the k-th walk over a map *)
  cmdline : string -> option string;              (* the flags given *)
  abs_path : string -> option string;             (* filepath.Abs *)
  is_directory : bool;                            (* the path names a directory *)
  listing : list (string * bool);                 (* Readdir: names, and whether directories *)
  fails : string -> string -> bool;               (* the system call fails on the file *)
  read_before : string -> string;                 (* what a failing ReadAll has read *)
  written_before : string -> nat                  (* how much a failing Write has written *)
}.

Record st : Type := mkSt {
  heap : list obj;
  globals : list (string * val);
  flags : list (string * nat);                    (* the flags declared, and their variables *)
  inside : bool;                                  (* the directory is the working directory *)
  disk : dir;                                     (* its files *)
  walks : nat                                     (* how many maps were walked *)
}.
Definition set_heap (h : list obj) (s : st) : st :=
  mkSt h (globals s) (flags s) (inside s) (disk s) (walks s).
Definition set_globals (g : list (string * val)) (s : st) : st :=
  mkSt (heap s) g (flags s) (inside s) (disk s) (walks s).
Definition set_disk (d : dir) (s : st) : st :=
  mkSt (heap s) (globals s) (flags s) (inside s) d (walks s).

Definition alloc (o : obj) (s : st) : nat * st :=
  (List.length (heap s), set_heap (heap s ++ [o])%list s).
Fixpoint put {A} (n : nat) (x : A) (l : list A) : list A :=
  match n, l with
  | O, _ :: r => x :: r
  | S n, y :: r => y :: put n x r
  | _, [] => []
  end.
Definition store (r : nat) (o : obj) (s : st) : st := set_heap (put r o (heap s)) s.
Definition deref (r : nat) (s : st) : option obj := nth_error (heap s) r.

(** ** Variables *)

Definition frame : Type := list (string * val).
Fixpoint assoc {A} (x : string) (l : list (string * A)) : option A :=
  match l with
  | [] => None
  | (y, v) :: r => if x =? y then Some v else assoc x r
  end.
(** The list with the value of [x] changed; [None] if [x] is not there. *)
Fixpoint reset {A} (x : string) (v : A) (l : list (string * A)) : option (list (string * A)) :=
  match l with
  | [] => None
  | (y, w) :: r => if x =? y then Some ((y, v) :: r) else option_map (cons (y, w)) (reset x v r)
  end.
(** [m[x] = v] *)
Definition map_set {A} (x : string) (v : A) (l : list (string * A)) : list (string * A) :=
  match reset x v l with Some l => l | None => (l ++ [(x, v)])%list end.

(** The scopes of a function, the innermost first, and what it captured. *)
Record env : Type := mkEnv { scopes : list frame; captured : frame }.
Fixpoint find_var (x : string) (l : list frame) : option val :=
  match l with
  | [] => None
  | f :: r => match assoc x f with Some v => Some v | None => find_var x r end
  end.
Fixpoint set_var (x : string) (v : val) (l : list frame) : option (list frame) :=
  match l with
  | [] => None
  | f :: r =>
      match reset x v f with
      | Some f => Some (f :: r)
      | None => option_map (cons f) (set_var x v r)
      end
  end.
Definition push (f : frame) (e : env) : env := mkEnv (f :: scopes e) (captured e).
Definition pop (e : env) : env := mkEnv (tl (scopes e)) (captured e).
(** A new variable of the innermost scope. *)
Definition declare (x : string) (v : val) (e : env) : option env :=
  match scopes e with
  | f :: r => Some (mkEnv (((x, v) :: f) :: r) (captured e))
  | [] => None
  end.
(** [x = v]: a local variable, or one of the package; not a captured one. *)
Definition assign_var (x : string) (v : val) (e : env) (s : st) : option (env * st) :=
  if x =? "_" then Some (e, s)
  else match set_var x v (scopes e) with
       | Some l => Some (mkEnv l (captured e), s)
       | None =>
           match assoc x (captured e) with
           | Some _ => None
           | None => match reset x v (globals s) with
                     | Some g => Some (e, set_globals g s)
                     | None => None
                     end
           end
       end.
(** [x := v] *)
Definition define_var (x : string) (v : val) (e : env) : option env :=
  if x =? "_" then Some e
  else match scopes e with
       | f :: r =>
           match reset x v f with
           | Some f => Some (mkEnv (f :: r) (captured e))
           | None => declare x v e
           end
       | [] => None
       end.

Definition zero (t : ttype) : val :=
  match t with
  | TyName "string" | TySlice (TyName "byte") => VStr ""
  | TyName "int" => VInt 0
  | TyName "bool" => VBool false
  | TySlice _ => VList []
  | _ => VNil
  end.

(** ** The identifiers of a piece of syntax *)

Fixpoint uses (x : texpr) : list string :=
  match x with
  | XVar x => [x]
  | XInt _ | XStr _ | XTy _ => []
  | XBin _ a b | XIndex a b => uses a ++ uses b
  | XUn _ a | XSel a _ => uses a
  | XSlice a lo hi =>
      uses a ++ match lo with Some x => uses x | None => [] end ++ match hi with Some x => uses x | None => [] end
  | XCall f l => uses f ++ flat_map uses l
  | XLit _ l => flat_map (fun p => match fst p with Some x => uses x | None => [] end ++ uses (snd p)) l
  | XFunc _ _ b => flat_map uses_s b
  end%list
with uses_s (s : tstmt) : list string :=
  match s with
  | YExpr e | YDefer e => uses e
  | YAssign ls r => flat_map uses ls ++ uses r
  | YDefine _ r => uses r
  | YVar _ _ | YContinue => []
  | YStep x _ => [x]
  | YIf c a b => uses c ++ flat_map uses_s a ++ flat_map uses_s b
  | YFor i c p b => uses_s i ++ uses c ++ uses_s p ++ flat_map uses_s b
  | YRange _ _ e b => uses e ++ flat_map uses_s b
  | YSwitch e l => uses e ++ flat_map (fun c => flat_map uses (fst c) ++ flat_map uses_s (snd c)) l
  | YReturn r => match r with Some e => uses e | None => [] end
  end%list.

Definition among (x : string) (l : list string) : bool := existsb (String.eqb x) l.
(** The variables in sight that [body] mentions, with their values; the innermost
    one of a name comes first. *)
Definition capture (body : list tstmt) (e : env) : frame :=
  let used := flat_map uses_s body in
  filter (fun p => among (fst p) used) (List.concat (scopes e) ++ captured e)%list.

(** No pointers in it. *)
Fixpoint no_pointer (v : val) : bool :=
  match v with
  | VRef _ => false
  | VList l | VTup l => forallb no_pointer l
  | VFun _ _ _ c => forallb (fun p => no_pointer (snd p)) c
  | VMeth v _ => no_pointer v
  | _ => true
  end.

(** ** Operators *)

Definition equal (a b : val) : option bool :=
  match a, b with
  | VStr x, VStr y => Some (x =? y)
  | VInt x, VInt y => Some (Z.eqb x y)
  | VNil, VNil => Some true
  | VErr _, VNil | VNil, VErr _ | VRef _, VNil | VNil, VRef _ => Some false
  | _, _ => None
  end.
Definition binary (op : string) (a b : val) : option val :=
  if op =? "==" then option_map VBool (equal a b)
  else if op =? "!=" then option_map (fun c => VBool (negb c)) (equal a b)
  else match a, b with
  | VInt x, VInt y =>
      if op =? "+" then Some (VInt (x + y))
      else if op =? "-" then Some (VInt (x - y))
      else if op =? "*" then Some (VInt (x * y))
      else if op =? "/" then if Z.eqb y 0 then None else Some (VInt (Z.quot x y))
      else if op =? "<" then Some (VBool (Z.ltb x y))
      else if op =? ">" then Some (VBool (Z.ltb y x))
      else None
  | VFlags x, VFlags y => if op =? "|" then Some (VFlags (x ++ y)) else None
  | _, _ => None
  end.
Definition index (s : st) (a i : val) : option val :=
  match a, i with
  | VList l, VInt z => if Z.ltb z 0 then None else nth_error l (Z.to_nat z)
  | VRef r, VStr x =>
      match deref r s with
      | Some (OMap zero m) => Some (match assoc x m with Some v => v | None => zero end)
      | _ => None
      end
  | _, _ => None
  end.
Definition slice_from (a i : val) : option val :=
  match a, i with
  | VList l, VInt z =>
      if Z.ltb z 0 || Z.ltb (Z.of_nat (List.length l)) z then None else Some (VList (skipn (Z.to_nat z) l))
  | _, _ => None
  end.

(** The strings in a slice of strings. *)
Fixpoint strings (l : list val) : option (list string) :=
  match l with
  | [] => Some []
  | VStr s :: r => option_map (cons s) (strings r)
  | _ => None
  end.

(** [filepath.Ext]: from the last dot on. *)
Fixpoint ext (s : string) : string :=
  match s with
  | EmptyString => ""
  | String c r => if (ext r =? "") && Ascii.eqb c "." then s else ext r
  end.

(** ** jennifer

    A call such as [x.Id("b")] on a statement adds an item to it and returns it; on
    a group it makes a statement of that item in the group; [jen.Id("b")] makes a
    statement that is nowhere.  The tokens of the items are those of [Gen.v]. *)

Fixpoint refs (l : list val) : option (list nat) :=
  match l with
  | [] => Some []
  | VRef r :: l => option_map (cons r) (refs l)
  | _ => None
  end.
Definition jen_list (m : string) : option kind :=
  if m =? "Params" then Some KParams else if m =? "Call" then Some KCall
  else if m =? "Parens" then Some KParens else if m =? "Index" then Some KIndex
  else if m =? "If" then Some KIf else if m =? "Block" then Some KBlock
  else if m =? "Panic" then Some KPanic else if m =? "Len" then Some KLen else None.
Definition jen_item (m : string) (args : list val) : option item :=
  match args with
  | [VStr s] =>
      if (m =? "Id") || (m =? "Op") then Some (IToks (Id s))
      else if m =? "Dot" then Some (IToks (Dot s))
      else if m =? "Comment" then
        (* a comment that starts with // is put out as it is *)
        if starts_with "//" s then Some (IToks (snd (lex_lines false (lines_of s)))) else None
      else None
  | [VInt z] => if m =? "Lit" then Some (IToks (Lit z)) else None
  | [VBool b] => if m =? "Lit" then Some (IToks [TId (if b then "true" else "false")]) else None
  | _ =>
      match jen_list m, refs args with
      | Some k, Some l => Some (IList k l)
      | _, _ =>
          match args with
          | [] =>
              if m =? "Null" then Some (IToks [])
              else if m =? "Func" then Some (IToks Func) else if m =? "Var" then Some (IToks Var)
              else if m =? "Goto" then Some (IToks Goto) else if m =? "Return" then Some (IToks Return)
              else None
          | _ => None
          end
      end
  end.
(** [BlockFunc] and [CallFunc]: the items come from a function. *)
Definition jen_func (m : string) : option kind :=
  if m =? "BlockFunc" then Some KBlock else if m =? "CallFunc" then Some KCall else None.

Definition toks_of (k : kind) (l : list (list tok)) : option (list tok) :=
  match k, l with
  | KParams, _ => Some (Params l)
  | KCall, _ => Some (Call l)
  | KParens, [x] => Some (Parens x)
  | KIndex, [] => Some (Index [])
  | KIndex, [x] => Some (Index x)
  | KIf, [x] => Some (If x)
  | KBlock, _ => Some (Block l)
  | KPanic, [x] => Some (Panic x)
  | KLen, [x] => Some (Len x)
  | _, _ => None
  end.

Section Mapped.
Context {A B : Type} (f : A -> option B).
Fixpoint all_of (l : list A) : option (list B) :=
  match l with
  | [] => Some []
  | x :: r => match f x, all_of r with Some y, Some ys => Some (y :: ys) | _, _ => None end
  end.
End Mapped.

(** The tokens of a statement. *)
Fixpoint stmt_toks (n : nat) (h : list obj) (r : nat) : option (list tok) :=
  match n with
  | O => None
  | S n =>
      match nth_error h r with
      | Some (OStmt its) =>
          option_map (@List.concat tok) (all_of (fun it =>
            match it with
            | IToks l => Some l
            | IList k l => match all_of (stmt_toks n h) l with Some ts => toks_of k ts | None => None end
            | IGroup k g =>
                match nth_error h g with
                | Some (OGroup l) => match all_of (stmt_toks n h) l with Some ts => toks_of k ts | None => None end
                | _ => None
                end
            end) its)
      | _ => None
      end
  end.
(** The tokens of a group that is a file of its own. *)
Definition group_toks (h : list obj) (g : nat) : option (list tok) :=
  match nth_error h g with
  | Some (OGroup l) => option_map Render (all_of (stmt_toks (List.length h) h) l)
  | _ => None
  end.

(** ** Files *)

(** [t] written over [old] from [pos] on. *)
Definition overwrite_at (pos : nat) (old t : string) : string :=
  substring 0 pos old ++ overwrite (substring pos (String.length old - pos) old) t.
Definition set_file (d : dir) (name t : string) : dir := fun x => if x =? name then Some t else d x.

(** ** The interpreter *)

Inductive out : Type :=
| ONext (e : env)
| OContinue (e : env)
| OReturn (v : option val) (e : env).
Definition out_pop (o : out) : out :=
  match o with
  | ONext e => ONext (pop e)
  | OContinue e => OContinue (pop e)
  | OReturn v e => OReturn v (pop e)
  end.

Section Run.
Variable W : world.
Variable packages : list string.
Variable decls : list tdecl.

Definition answer : Type := option (val * st).

Fixpoint find_func (x : string) (l : list tdecl) : option val :=
  match l with
  | [] => None
  | TDFunc f ps rs b :: r => if x =? f then Some (VFun ps rs b []) else find_func x r
  | _ :: r => find_func x r
  end.
Definition local (x : string) (e : env) : option val :=
  match find_var x (scopes e) with
  | Some v => Some v
  | None => assoc x (captured e)
  end.
Definition variable (x : string) (e : env) (s : st) : option val :=
  match local x e with
  | Some v => Some v
  | None => match assoc x (globals s) with
            | Some v => Some v
            | None =>
                match find_func x decls with
                | Some v => Some v
                | None => if x =? "nil" then Some VNil
                          else if x =? "true" then Some (VBool true)
                          else if x =? "false" then Some (VBool false) else None
                end
            end
  end.

(** A function of a package. *)
Definition pkg_name (p f : string) : string := p ++ "." ++ f.
Definition package_value (p f : string) : val :=
  if (p =? "os") && ((f =? "O_RDWR") || (f =? "O_CREATE") || (f =? "O_TRUNC") || (f =? "O_APPEND"))
  then VFlags [f] else VPrim (pkg_name p f).

Definition prim (p : string) (args : list val) (s : st) (k : val -> st -> answer) : answer :=
  if (p =? "fmt.Println") || (p =? "fmt.Printf") then k VNil s
  else match args with
  | [] =>
      if p =? "flag.Parse" then
        k VNil (fold_left (fun s f => match cmdline W (fst f) with
                                      | Some v => store (snd f) (OCell (VStr v)) s
                                      | None => s
                                      end) (flags s) s)
      else match strip_prefix "jen." p with
           | Some m => match jen_item m [] with
                       | Some it => let '(r, s) := alloc (OStmt [it]) s in k (VRef r) s
                       | None => None
                       end
           | None => None
           end
  | _ =>
      match strip_prefix "jen." p with
      | Some m => match jen_item m args with
                  | Some it => let '(r, s) := alloc (OStmt [it]) s in k (VRef r) s
                  | None => None
                  end
      | None =>
          match args with
          | [VStr x] =>
              if p =? "regexp.MustCompile" then match compile x with Some r => k (VRe r) s | None => None end
              else if p =? "strconv.Atoi" then
                if is_number x then k (VTup [VInt (number x); VNil]) s else k (VTup [VInt 0; VErr "Atoi"]) s
              else if p =? "bytes.NewBuffer" then let '(r, s) := alloc (OBuf x) s in k (VRef r) s
              else if p =? "filepath.Ext" then k (VStr (ext x)) s
              else if p =? "filepath.Abs" then
                match abs_path W x with
                | Some y => k (VTup [VStr y; VNil]) s
                | None => k (VTup [VStr ""; VErr "Abs"]) s
                end
              else if p =? "os.Open" then
                if inside s then
                  match disk s x with
                  | Some _ => if fails W "Open" x then k (VTup [VNil; VErr "Open"]) s
                              else let '(r, s) := alloc (OFile x 0) s in k (VTup [VRef r; VNil]) s
                  | None => k (VTup [VNil; VErr "Open"]) s
                  end
                else if fails W "Open" x then k (VTup [VNil; VErr "Open"]) s
                else let '(r, s) := alloc ODir s in k (VTup [VRef r; VNil]) s
              else None
          | [VStr x; VStr y] =>
              if p =? "fmt.Sprint" then k (VStr (x ++ y)) s
              else if p =? "strings.HasPrefix" then k (VBool (starts_with y x)) s
              else if p =? "strings.TrimPrefix" then k (VStr (trim_prefix y x)) s
              else if p =? "strings.TrimSuffix" then k (VStr (trim_suffix y x)) s
              else None
          | [VStr x; VErr y] => if p =? "fmt.Sprint" then k (VStr (x ++ y)) s else None
          | [VList l; VStr sep] =>
              if p =? "strings.Join" then
                match strings l with Some l => k (VStr (String.concat sep l)) s | None => None end
              else None
          | [VStr f; VStr d; VStr _] =>
              if p =? "flag.String" then
                let '(r, s) := alloc (OCell (VStr d)) s in
                k (VRef r) (mkSt (heap s) (globals s) ((f, r) :: flags s) (inside s) (disk s) (walks s))
              else None
          | [VRef r] =>
              if p =? "ioutil.ReadAll" then
                match deref r s with
                | Some (OFile x _) =>
                    if fails W "ReadAll" x then k (VTup [VStr (read_before W x); VErr "ReadAll"]) s
                    else k (VTup [VStr (content (disk s) x); VNil]) s
                | _ => None
                end
              else None
          | [VStr x; VFlags l; VInt _] =>
              (* the file is made if it is not there; its permissions are not modelled *)
              if (p =? "os.OpenFile") && inside s && among "O_RDWR" l && among "O_CREATE" l
                 && negb (among "O_APPEND" l) then
                if fails W "OpenFile" x then k (VTup [VNil; VErr "OpenFile"]) s
                else
                  let old := if among "O_TRUNC" l then "" else content (disk s) x in
                  let '(r, s) := alloc (OFile x 0) (set_disk (set_file (disk s) x old) s) in
                  k (VTup [VRef r; VNil]) s
              else None
          | _ => None
          end
      end
  end.

Definition in_group (g : nat) (l : list nat) (it : item) (s : st) (k : val -> st -> answer) : answer :=
  let '(r, s) := alloc (OStmt [it]) s in k (VRef r) (store g (OGroup (l ++ [r])%list) s).

(** The methods that call no function. *)
Definition method (v : val) (m : string) (args : list val) (s : st) (k : val -> st -> answer) : answer :=
  match v with
  | VRe p =>
      match args with
      | [VStr x; VInt z] =>
          if (m =? "FindAllStringSubmatch") && Z.ltb z 0
          then k (VList (map (fun g => VList (map VStr g)) (submatches (segs p x)))) s else None
      | _ => None
      end
  | VInfo name d =>
      if m =? "Name" then k (VStr name) s else if m =? "IsDir" then k (VBool d) s else None
  | VRef r =>
      match deref r s with
      | Some (OStmt its) =>
          match jen_item m args with
          | Some it => k (VRef r) (store r (OStmt (its ++ [it])%list) s)
          | None => None
          end
      | Some (OGroup l) =>
          if m =? "Render" then
            match args with
            | [VRef b] =>
                match deref b s, group_toks (heap s) r with
                | Some (OBuf x), Some ts =>
                    match layout W ts with
                    | Some t => k VNil (store b (OBuf (x ++ t)) s)
                    | None => k (VErr "Render") s
                    end
                | _, _ => None
                end
            | _ => None
            end
          else match jen_item m args with
               | Some it => in_group r l it s k
               | None => None
               end
      | Some (OBuf x) =>
          match args with
          | [VStr t] =>
              if m =? "Write" then
                k (VTup [VInt (Z.of_nat (String.length t)); VNil]) (store r (OBuf (x ++ t)) s) else None
          | [] => if m =? "Bytes" then k (VStr x) s else None
          | _ => None
          end
      | Some ODir =>
          if m =? "Close" then k VNil s
          else if m =? "Stat" then
            if fails W "Stat" "." then k (VTup [VNil; VErr "Stat"]) s
            else k (VTup [VInfo "." (is_directory W); VNil]) s
          else if m =? "Chdir" then k VNil (mkSt (heap s) (globals s) (flags s) true (disk s) (walks s))
          else if m =? "Readdir" then
            k (VTup [VList (map (fun p => VInfo (fst p) (snd p)) (listing W));
                     if fails W "Readdir" "." then VErr "Readdir" else VNil]) s
          else None
      | Some (OFile x pos) =>
          if m =? "Close" then k VNil s
          else if m =? "Write" then
            match args with
            | [VStr t] =>
                let failed := fails W "Write" x in
                let t := if failed then substring 0 (written_before W x) t else t in
                let n := String.length t in
                k (VTup [VInt (Z.of_nat n); if failed then VErr "Write" else VNil])
                  (store r (OFile x (pos + n)) (set_disk (set_file (disk s) x (overwrite_at pos (content (disk s) x) t)) s))
            | _ => None
            end
          else None
      | _ => None
      end
  | _ => None
  end.

Section Lists.
Variable ev : texpr -> st -> (val -> st -> answer) -> answer.
Fixpoint evals (l : list texpr) (s : st) (k : list val -> st -> answer) : answer :=
  match l with
  | [] => k [] s
  | x :: r => ev x s (fun v s => evals r s (fun vs s => k (v :: vs) s))
  end.
(** The entries of a map literal; the keys are strings. *)
Fixpoint entries (l : list (option texpr * texpr)) (s : st) (k : list (string * val) -> st -> answer) : answer :=
  match l with
  | [] => k [] s
  | (Some x, y) :: r =>
      ev x s (fun v s => ev y s (fun w s =>
        match v with VStr key => entries r s (fun m s => k ((key, w) :: m) s) | _ => None end))
  | (None, _) :: _ => None
  end.
End Lists.

(** Statements one after the other. *)
Section Stmts.
Variable ex : tstmt -> env -> st -> (out -> st -> answer) -> answer.
Fixpoint execs (l : list tstmt) (e : env) (s : st) (k : out -> st -> answer) : answer :=
  match l with
  | [] => k (ONext e) s
  | x :: r => ex x e s (fun o s => match o with ONext e => execs r e s k | _ => k o s end)
  end.
(** In a scope of their own. *)
Definition block (f : frame) (l : list tstmt) (e : env) (s : st) (k : out -> st -> answer) : answer :=
  execs l (push f e) s (fun o s => k (out_pop o) s).
End Stmts.

(** One run of [f] for each element. *)
Section Each.
Context {A : Type} (f : A -> env -> st -> (out -> st -> answer) -> answer).
Fixpoint each (l : list A) (e : env) (s : st) (k : out -> st -> answer) : answer :=
  match l with
  | [] => k (ONext e) s
  | x :: r =>
      f x e s (fun o s => match o with
                          | ONext e | OContinue e => each r e s k
                          | OReturn _ _ => k o s
                          end)
  end.
End Each.

(** The text with every match replaced by what [f] makes of it. *)
Section Replaced.
Variable f : string -> st -> (string -> st -> answer) -> answer.
Fixpoint replaced (l : list seg) (s : st) (k : string -> st -> answer) : answer :=
  match l with
  | [] => k "" s
  | Plain c :: r => replaced r s (fun t s => k (String c t) s)
  | Match m _ :: r => f m s (fun u s => replaced r s (fun t s => k (u ++ t) s))
  end.
End Replaced.

(** Variables for the values of a right side. *)
Fixpoint define_all (xs : list string) (vs : list val) (e : env) : option env :=
  match xs, vs with
  | [], [] => Some e
  | x :: xs, v :: vs => match define_var x v e with Some e => define_all xs vs e | None => None end
  | _, _ => None
  end.
Definition values (n : nat) (v : val) : option (list val) :=
  match n, v with
  | 1, _ => Some [v]
  | _, VTup l => if Nat.eqb (List.length l) n then Some l else None
  | _, _ => None
  end.

Fixpoint eval (n : nat) (e : env) (x : texpr) (s : st) (k : val -> st -> answer) {struct n} : answer :=
  match n with
  | O => None
  | S n =>
      match x with
      | XVar x => match variable x e s with Some v => k v s | None => None end
      | XInt z => k (VInt z) s
      | XStr t => k (VStr t) s
      | XBin op a b =>
          if op =? "&&" then
            eval n e a s (fun v s => match v with
                                     | VBool true => eval n e b s k
                                     | VBool false => k (VBool false) s
                                     | _ => None
                                     end)
          else if op =? "||" then
            eval n e a s (fun v s => match v with
                                     | VBool true => k (VBool true) s
                                     | VBool false => eval n e b s k
                                     | _ => None
                                     end)
          else eval n e a s (fun v s => eval n e b s (fun w s =>
                 match binary op v w with Some u => k u s | None => None end))
      | XUn op a =>
          if op =? "!" then eval n e a s (fun v s => match v with VBool b => k (VBool (negb b)) s | _ => None end)
          else if op =? "-" then eval n e a s (fun v s => match v with VInt z => k (VInt (- z)) s | _ => None end)
          else if op =? "*" then
            eval n e a s (fun v s => match v with
                                     | VRef r => match deref r s with Some (OCell v) => k v s | _ => None end
                                     | _ => None
                                     end)
          else if op =? "&" then
            match a with
            | XLit (TyQual "jen" "Group") [] => let '(r, s) := alloc (OGroup []) s in k (VRef r) s
            | _ => None
            end
          else None
      | XSel a f =>
          let meth := eval n e a s (fun v s => k (VMeth v f) s) in
          match a with
          | XVar p =>
              match variable p e s with
              | Some _ => meth
              | None => if among p packages then k (package_value p f) s else None
              end
          | _ => meth
          end
      | XIndex a i =>
          eval n e a s (fun v s => eval n e i s (fun w s =>
            match index s v w with Some u => k u s | None => None end))
      | XSlice a (Some i) None =>
          eval n e a s (fun v s => eval n e i s (fun w s =>
            match slice_from v w with Some u => k u s | None => None end))
      | XSlice _ _ _ => None
      | XCall (XTy (TySlice (TyName "byte"))) [a] | XCall (XVar "string") [a] =>
          eval n e a s (fun v s => match v with VStr _ => k v s | _ => None end)
      | XCall f l => eval n e f s (fun v s => evals (eval n e) l s (fun vs s => apply n v vs s k))
      | XLit (TySlice (TyName "byte")) l => match l with [] => k (VStr "") s | _ => None end
      | XLit (TySlice _) l =>
          evals (eval n e) (map snd l) s (fun vs s => k (VList vs) s)
      | XLit (TyMap (TyName "string") t) l =>
          entries (eval n e) l s (fun m s => let '(r, s) := alloc (OMap (zero t) m) s in k (VRef r) s)
      | XLit _ _ | XTy _ => None
      | XFunc ps rs b => k (VFun ps rs b (capture b e)) s
      end
  end
with apply (n : nat) (f : val) (args : list val) (s : st) (k : val -> st -> answer) {struct n} : answer :=
  match n with
  | O => None
  | S n =>
      match f with
      | VFun ps rs body cap =>
          if Nat.eqb (List.length ps) (List.length args) then
            let params := combine (map fst ps) args in
            let named := filter (fun p => negb (fst p =? "")) rs in
            execs (exec n) body (mkEnv [params ++ map (fun p => (fst p, zero (snd p))) named]%list cap) s
              (fun o s =>
                 match o with
                 | OReturn (Some v) _ => k v s
                 | OReturn None e | ONext e =>
                     if Nat.eqb (List.length named) (List.length rs) then
                       match all_of (fun p => find_var (fst p) (scopes e)) rs with
                       | Some vs => k (VTup vs) s
                       | None => None
                       end
                     else None
                 | OContinue _ => None
                 end)
          else None
      | VPrim p => prim p args s k
      | VMeth v m =>
          match v, args with
          | VRe p, [VStr x; g] =>
              if m =? "ReplaceAllFunc" then
                if no_pointer g then
                  replaced (fun t s k =>
                      apply n g [VStr t] (set_heap [] s) (fun u s' =>
                        match u with VStr u => k u (set_heap (heap s) s') | _ => None end))
                    (segs p x) s (fun t s => k (VStr t) s)
                else None
              else method v m args s k
          | VRef r, [g] =>
              match jen_func m with
              | Some kd =>
                  let '(gr, s) := alloc (OGroup []) s in
                  apply n g [VRef gr] s (fun _ s =>
                    match deref r s with
                    | Some (OStmt its) => k (VRef r) (store r (OStmt (its ++ [IGroup kd gr])%list) s)
                    | Some (OGroup l) => in_group r l (IGroup kd gr) s k
                    | _ => None
                    end)
              | None => method v m args s k
              end
          | _, _ => method v m args s k
          end
      | _ => None
      end
  end
with assign (n : nat) (ls : list texpr) (vs : list val) (e : env) (s : st) (k : env -> st -> answer) {struct n} : answer :=
  match n with
  | O => None
  | S n =>
      match ls, vs with
      | [], [] => k e s
      | l :: ls, v :: vs =>
          match l with
          | XVar x =>
              match assign_var x v e s with Some (e, s) => assign n ls vs e s k | None => None end
          | XUn "*" a =>
              eval n e a s (fun p s =>
                match p with
                | VRef r => match deref r s with
                            | Some (OCell _) => assign n ls vs e (store r (OCell v) s) k
                            | _ => None
                            end
                | _ => None
                end)
          | XIndex a i =>
              eval n e a s (fun p s => eval n e i s (fun w s =>
                match p, w with
                | VRef r, VStr x =>
                    match deref r s with
                    | Some (OMap z m) => assign n ls vs e (store r (OMap z (map_set x v m)) s) k
                    | _ => None
                    end
                | _, _ => None
                end))
          | _ => None
          end
      | _, _ => None
      end
  end
with exec (n : nat) (x : tstmt) (e : env) (s : st) (k : out -> st -> answer) {struct n} : answer :=
  match n with
  | O => None
  | S n =>
      match x with
      | YExpr a => eval n e a s (fun _ s => k (ONext e) s)
      | YAssign ls r =>
          eval n e r s (fun v s =>
            match values (List.length ls) v with
            | Some vs => assign n ls vs e s (fun e s => k (ONext e) s)
            | None => None
            end)
      | YDefine xs r =>
          eval n e r s (fun v s =>
            match values (List.length xs) v with
            | Some vs => match define_all xs vs e with Some e => k (ONext e) s | None => None end
            | None => None
            end)
      | YVar x t => match declare x (zero t) e with Some e => k (ONext e) s | None => None end
      | YStep x up =>
          match variable x e s with
          | Some (VInt z) =>
              match assign_var x (VInt (if up then z + 1 else z - 1)) e s with
              | Some (e, s) => k (ONext e) s
              | None => None
              end
          | _ => None
          end
      | YIf c a b =>
          eval n e c s (fun v s => match v with
                                   | VBool true => block (exec n) [] a e s k
                                   | VBool false => block (exec n) [] b e s k
                                   | _ => None
                                   end)
      | YFor i c p b =>
          exec n i (push [] e) s (fun o s =>
            match o with ONext e => loop n c p b e s (fun o s => k (out_pop o) s) | _ => None end)
      | YRange x y a b =>
          eval n e a s (fun v s =>
            match v with
            | VList l =>
                each (fun p e s k =>
                        block (fun x => exec n x) ((if x =? "_" then [] else [(x, VInt (Z.of_nat (fst p)))])
                                     ++ (if y =? "_" then [] else [(y, snd p)]))%list b e s k)
                  (combine (seq 0 (List.length l)) l) e s k
            | VRef r =>
                match deref r s with
                | Some (OMap _ m) =>
                    let names := order W (walks s) (map fst m) in
                    each (fun nm e s k =>
                            match deref r s with
                            | Some (OMap z m) =>
                                block (fun x => exec n x)
                                  ((if x =? "_" then [] else [(x, VStr nm)])
                                   ++ (if y =? "_" then []
                                       else [(y, match assoc nm m with Some v => v | None => z end)]))%list
                                  b e s k
                            | _ => None
                            end)
                      names e (mkSt (heap s) (globals s) (flags s) (inside s) (disk s) (S (walks s))) k
                | _ => None
                end
            | _ => None
            end)
      | YSwitch a cs =>
          eval n e a s (fun v s => cases n v cs e s k)
      | YReturn None => k (OReturn None e) s
      | YReturn (Some a) => eval n e a s (fun v s => k (OReturn (Some v) e) s)
      | YContinue => k (OContinue e) s
      | YDefer a =>
          (* only [x.Close()], which changes nothing that is modelled *)
          match a with XCall (XSel b "Close") [] => eval n e b s (fun _ s => k (ONext e) s) | _ => None end
      end
  end
with loop (n : nat) (c : texpr) (p : tstmt) (b : list tstmt) (e : env) (s : st) (k : out -> st -> answer) {struct n} : answer :=
  match n with
  | O => None
  | S n =>
      eval n e c s (fun v s =>
        match v with
        | VBool true =>
            block (exec n) [] b e s (fun o s =>
              match o with
              | ONext e | OContinue e =>
                  exec n p e s (fun o s => match o with ONext e => loop n c p b e s k | _ => None end)
              | OReturn _ _ => k o s
              end)
        | VBool false => k (ONext e) s
        | _ => None
        end)
  end
with cases (n : nat) (v : val) (cs : list (list texpr * list tstmt)) (e : env) (s : st) (k : out -> st -> answer) {struct n} : answer :=
  match n with
  | O => None
  | S n =>
      match cs with
      | [] => k (ONext e) s
      | ([], b) :: _ => block (exec n) [] b e s k      (* default, the last case *)
      | (x :: _, b) :: r =>
          eval n e x s (fun w s =>
            match equal v w with
            | Some true => block (exec n) [] b e s k
            | Some false => cases n v r e s k
            | None => None
            end)
      end
  end.
End Run.

(** ** Captured variables are not assigned

    The function literals in a piece of syntax, what it declares and what it
    assigns to. *)
Fixpoint funcs (x : texpr) : list (list (string * ttype) * list (string * ttype) * list tstmt) :=
  match x with
  | XVar _ | XInt _ | XStr _ | XTy _ => []
  | XBin _ a b | XIndex a b => funcs a ++ funcs b
  | XUn _ a | XSel a _ => funcs a
  | XSlice a lo hi =>
      funcs a ++ match lo with Some x => funcs x | None => [] end ++ match hi with Some x => funcs x | None => [] end
  | XCall f l => funcs f ++ flat_map funcs l
  | XLit _ l => flat_map (fun p => match fst p with Some x => funcs x | None => [] end ++ funcs (snd p)) l
  | XFunc ps rs b => (ps, rs, b) :: flat_map funcs_s b
  end%list
with funcs_s (s : tstmt) : list (list (string * ttype) * list (string * ttype) * list tstmt) :=
  match s with
  | YExpr e | YDefer e => funcs e
  | YAssign ls r => flat_map funcs ls ++ funcs r
  | YDefine _ r => funcs r
  | YVar _ _ | YContinue | YStep _ _ => []
  | YIf c a b => funcs c ++ flat_map funcs_s a ++ flat_map funcs_s b
  | YFor i c p b => funcs_s i ++ funcs c ++ funcs_s p ++ flat_map funcs_s b
  | YRange _ _ e b => funcs e ++ flat_map funcs_s b
  | YSwitch e l => funcs e ++ flat_map (fun c => flat_map funcs (fst c) ++ flat_map funcs_s (snd c)) l
  | YReturn r => match r with Some e => funcs e | None => [] end
  end%list.

Fixpoint declares (s : tstmt) : list string :=
  match s with
  | YDefine xs _ => xs
  | YVar x _ => [x]
  | YIf _ a b => flat_map declares a ++ flat_map declares b
  | YFor i _ p b => declares i ++ declares p ++ flat_map declares b
  | YRange x y _ b => x :: y :: flat_map declares b
  | YSwitch _ l => flat_map (fun c => flat_map declares (snd c)) l
  | _ => []
  end%list.
Fixpoint assigns (s : tstmt) : list string :=
  match s with
  | YAssign ls _ => flat_map (fun l => match l with XVar x => if x =? "_" then [] else [x] | _ => [] end) ls
  | YStep x _ => [x]
  | YIf _ a b => flat_map assigns a ++ flat_map assigns b
  | YFor i _ p b => assigns i ++ assigns p ++ flat_map assigns b
  | YRange _ _ _ b => flat_map assigns b
  | YSwitch _ l => flat_map (fun c => flat_map assigns (snd c)) l
  | _ => []
  end%list.

(** No function literal mentions a variable from outside of it that is assigned to
    anywhere, in a function literal or outside (a variable declared a second time
    in its scope by [:=] counts as assigned when both are outside). *)
Definition no_late_assignment (ds : list tdecl) : bool :=
  forallb (fun d =>
    match d with
    | TDVar _ _ => true
    | TDFunc _ _ _ b =>
        let fs := flat_map funcs_s b in
        let assigned := (flat_map assigns b ++ flat_map (fun f => flat_map assigns (snd f)) fs)%list in
        forallb (fun f =>
          let own := flat_map (fun g => let '(ps, rs, body) := g in
                                        map fst ps ++ map fst rs ++ flat_map declares body)%list
                       (f :: flat_map funcs_s (snd f)) in
          forallb (fun x => among x own || negb (among x assigned)) (flat_map uses_s (snd f))) fs
    end) ds.
