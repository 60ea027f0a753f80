(** * GoParse: the syntax of the Go subset crunch is written in, and a parser
    from the tokens of GoLex to it.

    The grammar is the one of the Go specification, restricted to the
    constructs that occur in v1, v2 and v3 (no closures, channels, maps, labels
    with break/continue, multiple assignment, ...).  A construct outside the
    subset makes the parser fail. *)
From Coq Require Import ZArith List Bool String.
From Verif Require Import GoLex.
Import ListNotations.
Open Scope string_scope.

(** ** Syntax trees *)

Inductive gotype : Set :=
| GNamed (s : string)            (* int64, byte, Buffer *)
| GQual (p s : string)           (* sync.Mutex *)
| GPtr (t : gotype)              (* *T *)
| GSlice (t : gotype)            (* []T *)
| GIface                         (* interface{} *)
| GVariadic (t : gotype).        (* ...T, in parameters *)

Inductive gexpr : Set :=
| EVar (x : string)
| EInt (z : Z)
| EFloat (m : Z) (e : nat)                             (* m / 10^e *)
| EStr (s : string)
| EBin (op : string) (a b : gexpr)
| EUn (op : string) (a : gexpr)
| ESel (a : gexpr) (f : string)                        (* a.f *)
| EIndex (a i : gexpr)                                 (* a[i] *)
| ESlice (a : gexpr) (lo hi : option gexpr)            (* a[lo:hi] *)
| ECall (f : gexpr) (args : list gexpr) (spread : bool) (* f(args...) *)
| EComp (t : gotype) (elts : list (string * gexpr))    (* T{k: v, v} *)
| ETy (t : gotype)                                     (* a type as an operand *)
| EAssert (a : gexpr) (t : gotype).                    (* a.(T) *)

Inductive gstmt : Set :=
| SExpr (e : gexpr)
| SAssign (l : gexpr) (op : string) (r : gexpr)        (* op: "=", "+=", ... *)
| SDefine (x : string) (e : gexpr)                     (* x := e *)
| SVar (x : string) (t : option gotype) (e : option gexpr)
| SIncDec (e : gexpr) (op : string)
| SIf (c : gexpr) (th el : list gstmt)
| SGoto (l : string)
| SLabel (l : string)
| SBlock (b : list gstmt)
| SReturn (e : option gexpr)
| SSwitch (e : gexpr) (cases : list (list gexpr * list gstmt)) (* no expressions: default *)
| SBreak
| SDefer (e : gexpr)
| SFor (init : gstmt) (c : gexpr) (post : gstmt) (b : list gstmt)
| SRange (k v : string) (e : gexpr) (b : list gstmt).  (* "" or "_": absent *)

Record gfunc : Set := mkFunc {
  f_recv : option (string * gotype);
  f_name : string;
  f_params : list (string * gotype);
  f_results : list (string * gotype);   (* "" when unnamed *)
  f_body : list gstmt }.

Inductive gdecl : Set :=
| DFunc (f : gfunc)
| DStruct (name : string) (fields : list (string * gotype)) (* "" : embedded *)
| DDefined (name : string) (t : gotype)
| DVar (x : string) (t : option gotype) (e : option gexpr)  (* var and const *)
| DPackage (x : string)
| DImport (specs : list (string * string)).                 (* name ("": none) and path *)

(** ** Parser *)

Definition pres (A : Type) : Type := option (A * list tok).

Notation "'do' ( x , t ) <- p ; q" := (match p with Some (x, t) => q | None => None end)
  (at level 200, x name, t name, p at level 100, q at level 200).

(** Consume one operator or keyword. *)
Definition op (s : string) (t : list tok) : pres unit :=
  match t with TOp x :: r => if x =? s then Some (tt, r) else None | _ => None end.
Definition kw (s : string) (t : list tok) : pres unit :=
  match t with TId x :: r => if x =? s then Some (tt, r) else None | _ => None end.
Definition is_op (s : string) (t : list tok) : bool :=
  match t with TOp x :: _ => x =? s | _ => false end.
Definition is_kw (s : string) (t : list tok) : bool :=
  match t with TId x :: _ => x =? s | _ => false end.
Definition ident (t : list tok) : pres string :=
  match t with TId x :: r => Some (x, r) | _ => None end.
Definition skip (s : string) (t : list tok) : list tok :=
  if is_op s t then tl t else t.
Fixpoint skip_semis (t : list tok) : list tok :=
  match t with TOp x :: r => if x =? ";" then skip_semis r else t | _ => t end.

Fixpoint p_type (n : nat) (t : list tok) : pres gotype :=
  match n with
  | O => None
  | S n =>
      match t with
      | TOp "*" :: r => do (x, r) <- p_type n r; Some (GPtr x, r)
      | TOp "[" :: TOp "]" :: r => do (x, r) <- p_type n r; Some (GSlice x, r)
      | TOp "..." :: r => do (x, r) <- p_type n r; Some (GVariadic x, r)
      | TId "interface" :: TOp "{" :: TOp "}" :: r => Some (GIface, r)
      | TId p :: TOp "." :: TId x :: r => Some (GQual p x, r)
      | TId x :: r => Some (GNamed x, r)
      | _ => None
      end
  end.

(** Precedence of the binary operators (Go specification, "Operator precedence"). *)
Definition prec (s : string) : nat :=
  if existsb (String.eqb s) ["*"; "/"; "%"; "<<"; ">>"; "&"; "&^"] then 5
  else if existsb (String.eqb s) ["+"; "-"; "|"; "^"] then 4
  else if existsb (String.eqb s) ["=="; "!="; "<"; "<="; ">"; ">="] then 3
  else if s =? "&&" then 2
  else if s =? "||" then 1
  else 0.
Definition is_unary (s : string) : bool :=
  existsb (String.eqb s) ["*"; "&"; "-"; "^"; "!"].

(** [cl]: composite literals of a plain type name are allowed here (they are not
    in the header of an [if], [for] or [switch]). *)
Fixpoint p_expr (n : nat) (cl : bool) (p : nat) (t : list tok) : pres gexpr :=
  match n with
  | O => None
  | S n => do (a, r) <- p_unary n cl t; p_binary n cl p a r
  end
(** Operators of precedence at least [p] after the left operand [a]. *)
with p_binary (n : nat) (cl : bool) (p : nat) (a : gexpr) (t : list tok) : pres gexpr :=
  match n with
  | O => None
  | S n =>
      match t with
      | TOp o :: r =>
          if Nat.leb p (prec o) && Nat.ltb 0 (prec o) then
            do (b, r) <- p_expr n cl (S (prec o)) r;
            p_binary n cl p (EBin o a b) r
          else Some (a, t)
      | _ => Some (a, t)
      end
  end
with p_unary (n : nat) (cl : bool) (t : list tok) : pres gexpr :=
  match n with
  | O => None
  | S n =>
      match t with
      | TOp o :: r =>
          if is_unary o then do (a, r) <- p_unary n cl r; Some (EUn o a, r)
          else do (a, r) <- p_operand n cl t; p_suffix n cl a r
      | _ => do (a, r) <- p_operand n cl t; p_suffix n cl a r
      end
  end
with p_operand (n : nat) (cl : bool) (t : list tok) : pres gexpr :=
  match n with
  | O => None
  | S n =>
      match t with
      | TInt z :: r => Some (EInt z, r)
      | TFloat m e :: r => Some (EFloat m e, r)
      | TStr s :: r => Some (EStr s, r)
      | TOp "(" :: r => do (a, r) <- p_expr n true 1 r; do (u, r) <- op ")" r; Some (a, r)
      | TOp "[" :: TOp "]" :: r =>
          do (x, r) <- p_type n r;
          match r with
          | TOp "{" :: r' => do (es, r') <- p_elts n r'; Some (EComp (GSlice x) es, r')
          | _ => Some (ETy (GSlice x), r)
          end
      | TId x :: r =>
          match r with
          | TOp "{" :: r' =>
              if cl then do (es, r') <- p_elts n r'; Some (EComp (GNamed x) es, r')
              else Some (EVar x, r)
          | _ => Some (EVar x, r)
          end
      | _ => None
      end
  end
(** Elements of a composite literal, up to the closing brace. *)
with p_elts (n : nat) (t : list tok) : pres (list (string * gexpr)) :=
  match n with
  | O => None
  | S n =>
      match t with
      | TOp "}" :: r => Some ([], r)
      | TId k :: TOp ":" :: r =>
          do (e, r) <- p_expr n true 1 r;
          do (es, r) <- p_elts n (skip "," r);
          Some ((k, e) :: es, r)
      | _ =>
          do (e, r) <- p_expr n true 1 t;
          do (es, r) <- p_elts n (skip "," r);
          Some (("", e) :: es, r)
      end
  end
with p_suffix (n : nat) (cl : bool) (a : gexpr) (t : list tok) : pres gexpr :=
  match n with
  | O => None
  | S n =>
      match t with
      | TOp "." :: TOp "(" :: r =>
          do (x, r) <- p_type n r; do (u, r) <- op ")" r; p_suffix n cl (EAssert a x) r
      | TOp "." :: TId f :: r => p_suffix n cl (ESel a f) r
      | TOp "(" :: r =>
          do (args, r) <- p_args n r;
          p_suffix n cl (ECall a (fst args) (snd args)) r
      | TOp "[" :: TOp ":" :: r =>
          do (hi, r) <- p_expr n true 1 r; do (u, r) <- op "]" r;
          p_suffix n cl (ESlice a None (Some hi)) r
      | TOp "[" :: r =>
          do (i, r) <- p_expr n true 1 r;
          match r with
          | TOp ":" :: TOp "]" :: r => p_suffix n cl (ESlice a (Some i) None) r
          | TOp ":" :: r =>
              do (hi, r) <- p_expr n true 1 r; do (u, r) <- op "]" r;
              p_suffix n cl (ESlice a (Some i) (Some hi)) r
          | _ => do (u, r) <- op "]" r; p_suffix n cl (EIndex a i) r
          end
      | _ => Some (a, t)
      end
  end
(** Call arguments up to the closing parenthesis; [true] when the last is spread. *)
with p_args (n : nat) (t : list tok) : pres (list gexpr * bool) :=
  match n with
  | O => None
  | S n =>
      match t with
      | TOp ")" :: r => Some (([], false), r)
      | _ =>
          do (e, r) <- p_expr n true 1 t;
          match r with
          | TOp "..." :: r => do (u, r) <- op ")" (skip "," r); Some (([e], true), r)
          | _ => do (es, r) <- p_args n (skip "," r); Some ((e :: fst es, snd es), r)
          end
      end
  end.

Definition assign_op (s : string) : bool :=
  existsb (String.eqb s) ["="; "+="; "-="; "*="; "/="; "%="; "&="; "|="; "^="; "<<="; ">>="].

Definition p_simple (n : nat) (cl : bool) (t : list tok) : pres gstmt :=
  match t with
  | TId x :: TOp ":=" :: r => do (e, r) <- p_expr n cl 1 r; Some (SDefine x e, r)
  | _ =>
      do (a, r) <- p_expr n cl 1 t;
      match r with
      | TOp o :: r' =>
          if assign_op o then do (e, r') <- p_expr n cl 1 r'; Some (SAssign a o e, r')
          else if (o =? "++") || (o =? "--") then Some (SIncDec a o, r')
          else Some (SExpr a, r)
      | _ => Some (SExpr a, r)
      end
  end.

(** [x T], [x = e] or [x T = e]: what follows [var] or [const]. *)
Definition p_var (n : nat) (t : list tok) : pres (string * option gotype * option gexpr) :=
  do (x, r) <- ident t;
  if is_op "=" r then do (e, r) <- p_expr n true 1 (tl r); Some ((x, None, Some e), r)
  else
    do (ty, r) <- p_type n r;
    if is_op "=" r then do (e, r) <- p_expr n true 1 (tl r); Some ((x, Some ty, Some e), r)
    else Some ((x, Some ty, None), r).

Fixpoint p_vars (n : nat) (t : list tok) : pres (list (string * option gotype * option gexpr)) :=
  match n with
  | O => None
  | S n =>
      let t := skip_semis t in
      match t with
      | TOp ")" :: r => Some ([], r)
      | _ => do (v, r) <- p_var n t; do (vs, r) <- p_vars n r; Some (v :: vs, r)
      end
  end.

(** Statements up to a closing brace (not consumed) or the next [case]. *)
Fixpoint p_stmts (n : nat) (t : list tok) : pres (list gstmt) :=
  match n with
  | O => None
  | S n =>
      let t := skip_semis t in
      match t with
      | TOp "}" :: _ | TId "case" :: _ | TId "default" :: _ => Some ([], t)
      | _ =>
          do (s, r) <- p_stmt n t;
          do (ss, r) <- p_stmts n r;
          Some (s ++ ss, r)%list
      end
  end
(** One statement; a [var (...)] group is several. *)
with p_stmt (n : nat) (t : list tok) : pres (list gstmt) :=
  match n with
  | O => None
  | S n =>
      match t with
      | TOp "{" :: _ => do (b, r) <- p_block n t; Some ([SBlock b], r)
      | TId "var" :: TOp "(" :: r =>
          do (vs, r) <- p_vars n r; Some (map (fun v => SVar (fst (fst v)) (snd (fst v)) (snd v)) vs, r)
      | TId "var" :: r =>
          do (v, r) <- p_var n r; Some ([SVar (fst (fst v)) (snd (fst v)) (snd v)], r)
      | TId "goto" :: TId l :: r => Some ([SGoto l], r)
      | TId "break" :: r => Some ([SBreak], r)
      | TId "return" :: r =>
          if is_op ";" r || is_op "}" r then Some ([SReturn None], r)
          else do (e, r) <- p_expr n true 1 r; Some ([SReturn (Some e)], r)
      | TId "defer" :: r => do (e, r) <- p_expr n true 1 r; Some ([SDefer e], r)
      | TId "if" :: r =>
          do (c, r) <- p_expr n false 1 r;
          do (th, r) <- p_block n r;
          if is_kw "else" r then do (el, r) <- p_block n (tl r); Some ([SIf c th el], r)
          else Some ([SIf c th []], r)
      | TId "switch" :: r =>
          do (e, r) <- p_expr n false 1 r;
          do (u, r) <- op "{" r;
          do (cs, r) <- p_cases n r;
          Some ([SSwitch e cs], r)
      | TId "for" :: TId k :: TOp ":=" :: TId "range" :: r =>
          do (e, r) <- p_expr n false 1 r;
          do (b, r) <- p_block n r;
          Some ([SRange k "" e b], r)
      | TId "for" :: TId k :: TOp "," :: TId v :: TOp ":=" :: TId "range" :: r =>
          do (e, r) <- p_expr n false 1 r;
          do (b, r) <- p_block n r;
          Some ([SRange k v e b], r)
      | TId "for" :: r =>
          do (i, r) <- p_simple n false r;
          do (u, r) <- op ";" r;
          do (c, r) <- p_expr n false 1 r;
          do (u, r) <- op ";" r;
          do (p, r) <- p_simple n false r;
          do (b, r) <- p_block n r;
          Some ([SFor i c p b], r)
      | TId l :: TOp ":" :: r => Some ([SLabel l], r)
      | _ => do (s, r) <- p_simple n true t; Some ([s], r)
      end
  end
with p_block (n : nat) (t : list tok) : pres (list gstmt) :=
  match n with
  | O => None
  | S n =>
      do (u, r) <- op "{" t;
      do (b, r) <- p_stmts n r;
      do (u, r) <- op "}" r;
      Some (b, r)
  end
with p_cases (n : nat) (t : list tok) : pres (list (list gexpr * list gstmt)) :=
  match n with
  | O => None
  | S n =>
      let t := skip_semis t in
      match t with
      | TOp "}" :: r => Some ([], r)
      | TId "case" :: r =>
          do (e, r) <- p_expr n true 1 r;
          do (u, r) <- op ":" r;
          do (b, r) <- p_stmts n r;
          do (cs, r) <- p_cases n r;
          Some (([e], b) :: cs, r)
      | TId "default" :: r =>
          do (u, r) <- op ":" r;
          do (b, r) <- p_stmts n r;
          do (cs, r) <- p_cases n r;
          Some (([], b) :: cs, r)
      | _ => None
      end
  end.

(** Parameters up to the closing parenthesis: names without a type take the one
    that follows ([off, n int64]). *)
Fixpoint p_params (n : nat) (t : list tok) : pres (list (string * option gotype)) :=
  match n with
  | O => None
  | S n =>
      match t with
      | TOp ")" :: r => Some ([], r)
      | TId x :: TOp "," :: r =>
          do (ps, r) <- p_params n r; Some ((x, None) :: ps, r)
      | TId x :: TOp ")" :: r => Some ([(x, None)], r)
      | _ =>
          do (x, r) <- ident t;
          do (ty, r) <- p_type n r;
          do (ps, r) <- p_params n (skip "," r);
          Some ((x, Some ty) :: ps, r)
      end
  end.
Fixpoint spread_types (ps : list (string * option gotype)) : option (list (string * gotype)) :=
  match ps with
  | [] => Some []
  | (x, Some t) :: r => match spread_types r with Some r => Some ((x, t) :: r) | None => None end
  | (x, None) :: r =>
      match spread_types r with Some ((y, t) :: r) => Some ((x, t) :: (y, t) :: r) | _ => None end
  end.
Definition p_plist (n : nat) (t : list tok) : pres (list (string * gotype)) :=
  do (u, r) <- op "(" t;
  do (ps, r) <- p_params n r;
  match spread_types ps with Some ps => Some (ps, r) | None => None end.

Definition p_results (n : nat) (t : list tok) : pres (list (string * gotype)) :=
  if is_op "{" t then Some ([], t)
  else if is_op "(" t then p_plist n t
  else do (x, r) <- p_type n t; Some ([("", x)], r).

Definition p_func (n : nat) (t : list tok) : pres gfunc :=
  do (recv, r) <- (if is_op "(" t then do (l, r) <- p_plist n t; Some (hd_error l, r) else Some (None, t));
  do (name, r) <- ident r;
  do (ps, r) <- p_plist n r;
  do (rs, r) <- p_results n r;
  do (b, r) <- p_block n r;
  Some (mkFunc recv name ps rs b, r).

(** Fields of a struct up to the closing brace. *)
Fixpoint p_fields (n : nat) (t : list tok) : pres (list (string * gotype)) :=
  match n with
  | O => None
  | S n =>
      let t := skip_semis t in
      match t with
      | TOp "}" :: r => Some ([], r)
      | TId p :: TOp "." :: TId x :: r =>
          do (fs, r) <- p_fields n r; Some (("", GQual p x) :: fs, r)
      | _ =>
          do (x, r) <- ident t;
          do (ty, r) <- p_type n r;
          do (fs, r) <- p_fields n r;
          Some ((x, ty) :: fs, r)
      end
  end.

Fixpoint p_imports (n : nat) (t : list tok) : pres (list (string * string)) :=
  match n with
  | O => None
  | S n =>
      match skip_semis t with
      | TOp ")" :: r => Some ([], r)
      | TStr s :: r => do (l, r) <- p_imports n r; Some (("", s) :: l, r)
      | TId x :: TStr s :: r => do (l, r) <- p_imports n r; Some ((x, s) :: l, r)
      | _ => None
      end
  end.

Definition fuel : nat := 400.

Definition p_decl (t : list tok) : pres (list gdecl) :=
  match t with
  | TId "package" :: TId x :: r => Some ([DPackage x], r)
  | TId "import" :: TStr s :: r => Some ([DImport [("", s)]], r)
  | TId "import" :: TOp "(" :: r => do (l, r) <- p_imports fuel r; Some ([DImport l], r)
  | TId "type" :: TId x :: TId "struct" :: TOp "{" :: r =>
      do (fs, r) <- p_fields fuel r; Some ([DStruct x fs], r)
  | TId "type" :: TId x :: r => do (ty, r) <- p_type fuel r; Some ([DDefined x ty], r)
  | TId "func" :: r => do (f, r) <- p_func fuel r; Some ([DFunc f], r)
  | TId "var" :: TOp "(" :: r | TId "const" :: TOp "(" :: r =>
      do (vs, r) <- p_vars fuel r; Some (map (fun v => DVar (fst (fst v)) (snd (fst v)) (snd v)) vs, r)
  | _ => None
  end.

Fixpoint p_decls (n : nat) (t : list tok) : option (list gdecl) :=
  match n with
  | O => None
  | S n =>
      match skip_semis t with
      | [] => Some []
      | t =>
          match p_decl t with
          | Some (d, r) => match p_decls n r with Some ds => Some (d ++ ds)%list | None => None end
          | None => None
          end
      end
  end.

(** A source file: its declarations, or [None] when some part is outside the subset. *)
Definition parse (src : list string) : option (list gdecl) :=
  p_decls fuel (no_comments (lex_file src)).
