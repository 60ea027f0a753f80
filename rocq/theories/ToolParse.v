(** * ToolParse: the syntax of the Go subset the code generator is written in,
    and a parser from the tokens of GoLex to it.

    The library (v1, v2, v3) is parsed by [GoParse.v].  The generator
    (generation/*.go) is an ordinary Go program: it has function literals, maps,
    several results, [else if], [continue], qualified composite literals and
    escapes in strings.  The grammar is the one of the Go specification,
    restricted to what occurs there; anything else makes the parser fail. *)
From Coq Require Import ZArith List Bool String Ascii.
From Verif Require Import GoLex GoParse.
Import ListNotations.
Open Scope string_scope.

(** ** Syntax trees *)

Inductive ttype : Set :=
| TyName (s : string)            (* string, error *)
| TyQual (p s : string)          (* jen.Group *)
| TyPtr (t : ttype)              (* *T *)
| TySlice (t : ttype)            (* []T *)
| TyMap (k v : ttype).           (* map[K]V *)

Inductive texpr : Set :=
| XVar (x : string)
| XInt (z : Z)
| XStr (s : string)
| XBin (op : string) (a b : texpr)
| XUn (op : string) (a : texpr)
| XSel (a : texpr) (f : string)                              (* a.f *)
| XIndex (a i : texpr)                                       (* a[i] *)
| XSlice (a : texpr) (lo hi : option texpr)                  (* a[lo:hi] *)
| XCall (f : texpr) (args : list texpr)
| XLit (t : ttype) (elts : list (option texpr * texpr))      (* T{k: v, v} *)
| XTy (t : ttype)                                            (* a type as an operand *)
| XFunc (ps rs : list (string * ttype)) (body : list tstmt)  (* func(ps) rs { body } *)
with tstmt : Set :=
| YExpr (e : texpr)
| YAssign (ls : list texpr) (r : texpr)                      (* l, l = r *)
| YDefine (xs : list string) (r : texpr)                     (* x, x := r *)
| YVar (x : string) (t : ttype)                              (* var x T *)
| YStep (x : string) (up : bool)                             (* x++, x-- *)
| YIf (c : texpr) (th el : list tstmt)
| YFor (i : tstmt) (c : texpr) (p : tstmt) (b : list tstmt)
| YRange (k v : string) (e : texpr) (b : list tstmt)         (* for k, v := range e *)
| YSwitch (e : texpr) (cases : list (list texpr * list tstmt)) (* no expression: default *)
| YReturn (r : option texpr)
| YContinue
| YDefer (e : texpr).

Inductive tdecl : Set :=
| TDFunc (name : string) (ps rs : list (string * ttype)) (body : list tstmt)
| TDVar (x : string) (t : ttype).

(** ** Strings: the escapes of interpreted string literals that occur *)

Fixpoint unescape (s : string) : option string :=
  match s with
  | EmptyString => Some ""
  | String c r =>
      if Ascii.eqb c "\" then
        match r with
        | String d r' =>
            match unescape r' with
            | Some u =>
                if Ascii.eqb d "\" then Some (String "\" u)
                else if Ascii.eqb d "n" then Some (String (ascii_of_nat 10) u)
                else if Ascii.eqb d "t" then Some (String (ascii_of_nat 9) u)
                else None
            | None => None
            end
        | EmptyString => None
        end
      else option_map (String c) (unescape r)
  end.

(** ** The parser *)

Fixpoint q_type (n : nat) (t : list tok) : pres ttype :=
  match n with
  | O => None
  | S n =>
      match t with
      | TOp "*" :: r => do (x, r) <- q_type n r; Some (TyPtr x, r)
      | TOp "[" :: TOp "]" :: r => do (x, r) <- q_type n r; Some (TySlice x, r)
      | TId "map" :: TOp "[" :: r =>
          do (k, r) <- q_type n r; do (u, r) <- op "]" r; do (v, r) <- q_type n r; Some (TyMap k v, r)
      | TId p :: TOp "." :: TId x :: r => Some (TyQual p x, r)
      | TId x :: r => Some (TyName x, r)
      | _ => None
      end
  end.

(** Parameters up to the closing parenthesis; here each has its own type. *)
Fixpoint q_params (n : nat) (t : list tok) : pres (list (string * ttype)) :=
  match n with
  | O => None
  | S n =>
      match t with
      | TOp ")" :: r => Some ([], r)
      | TId x :: r =>
          do (ty, r) <- q_type n r; do (ps, r) <- q_params n (skip "," r); Some ((x, ty) :: ps, r)
      | _ => None
      end
  end.
Definition q_results (n : nat) (t : list tok) : pres (list (string * ttype)) :=
  if is_op "{" t then Some ([], t)
  else if is_op "(" t then q_params n (tl t)
  else do (x, r) <- q_type n t; Some ([("", x)], r).

(** [x, y :=] *)
Fixpoint q_names (n : nat) (t : list tok) : pres (list string) :=
  match n with
  | O => None
  | S n =>
      match t with
      | TId x :: TOp ":=" :: r => Some ([x], r)
      | TId x :: TOp "," :: r => do (xs, r) <- q_names n r; Some (x :: xs, r)
      | _ => None
      end
  end.

(** [cl]: composite literals of a type name are allowed here (they are not in the
    header of an [if], [for] or [switch]). *)
Fixpoint q_expr (n : nat) (cl : bool) (p : nat) (t : list tok) : pres texpr :=
  match n with
  | O => None
  | S n => do (a, r) <- q_unary n cl t; q_binary n cl p a r
  end
with q_binary (n : nat) (cl : bool) (p : nat) (a : texpr) (t : list tok) : pres texpr :=
  match n with
  | O => None
  | S n =>
      match t with
      | TOp o :: r =>
          if Nat.leb p (prec o) && Nat.ltb 0 (prec o) then
            do (b, r) <- q_expr n cl (S (prec o)) r;
            q_binary n cl p (XBin o a b) r
          else Some (a, t)
      | _ => Some (a, t)
      end
  end
with q_unary (n : nat) (cl : bool) (t : list tok) : pres texpr :=
  match n with
  | O => None
  | S n =>
      match t with
      | TOp o :: r =>
          if is_unary o then do (a, r) <- q_unary n cl r; Some (XUn o a, r)
          else do (a, r) <- q_operand n cl t; q_suffix n cl a r
      | _ => do (a, r) <- q_operand n cl t; q_suffix n cl a r
      end
  end
with q_operand (n : nat) (cl : bool) (t : list tok) : pres texpr :=
  match n with
  | O => None
  | S n =>
      match t with
      | TInt z :: r => Some (XInt z, r)
      | TStr s :: r => match unescape s with Some s => Some (XStr s, r) | None => None end
      | TOp "(" :: r => do (a, r) <- q_expr n true 1 r; do (u, r) <- op ")" r; Some (a, r)
      | TOp "[" :: _ | TId "map" :: _ =>
          do (x, r) <- q_type n t;
          match r with
          | TOp "{" :: r' => do (es, r') <- q_elts n r'; Some (XLit x es, r')
          | _ => Some (XTy x, r)
          end
      | TId "func" :: TOp "(" :: r =>
          do (ps, r) <- q_params n r;
          do (rs, r) <- q_results n r;
          do (b, r) <- q_block n r;
          Some (XFunc ps rs b, r)
      | TId p :: TOp "." :: TId x :: TOp "{" :: r =>
          if cl then do (es, r) <- q_elts n r; Some (XLit (TyQual p x) es, r)
          else Some (XVar p, tl t)
      | TId x :: r => Some (XVar x, r)
      | _ => None
      end
  end
(** Elements of a composite literal, up to the closing brace. *)
with q_elts (n : nat) (t : list tok) : pres (list (option texpr * texpr)) :=
  match n with
  | O => None
  | S n =>
      match t with
      | TOp "}" :: r => Some ([], r)
      | _ =>
          do (e, r) <- q_expr n true 1 t;
          match r with
          | TOp ":" :: r =>
              do (v, r) <- q_expr n true 1 r;
              do (es, r) <- q_elts n (skip "," r);
              Some ((Some e, v) :: es, r)
          | _ =>
              do (es, r) <- q_elts n (skip "," r);
              Some ((None, e) :: es, r)
          end
      end
  end
with q_suffix (n : nat) (cl : bool) (a : texpr) (t : list tok) : pres texpr :=
  match n with
  | O => None
  | S n =>
      match t with
      | TOp "." :: TId f :: r => q_suffix n cl (XSel a f) r
      | TOp "(" :: r => do (args, r) <- q_args n r; q_suffix n cl (XCall a args) r
      | TOp "[" :: r =>
          do (i, r) <- q_expr n true 1 r;
          match r with
          | TOp ":" :: TOp "]" :: r => q_suffix n cl (XSlice a (Some i) None) r
          | _ => do (u, r) <- op "]" r; q_suffix n cl (XIndex a i) r
          end
      | _ => Some (a, t)
      end
  end
with q_args (n : nat) (t : list tok) : pres (list texpr) :=
  match n with
  | O => None
  | S n =>
      match t with
      | TOp ")" :: r => Some ([], r)
      | _ => do (e, r) <- q_expr n true 1 t; do (es, r) <- q_args n (skip "," r); Some (e :: es, r)
      end
  end
(** The left sides of an assignment after the first, up to [=]. *)
with q_lefts (n : nat) (t : list tok) : pres (list texpr) :=
  match n with
  | O => None
  | S n =>
      match t with
      | TOp "=" :: r => Some ([], r)
      | TOp "," :: r => do (e, r) <- q_expr n true 1 r; do (es, r) <- q_lefts n r; Some (e :: es, r)
      | _ => None
      end
  end
with q_simple (n : nat) (cl : bool) (t : list tok) : pres tstmt :=
  match n with
  | O => None
  | S n =>
      match q_names n t with
      | Some (xs, r) => do (e, r) <- q_expr n cl 1 r; Some (YDefine xs e, r)
      | None =>
          do (a, r) <- q_expr n cl 1 t;
          match a, r with
          | XVar x, TOp "++" :: r => Some (YStep x true, r)
          | XVar x, TOp "--" :: r => Some (YStep x false, r)
          | _, _ =>
              if is_op "=" r || is_op "," r then
                do (ls, r) <- q_lefts n r; do (e, r) <- q_expr n cl 1 r; Some (YAssign (a :: ls) e, r)
              else Some (YExpr a, r)
          end
      end
  end
(** Statements up to a closing brace (not consumed) or the next [case]. *)
with q_stmts (n : nat) (t : list tok) : pres (list tstmt) :=
  match n with
  | O => None
  | S n =>
      let t := skip_semis t in
      match t with
      | TOp "}" :: _ | TId "case" :: _ | TId "default" :: _ => Some ([], t)
      | _ => do (s, r) <- q_stmt n t; do (ss, r) <- q_stmts n r; Some (s :: ss, r)
      end
  end
with q_stmt (n : nat) (t : list tok) : pres tstmt :=
  match n with
  | O => None
  | S n =>
      match t with
      | TId "var" :: TId x :: r => do (ty, r) <- q_type n r; Some (YVar x ty, r)
      | TId "continue" :: r => Some (YContinue, r)
      | TId "return" :: r =>
          if is_op ";" r || is_op "}" r then Some (YReturn None, r)
          else do (e, r) <- q_expr n true 1 r; Some (YReturn (Some e), r)
      | TId "defer" :: r => do (e, r) <- q_expr n true 1 r; Some (YDefer e, r)
      | TId "if" :: r =>
          do (c, r) <- q_expr n false 1 r;
          do (th, r) <- q_block n r;
          match r with
          | TId "else" :: TId "if" :: _ => do (el, r) <- q_stmt n (tl r); Some (YIf c th [el], r)
          | TId "else" :: r => do (el, r) <- q_block n r; Some (YIf c th el, r)
          | _ => Some (YIf c th [], r)
          end
      | TId "switch" :: r =>
          do (e, r) <- q_expr n false 1 r;
          do (u, r) <- op "{" r;
          do (cs, r) <- q_cases n r;
          Some (YSwitch e cs, r)
      | TId "for" :: TId k :: TOp ":=" :: TId "range" :: r =>
          do (e, r) <- q_expr n false 1 r; do (b, r) <- q_block n r; Some (YRange k "_" e b, r)
      | TId "for" :: TId k :: TOp "," :: TId v :: TOp ":=" :: TId "range" :: r =>
          do (e, r) <- q_expr n false 1 r; do (b, r) <- q_block n r; Some (YRange k v e b, r)
      | TId "for" :: r =>
          do (i, r) <- q_simple n false r;
          do (u, r) <- op ";" r;
          do (c, r) <- q_expr n false 1 r;
          do (u, r) <- op ";" r;
          do (p, r) <- q_simple n false r;
          do (b, r) <- q_block n r;
          Some (YFor i c p b, r)
      | _ => q_simple n true t
      end
  end
with q_block (n : nat) (t : list tok) : pres (list tstmt) :=
  match n with
  | O => None
  | S n =>
      do (u, r) <- op "{" t;
      do (b, r) <- q_stmts n r;
      do (u, r) <- op "}" r;
      Some (b, r)
  end
with q_cases (n : nat) (t : list tok) : pres (list (list texpr * list tstmt)) :=
  match n with
  | O => None
  | S n =>
      let t := skip_semis t in
      match t with
      | TOp "}" :: r => Some ([], r)
      | TId "case" :: r =>
          do (e, r) <- q_expr n true 1 r;
          do (u, r) <- op ":" r;
          do (b, r) <- q_stmts n r;
          do (cs, r) <- q_cases n r;
          Some (([e], b) :: cs, r)
      | TId "default" :: r =>
          do (u, r) <- op ":" r;
          do (b, r) <- q_stmts n r;
          do (cs, r) <- q_cases n r;
          Some (([], b) :: cs, r)
      | _ => None
      end
  end.

(** [x T] lines of a [var (...)] group. *)
Fixpoint q_vars (n : nat) (t : list tok) : pres (list tdecl) :=
  match n with
  | O => None
  | S n =>
      match skip_semis t with
      | TOp ")" :: r => Some ([], r)
      | TId x :: r => do (ty, r) <- q_type n r; do (ds, r) <- q_vars n r; Some (TDVar x ty :: ds, r)
      | _ => None
      end
  end.

(** Declarations up to the end of the file. *)
Fixpoint q_decls (n : nat) (t : list tok) : option (list tdecl) :=
  match n with
  | O => None
  | S n =>
      match skip_semis t with
      | [] => Some []
      | TId "func" :: TId f :: TOp "(" :: r =>
          match (do (ps, r) <- q_params n r; do (rs, r) <- q_results n r; do (b, r) <- q_block n r;
                 Some (TDFunc f ps rs b, r)) with
          | Some (d, r) => option_map (cons d) (q_decls n r)
          | None => None
          end
      | TId "var" :: TOp "(" :: r =>
          match q_vars n r with
          | Some (ds, r) => option_map (app ds) (q_decls n r)
          | None => None
          end
      | _ => None
      end
  end.

(** The paths between the parentheses of an import declaration. *)
Fixpoint q_imports (n : nat) (t : list tok) : pres (list string) :=
  match n with
  | O => None
  | S n =>
      match skip_semis t with
      | TOp ")" :: r => Some ([], r)
      | TStr s :: r => do (ss, r) <- q_imports n r; Some (s :: ss, r)
      | _ => None
      end
  end.

(** A file: the paths it imports and its declarations. *)
Definition q_file (n : nat) (ls : list string) : option (list string * list tdecl) :=
  match no_comments (lex_file ls) with
  | TId "package" :: TId "main" :: TOp ";" :: TId "import" :: TOp "(" :: r =>
      match q_imports n r with
      | Some (is, r) => option_map (pair is) (q_decls n r)
      | None => None
      end
  | _ => None
  end.
