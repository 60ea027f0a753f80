(** * GoLex: reading Go source text.

    A Go source file is a list of lines.  [lex_file] turns it into tokens, with
    the semicolons that the Go specification ("Semicolons") inserts at line
    ends.  Comments are kept as tokens; the parser drops them. *)
From Coq Require Import ZArith List Bool String Ascii.
Import ListNotations.
Open Scope string_scope.

Inductive tok : Set :=
| TId (s : string)        (* identifiers and keywords *)
| TInt (z : Z)            (* integer literals *)
| TFloat (m : Z) (e : nat) (* decimal floating-point literals: m / 10^e *)
| TStr (s : string)       (* interpreted string literals without escapes *)
| TOp (s : string)        (* operators and punctuation, inserted semicolons included *)
| TComment (s : string)   (* a comment, or one line of a block comment *)
| TBad (s : string).      (* anything the lexer does not know *)

Definition tok_eqb (a b : tok) : bool :=
  match a, b with
  | TId x, TId y | TStr x, TStr y | TOp x, TOp y | TComment x, TComment y | TBad x, TBad y => x =? y
  | TInt x, TInt y => Z.eqb x y
  | TFloat x n, TFloat y m => Z.eqb x y && Nat.eqb n m
  | _, _ => false
  end.

(** ** Characters *)

Definition code (c : ascii) : N := N_of_ascii c.
Definition between (lo hi : ascii) (c : ascii) : bool :=
  N.leb (code lo) (code c) && N.leb (code c) (code hi).
Definition is_digit : ascii -> bool := between "0" "9".
Definition is_letter (c : ascii) : bool :=
  between "a" "z" c || between "A" "Z" c || Ascii.eqb c "_".
Definition is_idchar (c : ascii) : bool := is_letter c || is_digit c.
Definition tab : ascii := ascii_of_nat 9.
Definition is_space (c : ascii) : bool := Ascii.eqb c " " || Ascii.eqb c tab.
Definition quote : ascii := ascii_of_nat 34.

Definition snoc (s : string) (c : ascii) : string := s ++ String c EmptyString.

(** ** Integer literals *)

Definition digit (c : ascii) : Z :=
  Z.of_N (if is_digit c then code c - code "0"
          else if between "a" "f" c then 10 + (code c - code "a")
          else 10 + (code c - code "A"))%N.
Fixpoint digits (base acc : Z) (s : string) : Z :=
  match s with
  | EmptyString => acc
  | String c r => digits base (acc * base + digit c) r
  end.
(** Decimal and [0x] literals, the two kinds crunch uses. *)
Definition number (s : string) : Z :=
  match s with
  | String "0" (String "x" r) => digits 16 0 r
  | _ => digits 10 0 s
  end.
(** [12.34]: the digits without the point, and how many follow it. *)
Fixpoint fraction (acc : Z) (s : string) : Z * option nat :=
  match s with
  | EmptyString => (acc, None)
  | String c r =>
      if Ascii.eqb c "." then (digits 10 acc r, Some (String.length r))
      else fraction (acc * 10 + digit c) r
  end.
Definition literal (s : string) : tok :=
  match fraction 0 s with (m, Some e) => TFloat m e | _ => TInt (number s) end.
Definition no_letter (s : string) : bool := forallb is_digit (list_ascii_of_string s).

(** ** Operators: longest match *)

Definition one_of (l : list ascii) (c : ascii) : bool := existsb (Ascii.eqb c) l.
Definition op_char : ascii -> bool :=
  one_of ["("; ")"; "["; "]"; "{"; "}"; "."; ","; ";"; ":"; "="; "+"; "-"; "*"; "/"; "%"; "&";
          "|"; "^"; "<"; ">"; "!"]%char.

(** [s] followed by [c] is an operator, or [..], the start of one. *)
Definition extends (s : string) (c : ascii) : bool :=
  match s with
  | String a EmptyString =>
      Ascii.eqb c "=" && one_of ["+"; "-"; "*"; "/"; "%"; "&"; "|"; "^"; "<"; ">"; "="; "!"; ":"]%char a
      || Ascii.eqb c a && one_of ["+"; "-"; "&"; "|"; "<"; ">"; "."]%char a
      || Ascii.eqb a "&" && Ascii.eqb c "^" || Ascii.eqb a "<" && Ascii.eqb c "-"
  | String a (String b EmptyString) =>
      Ascii.eqb c "=" && ((s =? "<<") || (s =? ">>") || (s =? "&^")) || (s =? "..") && Ascii.eqb c "."
  | _ => false
  end.

(** ** The automaton *)

Inductive mode : Set :=
| MStart
| MId (s : string)
| MNum (s : string)
| MOp (s : string)
| MStr (s : string)
| MBlock (s : string).    (* in a block comment *)

(** The token that ends when the mode is left. *)
Definition flush (m : mode) : list tok :=
  match m with
  | MStart => []
  | MId s => [TId s]
  | MNum s => [literal s]
  | MOp s => [if s =? ".." then TBad s else TOp s]
  | MStr s => [TBad s]
  | MBlock s => if s =? "" then [] else [TComment s]
  end.

Definition start (c : ascii) : mode * list tok :=
  if is_space c then (MStart, [])
  else if is_digit c then (MNum (String c ""), [])
  else if is_idchar c then (MId (String c ""), [])
  else if Ascii.eqb c quote then (MStr "", [])
  else if op_char c then (MOp (String c ""), [])
  else (MStart, [TBad (String c "")]).

Fixpoint last_char (s : string) : ascii :=
  match s with
  | EmptyString => " "
  | String c EmptyString => c
  | String _ r => last_char r
  end.

Definition step (m : mode) (c : ascii) : mode * list tok :=
  let fresh := let '(m', t) := start c in (m', flush m ++ t)%list in
  match m with
  | MStart => start c
  | MId s => if is_idchar c then (MId (snoc s c), []) else fresh
  | MNum s =>
      if is_idchar c || Ascii.eqb c "." && no_letter s then (MNum (snoc s c), []) else fresh
  | MOp s =>
      if (s =? "/") && Ascii.eqb c "*" then (MBlock "/*", [])
      else if extends s c then (MOp (snoc s c), [])
      else fresh
  | MStr s => if Ascii.eqb c quote then (MStart, [TStr s]) else (MStr (snoc s c), [])
  | MBlock s =>
      if Ascii.eqb (last_char s) "*" && Ascii.eqb c "/" && negb (s =? "/*")
      then (MStart, [TComment (snoc s c)])
      else (MBlock (snoc s c), [])
  end.

Definition in_op_slash (m : mode) : bool :=
  match m with MOp s => s =? "/" | _ => false end.

(** [//] starts a comment that takes the rest of the line. *)
Fixpoint scan (m : mode) (s : string) : mode * list tok :=
  match s with
  | EmptyString => (m, [])
  | String c r =>
      if in_op_slash m && Ascii.eqb c "/" then (MStart, [TComment ("//" ++ r)]) else
      let '(m1, t1) := step m c in
      let '(m2, t2) := scan m1 r in
      (m2, t1 ++ t2)%list
  end.

(** ** Lines *)

(** A line that ends with one of these tokens gets a semicolon. *)
Definition ends_stmt (t : tok) : bool :=
  match t with
  | TId s =>
      negb (existsb (String.eqb s)
        ["package"; "import"; "func"; "type"; "struct"; "var"; "const"; "if"; "else"; "for";
         "range"; "switch"; "case"; "default"; "goto"; "defer"; "go"; "interface"; "map";
         "select"; "chan"])
  | TInt _ | TFloat _ _ | TStr _ => true
  | TOp s => existsb (String.eqb s) ["++"; "--"; ")"; "]"; "}"]
  | TComment _ | TBad _ => false
  end.
Definition is_comment (t : tok) : bool := match t with TComment _ => true | _ => false end.
Definition no_comments (l : list tok) : list tok := filter (fun t => negb (is_comment t)) l.

Definition end_line (l : list tok) : list tok :=
  match rev (no_comments l) with
  | t :: _ => if ends_stmt t then l ++ [TOp ";"] else l
  | [] => l
  end%list.

(** One line, starting inside a block comment or not. *)
Definition lex_line (in_block : bool) (s : string) : bool * list tok :=
  let '(m, t) := scan (if in_block then MBlock "" else MStart) s in
  (match m with MBlock _ => true | _ => false end, end_line (t ++ flush m)%list).

Fixpoint lex_lines (in_block : bool) (ls : list string) : bool * list tok :=
  match ls with
  | [] => (in_block, [])
  | l :: r =>
      let '(b1, t1) := lex_line in_block l in
      let '(b2, t2) := lex_lines b1 r in
      (b2, t1 ++ t2)%list
  end.

Definition lex_file (ls : list string) : list tok := snd (lex_lines false ls).
