(** * ToolRegex: the regular expressions of the code generator.

    The part of package regexp that generation/complex.go uses, for patterns made
    of [(?m)] at the start, [^], [$], literal and escaped characters and groups
    [([x-y]{1,})].  Other patterns do not compile.  A match is the leftmost one,
    and a run [{1,}] takes as many characters as lets the rest match. *)
From Coq Require Import List Bool String Ascii.
From Verif Require Import GoLex Gen.
Import ListNotations.
Open Scope string_scope.

Inductive rx : Set :=
| RBol                       (* ^ : the start of the text or of a line *)
| REol                       (* $ : the end of the text or of a line *)
| RChar (c : ascii)
| RRun (lo hi : ascii).      (* ([lo-hi]{1,}) *)

(** ** Compiling *)

(** Characters that stand for themselves only behind a backslash. *)
Definition is_meta : ascii -> bool :=
  one_of ["\"; "."; "+"; "*"; "?"; "("; ")"; "|"; "["; "]"; "{"; "}"; "^"; "$"]%char.

Fixpoint compile_from (n : nat) (s : string) : option (list rx) :=
  match n with
  | O => None
  | S n =>
      match s with
      | EmptyString => Some []
      | String "^" r => option_map (cons RBol) (compile_from n r)
      | String "$" r => option_map (cons REol) (compile_from n r)
      | String "\" (String c r) =>
          if is_idchar c then None else option_map (cons (RChar c)) (compile_from n r)
      | String "(" (String "[" (String lo (String "-" (String hi
          (String "]" (String "{" (String "1" (String "," (String "}" (String ")" r)))))))))) =>
          option_map (cons (RRun lo hi)) (compile_from n r)
      | String c r =>
          if is_meta c then None else option_map (cons (RChar c)) (compile_from n r)
      end
  end.
(** [regexp.MustCompile]; [None] where it panics, and for patterns not modelled. *)
Definition compile (s : string) : option (list rx) :=
  match strip_prefix "(?m)" s with
  | Some r => compile_from (S (String.length r)) r
  | None => None
  end.

(** ** Matching *)

(** A match that starts here: the groups, the text matched and the text after it;
    [bol] says that a line starts here. *)
Fixpoint rmatch (p : list rx) (bol : bool) (s : string) : option (list string * string * string) :=
  match p with
  | [] => Some ([], "", s)
  | RBol :: p => if bol then rmatch p bol s else None
  | REol :: p =>
      match s with
      | EmptyString => rmatch p bol s
      | String c _ => if Ascii.eqb c newline then rmatch p bol s else None
      end
  | RChar c :: p =>
      match s with
      | String d r =>
          if Ascii.eqb c d then
            match rmatch p (Ascii.eqb d newline) r with
            | Some (gs, m, rest) => Some (gs, String d m, rest)
            | None => None
            end
          else None
      | EmptyString => None
      end
  | RRun lo hi :: p =>
      (fix run (s : string) : option (list string * string * string) :=
         match s with
         | EmptyString => None
         | String d r =>
             if between lo hi d then
               match run r with
               | Some (g :: gs, m, rest) => Some (String d g :: gs, String d m, rest)
               | _ =>
                   match rmatch p (Ascii.eqb d newline) r with
                   | Some (gs, m, rest) => Some (String d "" :: gs, String d m, rest)
                   | None => None
                   end
               end
             else None
         end) s
  end.

(** A text cut into the characters outside of matches and the matches, left to
    right; a match is its text and its groups.  Empty matches are left out: the
    pattern of the generator has none. *)
Inductive seg : Set :=
| Plain (c : ascii)
| Match (m : string) (gs : list string).

Fixpoint segs_from (n : nat) (p : list rx) (bol : bool) (s : string) : list seg :=
  match n with
  | O => []
  | S n =>
      match rmatch p bol s with
      | Some (gs, String c m, rest) =>
          Match (String c m) gs :: segs_from n p (Ascii.eqb (last_char (String c m)) newline) rest
      | _ =>
          match s with
          | EmptyString => []
          | String c r => Plain c :: segs_from n p (Ascii.eqb c newline) r
          end
      end
  end.
Definition segs (p : list rx) (s : string) : list seg := segs_from (S (String.length s)) p true s.

(** [FindAllStringSubmatch(s, -1)] *)
Fixpoint submatches (l : list seg) : list (list string) :=
  match l with
  | [] => []
  | Plain _ :: r => submatches r
  | Match m gs :: r => (m :: gs) :: submatches r
  end.
