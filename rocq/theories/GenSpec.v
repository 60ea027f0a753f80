(** * GenSpec: the words in which the properties of the generator are stated. *)
From Coq Require Import List Bool String Ascii.
From Verif Require Import GoLex GoParse SrcV3 Gen.
Import ListNotations.
Open Scope string_scope.

(** [c] does not occur in [s]. *)
Definition no_char (c : ascii) (s : string) : bool := all_chars (fun x => negb (Ascii.eqb x c)) s.

(** What is assumed of jennifer: the text it renders for a valid magic comment
    reads back as the tokens of the builder calls. *)
Definition renders (render : args -> string) : Prop :=
  forall a, invalid a = None -> lex_lines false (lines_of (render a)) = (false, code_of a).

(** The arguments the generator is meant for. *)
Definition valid_args : list args :=
  flat_map (fun r => flat_map (fun w => flat_map (fun s => flat_map (fun i => map (fun e =>
    mkArgs r w s i e) ["BE"; "LE"]) ["16"; "32"; "64"]) ["I"; "U"; "F"]) ["Read"; "Write"])
    ["Buffer"; "MiniBuffer"].

(** The half-precision floats, which it accepts too. *)
Definition float16 (a : args) : Prop := a_sn a = "F" /\ a_is a = "16".

(** The method [name] of the type [recv]. *)
Definition is_func (recv name : string) (d : gdecl) : bool :=
  match d with
  | DFunc (mkFunc (Some (_, GPtr (GNamed r))) n _ _ _) => (r =? recv) && (n =? name)
  | _ => false
  end.
(** The committed file with the methods of a type. *)
Definition committed (recv : string) : list string := if recv =? "Buffer" then v3_buffer else v3_minibuf.

(** The name of the method asked for. *)
Definition method_name (a : args) : string := a_rw a ++ a_sn a ++ a_is a ++ a_en a.
