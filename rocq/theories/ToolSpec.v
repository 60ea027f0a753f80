(** * ToolSpec: the words in which the properties of the generator's text are stated. *)
From Coq Require Import ZArith List Bool String Ascii Permutation.
From Verif Require Import GoLex Gen GenSpec ToolEval.
Import ListNotations.
Open Scope string_scope.

(** What a valid magic comment becomes: the text of the method, an empty line and
    the text of its [Next] variant, or a remark if jennifer refuses either. *)
Definition rendered (W : world) (a : args) : string :=
  match layout W (method_code a), layout W (next_code a) with
  | Some t1, Some t2 => t1 ++ String newline (String newline t2)
  | _, _ => "// render failure"
  end.

(** What is assumed of jennifer where a theorem needs it: it accepts the code of
    every valid magic comment, and the text it prints reads back as the tokens it
    was given. *)
Definition prints (W : world) : Prop :=
  forall a c, In a valid_args -> c = method_code a \/ c = next_code a ->
  exists t, layout W c = Some t /\ lex_lines false (lines_of t) = (false, c).

(** What the operating system and Go guarantee: a directory has no two entries of
    a name, and a walk over a map visits every key once. *)
Definition sane (W : world) : Prop :=
  NoDup (map fst (listing W)) /\ forall k names, Permutation (order W k names) names.

(** Every system call succeeds, and the directory lists the files of [d] and no
    others. *)
Definition no_failure (W : world) (d : dir) : Prop :=
  (forall p, abs_path W p <> None) /\ is_directory W = true /\ (forall c x, fails W c x = false)
  /\ forall n, In (n, false) (listing W) <-> d n <> None.

(** ** A run of the program *)

(** The value of a flag. *)
Definition flag_value (W : world) (f default : string) : string :=
  match cmdline W f with Some v => v | None => default end.

(** The program gets to the point of reading sources and writing results. *)
Definition starts (W : world) : bool :=
  match abs_path W (flag_value W "directory" ".") with
  | Some p => negb (fails W "Open" p)
  | None => false
  end
  && negb (fails W "Stat" ".") && is_directory W && (flag_value W "generation" "" =? "complex").

(** The sources it gets hold of, with the text it has read of each.  An entry of
    the directory is a source if it is no directory and its name starts with _ and
    ends with .go. *)
Definition source_read (W : world) (d : dir) (p : string * bool) : list (string * string) :=
  if is_source (fst p) && negb (snd p) then
    match d (fst p) with
    | Some t =>
        if fails W "Open" (fst p) then []
        else [(fst p, if fails W "ReadAll" (fst p) then read_before W (fst p) else t)]
    | None => []
    end
  else [].
Definition sources_read (W : world) (d : dir) : list (string * string) :=
  flat_map (source_read W d) (listing W).

(** The result for one source goes over the old contents of its file, from the
    start; when the write fails, only as much as was written. *)
Definition write_result (W : world) (d : dir) (p : string * string) : dir :=
  let o := out_name (fst p) in
  let t := generate (rendered W) (snd p) in
  if fails W "OpenFile" o then d
  else write_file d o (if fails W "Write" o then substring 0 (written_before W o) t else t).

(** The files [l] in the order of [names]. *)
Definition in_order (names : list string) (l : list (string * string)) : list (string * string) :=
  flat_map (fun nm => match assoc nm l with Some t => [(nm, t)] | None => [] end) names.

(** The files after a run.  Results are written in the order of the second walk
    over the map (the first one is in GenerateComplex). *)
Definition files_after (W : world) (d : dir) : dir :=
  if starts W then
    fold_left (write_result W) (in_order (order W 1 (map fst (sources_read W d))) (sources_read W d)) d
  else d.

(** The program has read [t] from the source [n]: all of it, or what came before
    an error. *)
Definition reads (W : world) (d : dir) (n t : string) : Prop :=
  In (n, false) (listing W) /\ is_source n = true /\ fails W "Open" n = false
  /\ exists all, d n = Some all /\ t = if fails W "ReadAll" n then read_before W n else all.

(** What is in the file [o] after [t] was to be written to it. *)
Definition output (W : world) (d : dir) (o t : string) : option string :=
  if fails W "OpenFile" o then d o
  else Some (overwrite (content d o) (if fails W "Write" o then substring 0 (written_before W o) t else t)).
