(** * ToolText: the code generator, read from its Go text.

    [program] is what the two files of generation/ parse to, and [tool_call] runs
    a function of it with the interpreter of [ToolEval.v]. *)
From Coq Require Import ZArith List Bool String Ascii.
From Verif Require Import GoLex GoParse Gen ToolParse ToolRegex ToolEval SrcGen.
Import ListNotations.
Open Scope string_scope.

(** The name a package is used under: the last part of its path. *)
Fixpoint base (s : string) : string :=
  match s with
  | EmptyString => ""
  | String c r => if Ascii.eqb c "/" then base r else
                  if existsb (Ascii.eqb "/") (list_ascii_of_string r) then base r else s
  end.

(** A package: the packages its files import and their declarations. *)
Fixpoint package (n : nat) (files : list (list string)) : option (list string * list tdecl) :=
  match files with
  | [] => Some ([], [])
  | f :: r =>
      match q_file n f, package n r with
      | Some (is, ds), Some (is', ds') => Some (map base is ++ is', ds ++ ds')%list
      | _, _ => None
      end
  end.

(** Fuel for the parser and for the interpreter: as much as the program needs. *)
Definition tool_fuel : nat := 300.

(** The program: generation/main.go and generation/complex.go. *)
Definition program : option (list string * list tdecl) := package tool_fuel [gen_main; gen_complex].

(** A call of one of the functions of a package. *)
Definition call_in (p : option (list string * list tdecl)) (W : world) (f : string) (args : list val) (s : st) : answer :=
  match p with
  | Some (ps, ds) =>
      match find_func f ds with
      | Some v => apply W ps ds tool_fuel v args s (fun v s => Some (v, s))
      | None => None
      end
  | None => None
  end.
Definition tool_call : world -> string -> list val -> st -> answer := call_in program.

(** The program run in a directory with the files [d]: the variables of the
    package have their zero values, [init] runs, then [main]. *)
Definition variables (ds : list tdecl) : list (string * val) :=
  flat_map (fun x => match x with TDVar x t => [(x, zero t)] | TDFunc _ _ _ _ => [] end) ds.
Definition run_in (p : option (list string * list tdecl)) (W : world) (d : dir) : answer :=
  match p with
  | Some (ps, ds) =>
      match find_func "init" ds, find_func "main" ds with
      | Some i, Some m =>
          apply W ps ds (5 + tool_fuel) i [] (mkSt [] (variables ds) [] false d 0) (fun _ s =>
            apply W ps ds (5 + tool_fuel) m [] s (fun v s => Some (v, s)))
      | _, _ => None
      end
  | None => None
  end.
Definition tool_run : world -> dir -> answer := run_in program.

(** The program with its syntax trees written out. *)
Definition packages_of (p : option (list string * list tdecl)) : list string :=
  match p with Some (l, _) => l | None => [] end.
Definition decls_of (p : option (list string * list tdecl)) : list tdecl :=
  match p with Some (_, l) => l | None => [] end.
Definition packages : list string := Eval vm_compute in packages_of program.
Definition decls : list tdecl := Eval vm_compute in decls_of program.
Lemma program_read : program = Some (packages, decls).
Proof. vm_cast_no_check (eq_refl (Some (packages, decls))). Qed.
Lemma captures_ok : no_late_assignment decls = true.
Proof. vm_compute. reflexivity. Qed.
