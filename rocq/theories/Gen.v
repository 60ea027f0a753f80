(** * Gen: the code generator of v3 (generation/complex.go, generation/main.go).

    Modelled: the search for magic comments, the check of the arguments, the
    code built with jennifer (as tokens), and the file handling of [main].
    Not modelled: how jennifer lays tokens out as text.  Every theorem takes the
    layout as a function [render] and says what it assumes of it.
    Also left out: flag parsing, messages, failing system calls. *)
From Coq Require Import ZArith List Bool String Ascii.
From Verif Require Import GoLex.
Import ListNotations.
Open Scope string_scope.

(** ** Text *)

Definition newline : ascii := ascii_of_nat 10.

(** The pieces of [s] between occurrences of [sep]; never empty. *)
Fixpoint split_on (sep : ascii) (s : string) : list string :=
  match s with
  | EmptyString => [EmptyString]
  | String c r =>
      if Ascii.eqb c sep then EmptyString :: split_on sep r
      else match split_on sep r with
           | p :: ps => String c p :: ps
           | [] => [String c EmptyString]
           end
  end.
Definition join_with (sep : ascii) (l : list string) : string :=
  String.concat (String sep EmptyString) l.
Definition lines_of (s : string) : list string := split_on newline s.
Definition text_of (l : list string) : string := join_with newline l.

(** ** Magic comments *)

Fixpoint all_chars (p : ascii -> bool) (s : string) : bool :=
  match s with EmptyString => true | String c r => p c && all_chars p r end.
(** [[A-z]{1,}] and [[0-9]{1,}] of the regular expression: the range A-z is
    the characters 65 to 122. *)
Definition is_word (s : string) : bool := negb (s =? "") && all_chars (between "A" "z") s.
Definition is_number (s : string) : bool := negb (s =? "") && all_chars (between "0" "9") s.

(** The five arguments of a magic comment. *)
Record args : Set := mkArgs { a_recv : string; a_rw : string; a_sn : string; a_is : string; a_en : string }.

Definition magic_prefix : string := "//generator:complex ".

Fixpoint strip_prefix (p s : string) : option string :=
  match p, s with
  | EmptyString, _ => Some s
  | String a p, String b s => if Ascii.eqb a b then strip_prefix p s else None
  | String _ _, EmptyString => None
  end.

(** generation/complex.go:78, 85-86: with (?m), ^ and $ make a match a whole
    line; no part of the expression matches a newline, and none of the argument
    classes matches a space. *)
Definition magic (line : string) : option args :=
  match strip_prefix magic_prefix line with
  | Some rest =>
      match split_on " " rest with
      | [a; b; c; d; e] =>
          if is_word a && is_word b && is_word c && is_number d && is_word e
          then Some (mkArgs a b c d e) else None
      | _ => None
      end
  | None => None
  end.

(** ** Checking the arguments: generation/complex.go:91-114 *)

Definition one_of2 (x y : string) (s : string) : bool := (s =? x) || (s =? y).
Definition one_of3 (x y z : string) (s : string) : bool := (s =? x) || (s =? y) || (s =? z).

(** The comment that replaces a magic comment with a bad argument. *)
Definition invalid (a : args) : option string :=
  if negb (one_of2 "Buffer" "MiniBuffer" (a_recv a))
  then Some ("// invalid argument provided in position zero:" ++ a_recv a)
  else if negb (one_of2 "Read" "Write" (a_rw a))
  then Some ("// invalid argument provided in position one:" ++ a_rw a)
  else if negb (one_of3 "I" "U" "F" (a_sn a))
  then Some ("// invalid argument provided in position two:" ++ a_sn a)
  else if negb (one_of3 "16" "32" "64" (a_is a))
  then Some ("// invalid argument provided in position three:" ++ a_is a)
  else if negb (one_of2 "BE" "LE" (a_en a))
  then Some ("// invalid argument provided in position four:" ++ a_en a)
  else None.

(** ** jennifer

    The calls of the builder as the tokens they put out.  [Id] and [Op] put
    their argument out as it is ([Id("read_loop:")] is an identifier and a
    colon); the statements of a block are on lines of their own. *)

Definition Id (s : string) : list tok := let '(m, t) := scan MStart s in (t ++ flush m)%list.
Definition Op : string -> list tok := Id.
Definition Lit (z : Z) : list tok := [TInt z].
Definition TrueLit : list tok := [TId "true"].
Definition comma_sep (l : list (list tok)) : list tok :=
  match l with
  | [] => []
  | x :: r => (x ++ List.concat (map (fun y => TOp "," :: y) r))%list
  end.
Definition Parens (x : list tok) : list tok := (TOp "(" :: x ++ [TOp ")"])%list.
Definition Params (l : list (list tok)) : list tok := Parens (comma_sep l).
Definition Call (l : list (list tok)) : list tok := Params l.
Definition Index (x : list tok) : list tok := (TOp "[" :: x ++ [TOp "]"])%list.
Definition Dot (s : string) : list tok := TOp "." :: Id s.
Definition Comment (s : string) : list tok := [TComment s].
Definition Block (l : list (list tok)) : list tok :=
  (TOp "{" :: List.concat (map end_line l) ++ [TOp "}"])%list.
Definition If (c : list tok) : list tok := TId "if" :: c.
Definition Panic (x : list tok) : list tok := (Id "panic" ++ Call [x])%list.
Definition Len (x : list tok) : list tok := (Id "len" ++ Call [x])%list.
Definition Var : list tok := [TId "var"].
Definition Goto : list tok := [TId "goto"].
Definition Return : list tok := [TId "return"].
Definition Func : list tok := [TId "func"].
(** [Group.Render]: the items of a group, one per line. *)
Definition Render (items : list (list tok)) : list tok := List.concat (map end_line items).

(** ** The generated code *)

Section Code.
Variable a : args.
Open Scope list_scope.
Notation "x @@ y" := (String.append x y) (at level 60, right associativity).

(** generation/complex.go:118-139; [strconv.Atoi] is [number]. *)
Definition intType : string :=
  (if a_sn a =? "I" then "int" else if a_sn a =? "U" then "uint" else "float") @@ a_is a.
Definition uintType : string := "uint" @@ a_is a.
Definition intBytes : Z := Z.div (number (a_is a)) 8.
Definition functionName : string := a_rw a @@ a_sn a @@ a_is a @@ a_en a.
Definition functionNameNext : string := functionName @@ "Next".
Definition is_read : bool := a_rw a =? "Read".
Definition is_float : bool := a_sn a =? "F".
Definition is_be : bool := a_en a =? "BE".
Definition is_buffer : bool := a_recv a =? "Buffer".

(** [lo, lo+1, ..., hi-1] and its reverse: the [for] loops of the generator. *)
Definition upto (lo hi : Z) : list Z :=
  map (fun k => lo + Z.of_nat k)%Z (seq 0 (Z.to_nat (hi - lo))).
Definition downto (hi lo : Z) : list Z := rev (upto lo hi).

(** [b.buf[off+(i*N)]] and [b.buf[off+(k+(i*N))]] of the readers;
    generation/complex.go:217, 229, 236, 240, 269, 278, 291, 295. *)
Definition i_times : list tok := Parens (Id "i" ++ Op "*" ++ Lit intBytes).
Definition read_first : list tok :=
  Id "b" ++ Dot "buf" ++ Index (Id "off" ++ Op "+" ++ i_times).
Definition read_at (k : Z) : list tok :=
  Id "b" ++ Dot "buf" ++ Index (Id "off" ++ Op "+" ++ Parens (Lit k ++ Op "+" ++ i_times)).

(** The or-chain of a reader in the type [ty];
    big-endian: generation/complex.go:213-230 (floats), 267-279;
    little-endian: generation/complex.go:232-250 (floats), 289-301. *)
Definition or_chain (ty : string) : list tok :=
  if is_be then
    List.concat (map (fun k =>
      Id ty ++ Call [read_at k]
      ++ (if (k <? intBytes - 1)%Z then Op "<<" ++ Lit ((intBytes - k - 1) * 8) else [])
      ++ Op "|") (downto intBytes 1))
    ++ Id ty ++ Call [read_first] ++ Op "<<" ++ Lit ((intBytes - 1) * 8)
  else
    Id ty ++ Call [read_first] ++ Op "|"
    ++ List.concat (map (fun k =>
         Id ty ++ Call [read_at k] ++ Op "<<" ++ Lit (k * 8)
         ++ (if (k <? intBytes - 1)%Z then Op "|" else [])) (upto 1 intBytes)).

(** The target of a reader's assignment: generation/complex.go:257-263. *)
Definition read_target : list tok :=
  (if is_buffer then Id "out" else Parens (Op "*" ++ Id "out")) ++ Index (Id "i").

(** [*( *floatN)(unsafe.Pointer(&u))]: generation/complex.go:282-284, 302-304. *)
Definition float_of_u : list tok :=
  Op "*" ++ Parens (Op "*" ++ Id intType)
  ++ Parens (Id "unsafe" ++ Dot "Pointer" ++ Call [Op "&" ++ Id "u"]).

(** The body of a reader: generation/complex.go:207-311. *)
Definition read_body : list (list tok) :=
  (if is_buffer then [Id "out" ++ Op "=" ++ Id "make" ++ Call [Index [] ++ Id intType; Id "n"]] else [])
  ++ [Id "i" ++ Op ":=" ++ Id "int64" ++ Call [Lit 0]]
  ++ (if is_float then [Var ++ Id "u" ++ Id uintType] else [])
  ++ [Block (
       [Id "read_loop:"]
       ++ (if is_float then [Id "u" ++ Op "=" ++ Call [or_chain uintType]] else [])
       ++ [read_target ++ Op "=" ++ (if is_float then float_of_u else or_chain intType)]
       ++ [Id "i" ++ Op "++"]
       ++ [If (Id "i" ++ Op "<" ++ Id "n") ++ Block [Goto ++ Id "read_loop"]])].

(** The integer whose bytes a writer stores: [data[i]], or for floats
    [*( *uintN)(unsafe.Pointer(&data[i]))]. *)
Definition write_value : list tok :=
  if is_float then
    Op "*" ++ Parens (Op "*" ++ Id uintType)
    ++ Parens (Id "unsafe" ++ Dot "Pointer" ++ Call [Op "&" ++ Id "data" ++ Index (Id "i")])
  else Id "data" ++ Index (Id "i").

(** [b.buf[off+int64(...)] = byte(...)], with [k = 0] for the first byte and
    [sh = 0] for no shift: generation/complex.go:318-370. *)
Definition write_byte (k sh : Z) : list tok :=
  Id "b" ++ Dot "buf"
  ++ Index (Id "off" ++ Op "+" ++ Id "int64"
            ++ Call [if (k =? 0)%Z then Id "i" ++ Op "*" ++ Lit intBytes
                     else Lit k ++ Op "+" ++ i_times])
  ++ Op "=" ++ Id "byte"
  ++ Call [write_value ++ (if (sh =? 0)%Z then [] else Op ">>" ++ Lit sh)].

(** The body of a writer: generation/complex.go:313-375.  Big-endian: the first
    byte with the largest shift, then [i] from N-1 down to 2 at index N-i with
    shift (i-1)*8, then the last byte. *)
Definition write_body : list (list tok) :=
  [Id "i" ++ Op ":=" ++ Lit 0;
   Id "n" ++ Op ":=" ++ Len (Id "data");
   Block (
     [Id "write_loop:"]
     ++ (if is_be then
           [write_byte 0 ((intBytes - 1) * 8)]
           ++ map (fun i => write_byte (intBytes - i) ((i - 1) * 8)) (downto intBytes 2)
           ++ [write_byte (intBytes - 1) 0]
         else
           [write_byte 0 0]
           ++ map (fun i => write_byte i (i * 8)) (upto 1 intBytes))
     ++ [Id "i" ++ Op "++"]
     ++ [If (Id "i" ++ Op "<" ++ Id "n") ++ Block [Goto ++ Id "write_loop"]])].

(** The bounds checks of [Buffer]: generation/complex.go:188-204. *)
Definition checks : list (list tok) :=
  if is_buffer then
    [If (Parens (Id "off" ++ Op "+"
                 ++ (if is_read then Id "n" else Id "int64" ++ Call [Len (Id "data")])
                 ++ Op "*" ++ Lit intBytes) ++ Op ">" ++ Id "b" ++ Dot "cap")
     ++ Block [Panic (Id (if is_read then "BufferOverreadError" else "BufferOverwriteError"))];
     If (Id "off" ++ Op "<" ++ Lit 0)
     ++ Block [Panic (Id (if is_read then "BufferUnderreadError" else "BufferUnderwriteError"))]]
  else [].

(** The comments and the signature: generation/complex.go:141-185, 391-427. *)
Definition comments (name where_ how last : string) : list (list tok) :=
  [Comment ("// " @@ name @@ " " @@ (if is_read then "reads" else "writes") @@ " a slice of "
            @@ intType @@ "s " @@ (if is_read then "from" else "to") @@ " the buffer at the");
   Comment ("// " @@ where_ @@ " offset in " @@ (if is_be then "big-endian" else "little-endian") @@ how);
   Comment last].
Definition signature (name : string) (with_off : bool) : list tok :=
  let ints := if with_off then [Id "off"; Id "n" ++ Id "int64"] else [Id "n" ++ Id "int64"] in
  Func ++ Params [Id "b" ++ Op "*" ++ Id (a_recv a)] ++ Id name
  ++ (if is_read then
        if is_buffer then Params ints ++ Params [Id "out" ++ Index [] ++ Id intType]
        else Params ([Id "out" ++ Op "*" ++ Index [] ++ Id intType] ++ ints)
      else Params ((if with_off then [Id "off" ++ Id "int64"] else [])
                   ++ [Id "data" ++ Index [] ++ Id intType])).

(** The first function: generation/complex.go:141-380. *)
Definition method_code : list tok :=
  Render (comments functionName "specified" " without modifying the internal" "// offset value"
    ++ [signature functionName true
        ++ Block (checks ++ (if is_read then read_body else write_body)
                  ++ (if is_buffer && is_read then [Return] else []))]).

(** The second function: generation/complex.go:391-457. *)
Definition next_body : list (list tok) :=
  if is_read then
    [if is_buffer
     then Id "out" ++ Op "=" ++ Id "b" ++ Dot functionName ++ Call [Id "b" ++ Dot "off"; Id "n"]
     else Id "b" ++ Dot functionName ++ Call [Id "out"; Id "b" ++ Dot "off"; Id "n"];
     Id "b" ++ Dot "SeekByte" ++ Call [Id "n" ++ Op "*" ++ Lit intBytes; TrueLit]]
    ++ (if is_buffer then [Return] else [])
  else
    [Id "b" ++ Dot functionName ++ Call [Id "b" ++ Dot "off"; Id "data"];
     Id "b" ++ Dot "SeekByte"
     ++ Call [Id "int64" ++ Call [Len (Id "data")] ++ Op "*" ++ Lit intBytes; TrueLit]].
Definition next_code : list tok :=
  Render (comments functionNameNext "current" " and moves the offset forward the" "// amount of bytes written"
    ++ [signature functionNameNext false ++ Block next_body]).

(** What a valid magic comment is replaced with: generation/complex.go:382-461. *)
Definition code_of : list tok := method_code ++ next_code.
End Code.

(** ** GenerateComplex *)

(** One line of a source file; [render] is the text of the generated code.
    generation/complex.go:85-462. *)
Definition replace (render : args -> string) (line : string) : string :=
  match magic line with
  | Some a => match invalid a with Some msg => msg | None => render a end
  | None => line
  end.
(** generation/complex.go:77-465, for one file. *)
Definition generate (render : args -> string) (source : string) : string :=
  text_of (map (replace render) (lines_of source)).

(** ** main *)

(** A directory: file names and contents. *)
Definition dir : Type := string -> option string.

Fixpoint ends_with (suffix s : string) : bool :=
  (s =? suffix) || match s with EmptyString => false | String _ r => ends_with suffix r end.
Definition starts_with (p s : string) : bool := match strip_prefix p s with Some _ => true | None => false end.
(** strings.TrimPrefix and strings.TrimSuffix *)
Definition trim_prefix (p s : string) : string := match strip_prefix p s with Some r => r | None => s end.
Definition trim_suffix (suffix s : string) : string :=
  if ends_with suffix s then substring 0 (String.length s - String.length suffix) s else s.

(** generation/main.go:69: the files the generator reads (directories left out). *)
Definition is_source (name : string) : bool := ends_with ".go" name && starts_with "_" name.
(** generation/main.go:105 *)
Definition out_name (name : string) : string := trim_suffix ".go" (trim_prefix "_" name) ++ ".generated.go".

(** generation/main.go:105-116: the file is opened without O_TRUNC and written
    from its start. *)
Fixpoint overwrite (old new : string) : string :=
  match new, old with
  | EmptyString, _ => old
  | String c r, EmptyString => new
  | String c r, String _ o => String c (overwrite o r)
  end.
Definition content (d : dir) (name : string) : string := match d name with Some t => t | None => "" end.
Definition write_file (d : dir) (name text : string) : dir :=
  fun x => if x =? name then Some (overwrite (content d name) text) else d x.

(** generation/main.go:67-119.  All sources are read before anything is written;
    [names] is the order in which Go walks the map of sources, which is
    arbitrary. *)
Definition run_main (render : args -> string) (names : list string) (d : dir) : dir :=
  fold_left (fun d' nm => write_file d' (out_name nm) (generate render (content d nm))) names d.
