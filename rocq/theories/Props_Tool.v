(** * Props_Tool: the code generator as its Go text says (C78, C79). *)
From Coq Require Import ZArith List Bool String Ascii Permutation Lia.
From Verif Require Import GoLex GoParse SrcV3 Gen GenSpec GenLemmas ToolParse ToolRegex ToolEval ToolRegexLemmas SrcGen ToolText ToolLemmas ToolSpec ToolMainLemmas.
From Verif Require Import Props_Gen.
Import ListNotations.
Open Scope string_scope.

(** ** C78: GenerateComplex *)

(** C78: the text of GenerateComplex, called with a map from names to contents,
    returns that map and no error.  The contents of every file have become
    [generate] of what they were; no other object, no variable and no file has
    changed.  That holds whatever jennifer makes of the code and in whatever order
    Go walks the map. *)
Theorem C78_generate_complex W (files : list (string * string)) r z s v1 v2 :
  NoDup (map fst files) -> (forall k names, Permutation (order W k names) names) ->
  globals s = [("directoryName", v1); ("generationKind", v2)] ->
  nth_error (heap s) r = Some (OMap z (map (fun p => (fst p, VStr (snd p))) files)) ->
  exists s', tool_call W "GenerateComplex" [VRef r] s = Some (VTup [VRef r; VNil], s')
    /\ nth_error (heap s') r
       = Some (OMap z (map (fun p => (fst p, VStr (generate (rendered W) (snd p)))) files))
    /\ (forall r', r' <> r -> nth_error (heap s') r' = nth_error (heap s) r')
    /\ globals s' = globals s /\ disk s' = disk s.
Proof.
  intros N P G H. destruct s as [h g fl ins d w]. cbn [globals heap disk] in *. subst g.
  eexists. split.
  - unfold tool_call, call_in. rewrite program_read, complex_found.
    exact (complex_run W r z files h v1 v2 fl ins d w _ N H P _ complex_found).
  - cbn [heap globals disk]. split; [|split; [|auto]].
    + rewrite put_nth by (apply nth_error_Some; rewrite H; discriminate).
      unfold as_map. rewrite map_map. cbn [fst snd]. do 2 f_equal. apply map_ext. intros p.
      do 2 f_equal. apply generate_ext, as_render.
    + intros r' D. clear - D. revert r' r D. induction h as [|o h IH]; intros [|r'] [|r] D; cbn; try congruence.
      apply IH. congruence.
Qed.
Print Assumptions C78_generate_complex.

(** The printer that puts blanks between tokens. *)
Definition plain_layout (l : list tok) : option string := Some (fold_right append "" (map print_tok l)).
Lemma plain_parts :
  map (fun c => option_map (fun t => lex_lines false (lines_of t)) (plain_layout c))
    (map method_code valid_args ++ map next_code valid_args)
  = map (fun c => Some (false, c)) (map method_code valid_args ++ map next_code valid_args).
Proof. vm_compute. reflexivity. Qed.
(** A world where nothing fails. *)
Definition ex_world : world :=
  mkWorld plain_layout (fun _ l => rev l) (fun f => if f =? "generation" then Some "complex" else None) Some true
    [("_x.go", false); ("lib.go", false); ("sub", true); ("x.generated.go", false)]
    (fun _ _ => false) (fun _ => "") (fun _ => 0).
Lemma plain_prints W : layout W = plain_layout -> prints W.
Proof.
  intros L a c I C. rewrite L.
  assert (E : In c (map method_code valid_args ++ map next_code valid_args)).
  { apply in_or_app. destruct C as [->| ->]; [left|right]; apply in_map, I. }
  pose proof (map_eq_in _ _ _ plain_parts c E) as Q. cbv beta in Q.
  destruct (plain_layout c) as [t|]; [|discriminate]. injection Q as Q. exists t. auto.
Qed.
Example ex_world_prints : prints ex_world.
Proof. apply plain_prints. reflexivity. Qed.
Example ex_world_sane : sane ex_world.
Proof.
  split.
  - cbn. repeat constructor; cbn; intuition discriminate.
  - intros k names. symmetry. apply Permutation_rev.
Qed.
Example C78_generate_complex_case :
  let s := mkSt [OCell (VStr "."); OMap (VStr "") [("_a.go", VStr "//generator:complex Buffer Read U 8 LE"); ("_b.go", VStr "package b")]]
             [("directoryName", VRef 0); ("generationKind", VNil)] [] false (fun _ => None) 0 in
  option_map (fun p => nth_error (heap (snd p)) 1) (tool_call ex_world "GenerateComplex" [VRef 1] s)
  = Some (Some (OMap (VStr "") [("_a.go", VStr "// invalid argument provided in position three:8"); ("_b.go", VStr "package b")])).
Proof. vm_compute. reflexivity. Qed.

(** C78: with a printer as [prints] says, what GenerateComplex makes of the two
    templates reads as the committed files, token for token. *)
Lemma rendered_renders W : prints W -> renders (rendered W).
Proof.
  intros P a V. apply invalid_spec in V. unfold rendered.
  destruct (P a (method_code a) V (or_introl eq_refl)) as (t1 & -> & L1).
  destruct (P a (next_code a) V (or_intror eq_refl)) as (t2 & -> & L2).
  rewrite lines_of_app, lex_lines_app, L1. cbv iota beta.
  change (String newline t2) with ("" ++ String newline t2). rewrite lines_of_app, lex_lines_app.
  change (lex_lines false (lines_of "")) with (false, @nil tok). cbv iota beta. rewrite L2. reflexivity.
Qed.
Theorem C78_committed_files W files r z s v1 v2 :
  prints W -> (forall k names, Permutation (order W k names) names) ->
  globals s = [("directoryName", v1); ("generationKind", v2)] ->
  NoDup (map fst files) ->
  nth_error (heap s) r = Some (OMap z (map (fun p => (fst p, VStr (snd p))) files)) ->
  In ("_buffer.go", text_of v3_buffer_template) files ->
  In ("_minibuf.go", text_of v3_minibuf_template) files ->
  exists s' m t1 t2, tool_call W "GenerateComplex" [VRef r] s = Some (VTup [VRef r; VNil], s')
    /\ nth_error (heap s') r = Some (OMap z m)
    /\ In ("_buffer.go", VStr t1) m /\ lex_file (lines_of t1) = lex_file v3_buffer
    /\ In ("_minibuf.go", VStr t2) m /\ lex_file (lines_of t2) = lex_file v3_minibuf.
Proof.
  intros P O G N H I1 I2.
  destruct (C78_generate_complex W files r z s v1 v2 N O G H) as (s' & E & M & _).
  destruct (C51_committed_files (rendered W) (rendered_renders W P)) as [L1 L2].
  eexists s', _, _, _. split; [exact E|]. split; [exact M|]. split; [|split; [exact L1|split; [|exact L2]]].
  - exact (in_map (fun p => (fst p, VStr (generate (rendered W) (snd p)))) files _ I1).
  - exact (in_map (fun p => (fst p, VStr (generate (rendered W) (snd p)))) files _ I2).
Qed.
Print Assumptions C78_committed_files.

(** Function literals capture no variable that is assigned later: taking the
    values of the variables they use is the same as taking the variables. *)
Example C78_captures : match program with Some (_, ds) => no_late_assignment ds | None => false end = true.
Proof. exact captures_ok. Qed.

(** ** C79: a run of the program *)

(** C79: whatever fails, the program ends.  Afterwards the files are those of
    [files_after]. *)
Theorem C79_run W d : sane W ->
  exists s, tool_run W d = Some (VTup [], s) /\ forall x, disk s x = files_after W d x.
Proof. intros [N P]. apply main_run; assumption. Qed.
Print Assumptions C79_run.

Lemma reads_iff W d n t : In (n, t) (sources_read W d) <-> reads W d n t.
Proof.
  unfold sources_read, reads. rewrite in_flat_map. split.
  - intros ([m b] & I & H). unfold source_read in H. cbn [fst snd] in H.
    destruct (is_source m) eqn:S; [|destruct H]. destruct b; [destruct H|]. cbn [negb andb] in H.
    destruct (d m) as [u|] eqn:D; [|destruct H]. destruct (fails W "Open" m) eqn:F; [destruct H|].
    destruct H as [H|[]]. injection H as <- <-. repeat split; auto. exists u. auto.
  - intros (I & S & F & u & D & ->). exists (n, false). split; [exact I|]. unfold source_read. cbn [fst snd].
    rewrite S, D, F. left. reflexivity.
Qed.
Lemma in_order_iff names l : NoDup (map fst l) -> (forall x, In x names <-> In x (map fst l)) ->
  forall n t, In (n, t) (in_order names l) <-> In (n, t) l.
Proof.
  intros N S n t. unfold in_order. rewrite in_flat_map.
  assert (A : assoc n l = Some t <-> In (n, t) l).
  { clear S. induction l as [|[y u] l IH]; cbn in *; [split; [discriminate|tauto]|].
    inversion_clear N as [|? ? N1 N2]. destruct (String.eqb_spec n y) as [->|D].
    - split; [intros [= ->]; auto|]. intros [[= ->]|H]; [reflexivity|]. destruct N1. apply (in_map fst) in H. exact H.
    - rewrite IH by exact N2. split; [auto|]. intros [[= -> ->]|H]; [contradiction|exact H]. }
  split.
  - intros (x & _ & H). destruct (assoc x l) as [u|] eqn:E; [|destruct H].
    destruct H as [[= -> ->]|[]]. apply A, E.
  - intros H. exists n. split.
    + apply S. apply (in_map fst) in H. exact H.
    + apply A in H. rewrite H. left. reflexivity.
Qed.
Lemma in_order_fst names l : (forall x, In x names -> In x (map fst l)) -> map fst (in_order names l) = names.
Proof.
  induction names as [|x names IH]; intros S; [reflexivity|]. cbn [in_order flat_map].
  destruct (assoc_in x l) as [t ->]; [apply S; left; reflexivity|]. cbn [app map fst]. f_equal.
  apply IH. intros y Y. apply S. right. exact Y.
Qed.
Lemma writes_other W l d x : (forall n t, In (n, t) l -> x <> out_name n) ->
  fold_left (write_result W) l d x = d x.
Proof.
  revert d. induction l as [|[n t] l IH]; intros d H; [reflexivity|]. cbn [fold_left].
  rewrite IH by (intros; apply (H n0 t0); right; assumption).
  unfold write_result. cbn [fst]. destruct (fails W "OpenFile" (out_name n)); [reflexivity|].
  apply write_file_other. apply (H n t). left. reflexivity.
Qed.
Lemma writes_file W l d n t : NoDup (map (fun p => out_name (fst p)) l) -> In (n, t) l ->
  fold_left (write_result W) l d (out_name n) = output W d (out_name n) (generate (rendered W) t).
Proof.
  revert d. induction l as [|[m u] l IH]; intros d ND I; [destruct I|]. cbn [fold_left map fst] in *.
  inversion_clear ND as [|? ? N1 N2]. destruct I as [[= -> ->]|I].
  - rewrite writes_other.
    + unfold write_result, output. cbn [fst snd]. destruct (fails W "OpenFile" (out_name n)); [reflexivity|].
      apply write_file_same.
    + intros n' t' I E. apply N1. rewrite E. exact (in_map (fun p => out_name (fst p)) _ _ I).
  - rewrite IH by assumption.
    assert (E : write_result W d (m, u) (out_name n) = d (out_name n)).
    { unfold write_result. cbn [fst]. destruct (fails W "OpenFile" (out_name m)); [reflexivity|].
      apply write_file_other. intros E. apply N1. rewrite <- E. exact (in_map (fun p => out_name (fst p)) _ _ I). }
    unfold output. rewrite E. unfold content. rewrite E. reflexivity.
Qed.

(** C79, file by file.  Unless the directory cannot be used or the command line
    does not ask for "complex", every source that could be opened gets its output
    file, whatever happened with the other ones.  Nothing else changes. *)
Theorem C79_each_file W d : sane W ->
  exists s, tool_run W d = Some (VTup [], s)
    /\ (starts W = false -> forall x, disk s x = d x)
    /\ (starts W = true ->
        (forall n t, reads W d n t -> disk s (out_name n) = output W d (out_name n) (generate (rendered W) t))
        /\ forall x, (forall n t, reads W d n t -> x <> out_name n) -> disk s x = d x).
Proof.
  intros S. destruct (C79_run W d S) as (s & R & E). destruct S as [N P].
  exists s. split; [exact R|]. unfold files_after in E. split.
  - intros F x. rewrite E, F. reflexivity.
  - intros T. rewrite T in E.
    set (l := sources_read W d) in *. set (o := order W 1 (map fst l)) in *.
    assert (ND : NoDup (map fst l)) by (apply ToolMainLemmas.sources_nodup, N).
    assert (Q : Permutation o (map fst l)) by apply P.
    assert (I : forall n t, In (n, t) (in_order o l) <-> reads W d n t).
    { intros n t. rewrite in_order_iff; [apply reads_iff|exact ND|].
      intros x. split; [apply Permutation_in, Q|apply Permutation_in, Permutation_sym, Q]. }
    split.
    + intros n t H. rewrite E. apply writes_file; [|apply I, H].
      assert (M : map fst (in_order o l) = o) by (apply in_order_fst; intros x; apply Permutation_in, Q).
      assert (D : NoDup (map fst (in_order o l))).
      { rewrite M. exact (Permutation_NoDup (Permutation_sym Q) ND). }
      assert (S : forall p, In p (in_order o l) -> is_source (fst p) = true).
      { intros [m u] H'. apply I in H'. apply H'. }
      clear - D S. induction (in_order o l) as [|p q IH]; cbn [map] in *; [constructor|].
      inversion_clear D as [|? ? D1 D2]. constructor; [|apply IH; [exact D2|intros; apply S; right; assumption]].
      intros H. apply in_map_iff in H as (p' & E & H). apply D1.
      rewrite <- (out_name_inj (fst p') (fst p)); [apply in_map, H| | |exact E]; apply S; [right; exact H|left; reflexivity].
    + intros x H. rewrite E. apply writes_other. intros n t H'. apply (H n t), I, H'.
Qed.
Print Assumptions C79_each_file.
Example C79_each_file_case :
  let d x := if x =? "_x.go" then Some "package x" else if x =? "x.generated.go" then Some "package x // old" else None in
  sane ex_world /\ starts ex_world = true /\ reads ex_world d "_x.go" "package x"
  /\ option_map (fun p => disk (snd p) "x.generated.go") (tool_run ex_world d) = Some (Some "package x // old").
Proof.
  split; [exact ex_world_sane|]. split; [reflexivity|]. split.
  - split; [left; reflexivity|]. split; [reflexivity|]. split; [reflexivity|]. eexists. split; reflexivity.
  - vm_compute. reflexivity.
Qed.

(** C79: when nothing fails the program does what [run_main] of C52 and C63 does
    with the sources of the directory. *)
Theorem C79_no_failure W d names : sane W -> no_failure W d -> cmdline W "generation" = Some "complex" ->
  sources d names ->
  exists s, tool_run W d = Some (VTup [], s) /\ forall x, disk s x = run_main (rendered W) names d x.
Proof.
  intros S (A & ID & F & L) K SR.
  destruct (C79_each_file W d S) as (s & R & _ & B). exists s. split; [exact R|].
  assert (ST : starts W = true).
  { unfold starts, flag_value. rewrite K, ID.
    destruct (abs_path W _) as [p|] eqn:E; [|destruct (A _ E)]. rewrite !F. reflexivity. }
  destruct (B ST) as [B1 B2]. clear B.
  assert (I : forall n t, reads W d n t <-> In n names /\ d n = Some t).
  { intros n t. unfold reads. rewrite (proj2 SR n), L, F, F. split.
    - intros (I & J & _ & u & D & ->). rewrite D. repeat split; congruence.
    - intros ((I & J) & D). repeat split; auto. exists t. auto. }
  intros x. unfold run_main.
  destruct (in_dec String.string_dec x (map out_name names)) as [H|H].
  - apply in_map_iff in H as (n & <- & H).
    rewrite (run_file (fun nm => generate (rendered W) (content d nm))) by (eauto using Props_Gen.sources_nodup).
    destruct (proj1 (proj2 SR n) H) as [_ D]. destruct (d n) as [t|] eqn:E; [|contradiction].
    rewrite (B1 n t) by (apply I; auto). unfold output. rewrite !F. unfold content at 3. rewrite E. reflexivity.
  - rewrite (run_other (fun nm => generate (rendered W) (content d nm))) by exact H.
    apply B2. intros n t Q E. apply H. rewrite E. apply in_map. apply I in Q. tauto.
Qed.
Print Assumptions C79_no_failure.
Example C79_no_failure_case :
  let d x := if x =? "_x.go" then Some "package x" else if x =? "lib.go" then Some "" else
             if x =? "x.generated.go" then Some "old" else None in
  sane ex_world /\ no_failure ex_world d /\ cmdline ex_world "generation" = Some "complex" /\ sources d ["_x.go"].
Proof.
  cbv zeta. split; [exact ex_world_sane|]. split; [|split; [reflexivity|]].
  - split; [discriminate|]. split; [reflexivity|]. split; [reflexivity|]. intros n. cbn [ex_world listing In].
    destruct (String.eqb_spec n "_x.go") as [->|N1]; [split; [discriminate|auto]|].
    destruct (String.eqb_spec n "lib.go") as [->|N2]; [split; [discriminate|auto]|].
    destruct (String.eqb_spec n "x.generated.go") as [->|N3]; [split; [discriminate|auto 6]|].
    split; [|intros []; reflexivity]. intros [[= H]|[[= H]|[[=]|[[= H]|[]]]]]; congruence.
  - split; [repeat constructor; intros []|]. intros n. cbn [In].
    destruct (String.eqb_spec n "_x.go") as [->|N1]; [split; [intros _; split; [reflexivity|discriminate]|auto]|].
    destruct (String.eqb_spec n "lib.go") as [->|N2]; [split; [intros [H|[]]; discriminate|intros [H _]; discriminate]|].
    destruct (String.eqb_spec n "x.generated.go") as [->|N3]; [split; [intros [H|[]]; discriminate|intros [H _]; discriminate]|].
    split; [intros [H|[]]; congruence|intros [_ []]; reflexivity].
Qed.

(** C79: in a directory with the two templates and no old outputs the program
    writes files that read as the committed ones. *)
Theorem C79_committed W d : sane W -> no_failure W d -> cmdline W "generation" = Some "complex" -> prints W ->
  d "_buffer.go" = Some (text_of v3_buffer_template) -> d "_minibuf.go" = Some (text_of v3_minibuf_template) ->
  d "buffer.generated.go" = None -> d "minibuf.generated.go" = None ->
  exists s t1 t2, tool_run W d = Some (VTup [], s)
    /\ disk s "buffer.generated.go" = Some t1 /\ lex_file (lines_of t1) = lex_file v3_buffer
    /\ disk s "minibuf.generated.go" = Some t2 /\ lex_file (lines_of t2) = lex_file v3_minibuf.
Proof.
  intros S (A & ID & F & L) K P D1 D2 O1 O2.
  destruct (C79_each_file W d S) as (s & R & _ & B).
  assert (ST : starts W = true).
  { unfold starts, flag_value. rewrite K, ID.
    destruct (abs_path W _) as [p|] eqn:E; [|destruct (A _ E)]. rewrite !F. reflexivity. }
  destruct (B ST) as [B1 _]. clear B.
  destruct (C51_committed_files (rendered W) (rendered_renders W P)) as [L1 L2].
  eexists s, _, _. split; [exact R|].
  assert (X : forall n t, d n = Some t -> is_source n = true -> d (out_name n) = None ->
            disk s (out_name n) = Some (generate (rendered W) t)).
  { intros n t D Q O. rewrite (B1 n t).
    - unfold output. rewrite !F. unfold content. rewrite O. destruct (generate (rendered W) t); reflexivity.
    - split; [apply L; rewrite D; discriminate|]. split; [exact Q|]. split; [apply F|]. exists t. rewrite F. auto. }
  split; [exact (X _ _ D1 eq_refl O1)|]. split; [exact L1|]. split; [exact (X _ _ D2 eq_refl O2)|exact L2].
Qed.
Print Assumptions C79_committed.
Example C79_committed_case :
  let W := mkWorld plain_layout (fun _ l => l) (fun f => if f =? "generation" then Some "complex" else None) Some true
             [("_minibuf.go", false); ("_buffer.go", false)] (fun _ _ => false) (fun _ => "") (fun _ => 0) in
  let d x := if x =? "_buffer.go" then Some (text_of v3_buffer_template)
             else if x =? "_minibuf.go" then Some (text_of v3_minibuf_template) else None in
  sane W /\ no_failure W d /\ cmdline W "generation" = Some "complex" /\ prints W
  /\ d "_buffer.go" = Some (text_of v3_buffer_template) /\ d "_minibuf.go" = Some (text_of v3_minibuf_template)
  /\ d "buffer.generated.go" = None /\ d "minibuf.generated.go" = None.
Proof.
  cbv zeta. split; [|split; [|split; [reflexivity|split; [apply plain_prints; reflexivity|repeat split]]]].
  - split; [repeat constructor; cbn; intuition discriminate|]. intros k names. apply Permutation_refl.
  - split; [discriminate|]. split; [reflexivity|]. split; [reflexivity|]. intros n. cbn [listing In].
    destruct (String.eqb_spec n "_buffer.go") as [->|N1]; [split; [discriminate|auto]|].
    destruct (String.eqb_spec n "_minibuf.go") as [->|N2]; [split; [discriminate|auto]|].
    split; [|intros []; reflexivity]. intros [[= H]|[[= H]|[]]]; congruence.
Qed.

(** C79, refuted: a source that could not be read to its end is not left out.
    What was read of it is generated from and written, as if it were the source. *)
Definition half_read : world :=
  mkWorld plain_layout (fun _ l => l) (fun f => if f =? "generation" then Some "complex" else None) Some true
    [("_x.go", false)] (fun c x => c =? "ReadAll") (fun _ => "package") (fun _ => 0).
Theorem C79_unread_left_out_refuted :
  ~ (forall W d n, sane W -> fails W "ReadAll" n = true ->
       exists s, tool_run W d = Some (VTup [], s) /\ disk s (out_name n) = d (out_name n)).
Proof.
  intros H.
  destruct (H half_read (fun x => if x =? "_x.go" then Some "package x" else None) "_x.go") as (s & R & E).
  - split; [repeat constructor; intros []|]. intros k names. apply Permutation_refl.
  - reflexivity.
  - vm_compute in R. injection R as <-. vm_compute in E. discriminate.
Qed.
Print Assumptions C79_unread_left_out_refuted.
