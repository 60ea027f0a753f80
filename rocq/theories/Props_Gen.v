(** * Props_Gen: properties of the code generator of v3 (C51, C52, C63). *)
From Coq Require Import ZArith List Bool String Ascii Lia Permutation DecimalString.
From Verif Require Import GoLex GoParse SrcV3 AstV3 Gen GenSpec GenLemmas.
Import ListNotations.
Open Scope string_scope.

(** ** C51: the generator and the committed files *)

(** C51: run on the source templates of the repository, the generator produces
    the two committed files, token for token and comment for comment, however
    jennifer lays the code out. *)
Theorem C51_committed_files render :
  renders render ->
  lex_file (lines_of (generate render (text_of v3_buffer_template))) = lex_file v3_buffer
  /\ lex_file (lines_of (generate render (text_of v3_minibuf_template))) = lex_file v3_minibuf.
Proof.
  intros R. unfold lex_file. split.
  - rewrite (generate_lex render v3_buffer_template (lex_lines false v3_buffer)); [reflexivity|assumption| | |].
    + discriminate.
    + exact lines_buffer.
    + exact expand_buffer.
  - rewrite (generate_lex render v3_minibuf_template (lex_lines false v3_minibuf)); [reflexivity|assumption| | |].
    + discriminate.
    + exact lines_minibuf.
    + exact expand_minibuf.
Qed.
Print Assumptions C51_committed_files.

Example plain_renders : renders plain.
Proof.
  intros a H. apply invalid_spec in H. exact (map_eq_in _ _ _ plain_all a H).
Qed.

(** C51: the generated code is Go for exactly two functions, called as the
    arguments say, and for every valid combination of arguments but the
    half-precision floats they are the functions of that name in the committed
    file of the receiver. *)
Theorem C51_functions a :
  invalid a = None -> ~ float16 a ->
  exists decls f g,
    parse (committed (a_recv a)) = Some decls
    /\ p_decls fuel (no_comments (code_of a)) = Some [f; g]
    /\ In f decls /\ is_func (a_recv a) (method_name a) f = true
    /\ In g decls /\ is_func (a_recv a) (method_name a ++ "Next") g = true.
Proof.
  intros V F. exists (committed_ast (a_recv a)).
  assert (P : parse (committed (a_recv a)) = Some (committed_ast (a_recv a))).
  { unfold committed, committed_ast. destruct (a_recv a =? "Buffer");
      [apply buffer_ast_parsed|apply minibuf_ast_parsed]. }
  assert (I : In a (filter (fun a => negb ((a_sn a =? "F") && (a_is a =? "16"))) valid_args)).
  { apply filter_In. split; [apply invalid_spec; assumption|].
    destruct (String.eqb_spec (a_sn a) "F"), (String.eqb_spec (a_is a) "16"); cbn; try reflexivity.
    exfalso. apply F. split; assumption. }
  pose proof (map_eq_in _ _ _ generated_all a I) as G. cbn beta in G.
  assert (L : List.length (filter (is_func (a_recv a) (method_name a)) (committed_ast (a_recv a))) = 1
           /\ List.length (filter (is_func (a_recv a) (method_name a ++ "Next")) (committed_ast (a_recv a))) = 1).
  { clear -I. revert a I. apply Forall_forall.
    match goal with |- Forall ?P ?l => let v := eval vm_compute in l in change (Forall P v) end.
    repeat constructor; vm_compute; reflexivity. }
  destruct L as [L1 L2].
  destruct (filter (is_func (a_recv a) (method_name a)) (committed_ast (a_recv a))) as [|f [|]] eqn:E1; try discriminate.
  destruct (filter (is_func (a_recv a) (method_name a ++ "Next")) (committed_ast (a_recv a))) as [|g [|]] eqn:E2; try discriminate.
  exists f, g. rewrite P, G.
  assert (If : In f (filter (is_func (a_recv a) (method_name a)) (committed_ast (a_recv a)))) by (rewrite E1; left; reflexivity).
  assert (Ig : In g (filter (is_func (a_recv a) (method_name a ++ "Next")) (committed_ast (a_recv a)))) by (rewrite E2; left; reflexivity).
  apply filter_In in If, Ig. tauto.
Qed.
Print Assumptions C51_functions.

(** Non-vacuity: the arguments of a committed function. *)
Example C51_functions_case :
  invalid (mkArgs "Buffer" "Read" "U" "32" "BE") = None /\ ~ float16 (mkArgs "Buffer" "Read" "U" "32" "BE")
  /\ method_name (mkArgs "Buffer" "Read" "U" "32" "BE") = "ReadU32BE".
Proof. repeat split. intros [H _]. discriminate. Qed.

(** C51, the exception: the generator accepts half-precision floats and emits
    code over [float16], a type Go does not have. *)
Theorem C51_float16_accepted_refuted :
  (exists a, invalid a = None /\ float16 a)
  /\ forall a, invalid a = None -> float16 a -> In (TId "float16") (code_of a).
Proof.
  split.
  - exists (mkArgs "Buffer" "Read" "F" "16" "BE"). repeat split.
  - intros [r w s i e] V [F1 F2]. cbn in F1, F2. subst s i. apply invalid_spec in V. apply in_valid in V.
    destruct V as (R & W & _ & _ & E). cbn in R, W, E.
    assert (D : forall a l, existsb (tok_eqb (TId "float16")) l = true -> In (TId "float16") (l ++ a)%list).
    { intros a l H. apply in_or_app. left. apply existsb_exists in H as (x & Hx & E').
      destruct x as [q| | | | | |]; try discriminate. change (("float16" =? q) = true) in E'. apply String.eqb_eq in E'. subst. assumption. }
    apply D.
    destruct R as [<-|[<-|[]]], W as [<-|[<-|[]]], E as [<-|[<-|[]]]; vm_compute; reflexivity.
Qed.
Print Assumptions C51_float16_accepted_refuted.

(** C51: a text is processed line by line; ordinary lines are copied, a magic
    comment with valid arguments becomes their code and one with an invalid
    argument becomes a comment naming it. *)
Theorem C51_line_by_line render :
  (forall s r, generate render (s ++ String newline r)
               = generate render s ++ String newline (generate render r))
  /\ (forall l, no_char newline l = true ->
        (forall a b c d e, is_word a && is_word b && is_word c && is_number d && is_word e = true ->
           l <> "//generator:complex " ++ a ++ " " ++ b ++ " " ++ c ++ " " ++ d ++ " " ++ e) ->
        generate render l = l)
  /\ (forall a, In a valid_args ->
        generate render ("//generator:complex " ++ a_recv a ++ " " ++ a_rw a ++ " " ++ a_sn a ++ " "
                         ++ a_is a ++ " " ++ a_en a) = render a)
  /\ (forall a b c d e, is_word a && is_word b && is_word c && is_number d && is_word e = true ->
        ~ In (mkArgs a b c d e) valid_args ->
        exists position culprit,
          In (position, culprit) [("zero", a); ("one", b); ("two", c); ("three", d); ("four", e)]
          /\ generate render ("//generator:complex " ++ a ++ " " ++ b ++ " " ++ c ++ " " ++ d ++ " " ++ e)
             = "// invalid argument provided in position " ++ position ++ ":" ++ culprit).
Proof.
  assert (ML : forall l, magic l <> None -> no_char newline l = true).
  { intros l. destruct (magic l) as [[a b c d e]|] eqn:E; [intros _|congruence].
    apply magic_spec in E as (-> & A & B & C & D & E).
    assert (N : forall s, is_word s = true -> no_char newline s = true).
    { unfold is_word, no_char. intros s H. apply andb_prop in H as [_ H].
      induction s as [|x r IH]; [reflexivity|]. cbn in *. apply andb_prop in H as [H1 H2].
      apply andb_true_intro. split; [|auto].
      destruct (Ascii.eqb x "010") eqn:Q; [apply Ascii.eqb_eq in Q; subst; discriminate|reflexivity]. }
    assert (N' : forall s, is_number s = true -> no_char newline s = true).
    { unfold is_number, no_char. intros s H. apply andb_prop in H as [_ H].
      induction s as [|x r IH]; [reflexivity|]. cbn in *. apply andb_prop in H as [H1 H2].
      apply andb_true_intro. split; [|auto].
      destruct (Ascii.eqb x "010") eqn:Q; [apply Ascii.eqb_eq in Q; subst; discriminate|reflexivity]. }
    assert (AP : forall s r, no_char newline s = true -> no_char newline r = true -> no_char newline (s ++ r) = true).
    { unfold no_char. intros s r Hs Hr. induction s; [assumption|]. cbn in *.
      apply andb_prop in Hs as [-> H]. cbn. auto. }
    repeat apply AP; auto; reflexivity. }
  assert (SG : forall l, no_char newline l = true -> generate render l = replace render l).
  { intros l H. unfold generate. unfold lines_of. rewrite split_on_no_char by assumption. reflexivity. }
  split; [|split; [|split]].
  - intros s r. unfold generate. rewrite lines_of_app, map_app.
    pose proof (split_on_nonempty newline s) as N1. pose proof (split_on_nonempty newline r) as N2.
    unfold lines_of in *. revert N1 N2.
    generalize (split_on newline s), (split_on newline r). clear. intros l1 l2 N1 N2.
    unfold text_of. induction l1 as [|x l1 IH]; [congruence|].
    destruct l1 as [|y l1].
    + cbn [map app]. rewrite join_cons; [reflexivity|]. destruct l2; [congruence|discriminate].
    + cbn [map app] in *. rewrite (join_cons newline (replace render x)) by discriminate.
      rewrite IH by discriminate. rewrite (join_cons newline (replace render x)) by discriminate.
      rewrite append_assoc_s. reflexivity.
  - intros l H N. rewrite SG by assumption. unfold replace.
    destruct (magic l) as [[a b c d e]|] eqn:E; [|reflexivity].
    apply magic_spec in E as (-> & A & B & C & D & E).
    exfalso. apply (N a b c d e); [|reflexivity]. rewrite A, B, C, D, E. reflexivity.
  - intros [a b c d e] V. cbn [a_recv a_rw a_sn a_is a_en].
    assert (M : magic ("//generator:complex " ++ a ++ " " ++ b ++ " " ++ c ++ " " ++ d ++ " " ++ e)
                = Some (mkArgs a b c d e)).
    { apply magic_spec. split; [reflexivity|]. apply in_valid in V. destruct V as (R & W & S & I & E).
      cbn in R, W, S, I, E.
      split; [destruct R as [<-|[<-|[]]]; reflexivity|]. split; [destruct W as [<-|[<-|[]]]; reflexivity|].
      split; [destruct S as [<-|[<-|[<-|[]]]]; reflexivity|].
      split; [destruct I as [<-|[<-|[<-|[]]]]; reflexivity|destruct E as [<-|[<-|[]]]; reflexivity]. }
    rewrite SG by (apply ML; rewrite M; discriminate).
    unfold replace. rewrite M. apply invalid_spec in V. rewrite V. reflexivity.
  - intros a b c d e W V. rewrite !andb_true_iff in W.
    assert (M : magic ("//generator:complex " ++ a ++ " " ++ b ++ " " ++ c ++ " " ++ d ++ " " ++ e)
                = Some (mkArgs a b c d e)) by (apply magic_spec; split; [reflexivity|tauto]).
    rewrite SG by (apply ML; rewrite M; discriminate).
    unfold replace. rewrite M. rewrite <- invalid_spec in V.
    destruct (invalid (mkArgs a b c d e)) as [msg|] eqn:I; [|congruence]. clear V M.
    revert I. unfold invalid. cbn [a_recv a_rw a_sn a_is a_en].
    destruct (one_of2 "Buffer" "MiniBuffer" a); cbn [negb];
      [|intros [= <-]; exists "zero", a; split; [cbn; auto|reflexivity]].
    destruct (one_of2 "Read" "Write" b); cbn [negb];
      [|intros [= <-]; exists "one", b; split; [cbn; auto|reflexivity]].
    destruct (one_of3 "I" "U" "F" c); cbn [negb];
      [|intros [= <-]; exists "two", c; split; [cbn; auto|reflexivity]].
    destruct (one_of3 "16" "32" "64" d); cbn [negb];
      [|intros [= <-]; exists "three", d; split; [cbn; auto|reflexivity]].
    destruct (one_of2 "BE" "LE" e); cbn [negb]; [discriminate|].
    intros [= <-]; exists "four", e; split; [cbn; auto 6|reflexivity].
Qed.
Print Assumptions C51_line_by_line.

(** Non-vacuity: a text with an ordinary line, a valid and an invalid magic comment. *)
Example C51_line_by_line_case :
  generate (fun a => "func " ++ method_name a)
    ("package x" ++ String newline ("//generator:complex Buffer Read U 16 LE"
     ++ String newline "//generator:complex Buffer Read U 8 LE"))
  = "package x" ++ String newline ("func ReadU16LE"
     ++ String newline "// invalid argument provided in position three:8").
Proof. vm_compute. reflexivity. Qed.

(** ** C52: the files the generator writes *)

(** The source files are those called _x.go, and _x.go is written to x.generated.go. *)
Lemma is_source_spec name : is_source name = true <-> exists x, name = "_" ++ x ++ ".go".
Proof.
  unfold is_source. rewrite andb_true_iff, ends_with_spec. unfold starts_with. split.
  - intros [(x & ->) H]. destruct x as [|c x]; cbn in H.
    + discriminate.
    + destruct (Ascii.eqb_spec c "_") as [->|N]; [exists x; reflexivity|].
      exfalso. destruct c as [[] [] [] [] [] [] [] []]; try discriminate; congruence.
  - intros (x & ->). split; [exists ("_" ++ x); reflexivity|reflexivity].
Qed.
Lemma out_name_spec x : out_name ("_" ++ x ++ ".go") = x ++ ".generated.go".
Proof. unfold out_name. cbn [append trim_prefix strip_prefix Ascii.eqb]. 
  change (trim_prefix "_" (String "_" (x ++ ".go"))) with (x ++ ".go").
  rewrite trim_suffix_append. reflexivity. Qed.
Lemma out_name_inj n1 n2 :
  is_source n1 = true -> is_source n2 = true -> out_name n1 = out_name n2 -> n1 = n2.
Proof.
  intros H1 H2. apply is_source_spec in H1 as (x & ->), H2 as (y & ->).
  rewrite !out_name_spec. intros H. apply append_inj_r in H. congruence.
Qed.

(** [names] lists the source files of [d], each once, in any order. *)
Definition sources (d : dir) (names : list string) : Prop :=
  NoDup names /\ forall n, In n names <-> is_source n = true /\ d n <> None.

(** What the generator makes of the file [n] of [d]. *)
Definition wanted (render : args -> string) (d : dir) (n : string) : string := generate render (content d n).

Lemma write_file_other d n t x : x <> n -> write_file d n t x = d x.
Proof. intros H. unfold write_file. apply String.eqb_neq in H. rewrite H. reflexivity. Qed.
Lemma write_file_same d n t : write_file d n t n = Some (overwrite (content d n) t).
Proof. unfold write_file. rewrite String.eqb_refl. reflexivity. Qed.

Lemma run_other f names d x :
  ~ In x (map out_name names) ->
  fold_left (fun d' nm => write_file d' (out_name nm) (f nm)) names d x = d x.
Proof.
  revert d. induction names as [|n names IH]; intros d H; [reflexivity|]. cbn in *.
  rewrite IH by tauto. apply write_file_other. intros ->. tauto.
Qed.
Lemma run_file f names d n :
  NoDup (map out_name names) -> In n names ->
  fold_left (fun d' nm => write_file d' (out_name nm) (f nm)) names d (out_name n)
  = Some (overwrite (content d (out_name n)) (f n)).
Proof.
  revert d. induction names as [|m names IH]; intros d ND H; [contradiction|].
  cbn in *. inversion ND; subst. destruct H as [->|H].
  - rewrite run_other by assumption. apply write_file_same.
  - rewrite IH by assumption. unfold content. rewrite write_file_other; [reflexivity|].
    intros E. apply H2. rewrite <- E. apply in_map. assumption.
Qed.

Lemma sources_nodup d names : sources d names -> NoDup (map out_name names).
Proof.
  intros [ND S]. assert (S' : forall n, In n names -> is_source n = true) by (intros n H; apply S in H; tauto).
  clear S. induction names as [|n names IH]; [constructor|]. cbn. inversion ND; subst.
  constructor; [|apply IH; [assumption|intros; apply S'; right; assumption]].
  intros H. apply in_map_iff in H as (m & E & Hm). apply H1.
  rewrite (out_name_inj n m); [assumption| | |auto]; apply S'; [left; reflexivity|right; assumption].
Qed.

Lemma overwrite_long old new :
  String.length old <= String.length new -> overwrite old new = new.
Proof.
  revert old. induction new as [|c new IH]; intros [|o old] H; cbn in *; try lia; try reflexivity.
  rewrite IH by lia. reflexivity.
Qed.
Lemma overwrite_short head tail new :
  String.length head = String.length new -> overwrite (head ++ tail) new = new ++ tail.
Proof.
  revert head. induction new as [|c new IH]; intros [|o head] H; cbn in *; try lia; [destruct tail; reflexivity|].
  rewrite IH by lia. reflexivity.
Qed.
Lemma overwrite_again old new : overwrite (overwrite old new) new = overwrite old new.
Proof.
  revert old. induction new as [|c new IH]; intros [|o old]; cbn; try reflexivity.
  - f_equal. apply overwrite_long. lia.
  - rewrite IH. reflexivity.
Qed.

(** C52, refuted: the output file is not always the generated text.  It is that
    text exactly when the old file was not longer, and otherwise the tail of the
    old file stays behind it. *)
Theorem C52_output_file render d names n :
  sources d names -> In n names ->
  let old := content d (out_name n) in
  let new := wanted render d n in
  (String.length old <= String.length new -> run_main render names d (out_name n) = Some new)
  /\ (forall head tail, old = head ++ tail -> String.length head = String.length new ->
        run_main render names d (out_name n) = Some (new ++ tail))
  /\ (String.length old > String.length new -> run_main render names d (out_name n) <> Some new).
Proof.
  intros S I old new. unfold run_main. rewrite run_file by (eauto using sources_nodup).
  fold (wanted render d n). fold old. fold new.
  assert (H2 : forall head tail, old = head ++ tail -> String.length head = String.length new ->
               Some (overwrite old new) = Some (new ++ tail)).
  { intros head tail -> L. rewrite overwrite_short by assumption. reflexivity. }
  split; [|split].
  - intros L. rewrite overwrite_long by assumption. reflexivity.
  - exact H2.
  - intros L.
    assert (E : exists head tail, old = head ++ tail /\ String.length head = String.length new).
    { clear -L. revert L. generalize old, new. clear. intros old new. revert old.
      induction new as [|c new IH]; intros old L; [exists "", old; auto|].
      destruct old as [|o old]; cbn in *; [lia|]. destruct (IH old) as (h & t & -> & E); [lia|].
      exists (String o h), t. cbn. auto. }
    destruct E as (h & t & E & Lh). rewrite (H2 h t E Lh). intros [= Q].
    apply (f_equal String.length) in Q. rewrite E, length_append_s in L. rewrite length_append_s in Q. lia.
Qed.
Print Assumptions C52_output_file.

(** A directory with one template and an older, longer output file. *)
Definition ex_dir : dir :=
  fun n => if n =? "_x.go" then Some "package x" else if n =? "x.generated.go" then Some "package xyz" else None.
Example C52_case : sources ex_dir ["_x.go"].
Proof.
  split; [repeat constructor; intros []|]. intros n. unfold ex_dir. split.
  - intros [<-|[]]. split; [reflexivity|discriminate].
  - destruct (String.eqb_spec n "_x.go"); [left; congruence|].
    destruct (String.eqb_spec n "x.generated.go") as [->|]; [intros [H _]; discriminate|intros [_ H]; congruence].
Qed.
Theorem C52_refuted :
  ~ (forall render d names n, sources d names -> In n names ->
       run_main render names d (out_name n) = Some (wanted render d n)).
Proof.
  intros H. specialize (H plain ex_dir ["_x.go"] "_x.go" C52_case (or_introl eq_refl)).
  vm_compute in H. discriminate.
Qed.
Print Assumptions C52_refuted.

(** C63: running the generator does not depend on the order in which Go walks
    the sources, touches only the outputs, and when no source is called
    [__x.go] running it again changes nothing. *)
Theorem C63_order render d names names' x :
  sources d names -> sources d names' -> run_main render names d x = run_main render names' d x.
Proof.
  intros S S'.
  assert (I : forall n, In n names <-> In n names').
  { intros n. destruct S as [_ S], S' as [_ S']. rewrite S, S'. tauto. }
  unfold run_main.
  destruct (in_dec String.string_dec x (map out_name names)) as [H|H].
  - apply in_map_iff in H as (n & <- & H).
    rewrite !run_file by (eauto using sources_nodup; try (apply I; assumption)). reflexivity.
  - rewrite !run_other; [reflexivity| |assumption].
    intros H'. apply H. apply in_map_iff in H' as (n & <- & H'). apply in_map. apply I. assumption.
Qed.
Theorem C63_only_outputs render d names x :
  sources d names -> (forall n, In n names -> x <> out_name n) -> run_main render names d x = d x.
Proof.
  intros S H. apply run_other. intros H'. apply in_map_iff in H' as (n & E & H'). apply (H n); auto.
Qed.
Theorem C63_again render d names names' x :
  sources d names -> (forall n, In n names -> starts_with "__" n = false) ->
  let d' := run_main render names d in
  sources d' names' -> run_main render names' d' x = d' x.
Proof.
  intros S U d' S'.
  assert (O : forall n, In n names -> is_source (out_name n) = false).
  { intros n H. specialize (U n H). apply S in H as [H _]. apply is_source_spec in H as (y & ->).
    rewrite out_name_spec. destruct (is_source (y ++ ".generated.go")) eqn:E; [|reflexivity].
    apply is_source_spec in E as (z & E). destruct y as [|c y]; [discriminate|].
    cbn in E. injection E as -> _. cbn in U. discriminate. }
  assert (K : forall n, is_source n = true -> d' n = d n).
  { intros n H. apply C63_only_outputs; [assumption|]. intros m Hm ->. rewrite O in H by assumption. discriminate. }
  assert (I : forall n, In n names <-> In n names').
  { intros n. destruct S as [_ S], S' as [_ S']. rewrite S, S'. split; intros [A B]; (split; [assumption|]).
    - rewrite K by assumption. assumption.
    - rewrite <- K by assumption. assumption. }
  destruct (in_dec String.string_dec x (map out_name names')) as [H|H].
  - apply in_map_iff in H as (n & <- & H). unfold run_main at 1.
    rewrite run_file by (eauto using sources_nodup).
    assert (H' : In n names) by (apply I; assumption).
    assert (E : d' (out_name n) = Some (overwrite (content d (out_name n)) (wanted render d n))).
    { unfold d', run_main. rewrite run_file by (eauto using sources_nodup). reflexivity. }
    assert (W : generate render (content d' n) = wanted render d n).
    { unfold wanted, content. rewrite K; [reflexivity|]. apply S in H'. tauto. }
    rewrite W, E. unfold content at 1. rewrite E. rewrite overwrite_again. reflexivity.
  - apply run_other. assumption.
Qed.
Print Assumptions C63_order.
Print Assumptions C63_only_outputs.
Print Assumptions C63_again.

(** Non-vacuity: the directory above; its name does not start with two underscores. *)
Example C63_case : sources ex_dir ["_x.go"] /\ (forall n, In n ["_x.go"] -> starts_with "__" n = false)
  /\ sources (run_main plain ["_x.go"] ex_dir) ["_x.go"].
Proof.
  split; [exact C52_case|]. split; [intros n [<-|[]]; reflexivity|].
  split; [repeat constructor; intros []|]. intros n. rewrite (proj2 C52_case n).
  split; intros [H1 H2]; (split; [assumption|]); intros E; apply H2; revert E; unfold run_main; cbn [fold_left];
    (rewrite write_file_other; [auto|intros ->; discriminate]).
Qed.

(** C63: with a source called [__x.go] the second run does more than the first:
    its output [_x.generated.go] is a source of the second run. *)
Definition ex_dir2 : dir := fun n => if n =? "__x.go" then Some "package x" else None.
Theorem C63_again_refuted :
  ~ (forall render d names names' x, sources d names -> sources (run_main render names d) names' ->
       run_main render names' (run_main render names d) x = run_main render names d x).
Proof.
  intros H.
  assert (S1 : sources ex_dir2 ["__x.go"]).
  { split; [repeat constructor; intros []|]. intros n. unfold ex_dir2. split.
    - intros [<-|[]]. split; [reflexivity|discriminate].
    - destruct (String.eqb_spec n "__x.go"); [left; congruence|]. intros [_ Q]. congruence. }
  assert (S2 : sources (run_main plain ["__x.go"] ex_dir2) ["__x.go"; "_x.generated.go"]).
  { split; [repeat constructor; intros E; cbn in E; intuition discriminate|].
    intros n. unfold run_main. cbn [fold_left].
    change (out_name "__x.go") with "_x.generated.go". split.
    - intros [<-|[<-|[]]]; (split; [reflexivity|vm_compute; discriminate]).
    - intros [_ Q].
      destruct (String.eqb_spec n "_x.generated.go") as [->|N]; [right; left; reflexivity|].
      rewrite write_file_other in Q by assumption. unfold ex_dir2 in Q.
      destruct (String.eqb_spec n "__x.go"); [left|]; congruence. }
  specialize (H plain ex_dir2 _ _ "x.generated.generated.go" S1 S2). vm_compute in H. discriminate.
Qed.
Print Assumptions C63_again_refuted.
