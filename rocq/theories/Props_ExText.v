(** * Props_ExText: the text of the example programs (C56). *)
From Coq Require Import ZArith List Bool String Lia.
From Verif Require Import GoSem Errors GoParse SrcEx AstV3 Conv GoEval GoMain Front.
From Verif Require Import Spec GoLemmas V3BitLemmas V3ByteLemmas Typed Calls FrontCalls NewBuf Witness Examples Props_Examples Props_Front.
From Verif Require V3Buffer V3BufferTyped.
Import ListNotations.
Open Scope Z_scope.
Open Scope go_scope.

(** The package the examples import: the text of v3. *)
Definition go_path (path : string) : option (list gdecl) :=
  if String.eqb path "github.com/superwhiskers/crunch/v3" then Some v3_program else None.

(** The program [src], started in memory [s0], prints [lines] and ends. *)
Definition prints (pol : Z -> Z -> Z) (src : list string) (s0 : St) (lines : list string) : Prop :=
  exists N s', forall n, (N <= n)%nat -> run (run_main go_path pol n src) s0 = Done lines s'.

(** ** The syntax trees *)

Definition ast_of (src : list string) : list gdecl := match parse src with Some d => d | None => [] end.
Definition helloworld_ast : list gdecl := Eval vm_compute in ast_of ex_helloworld.
Lemma helloworld_parsed : parse ex_helloworld = Some helloworld_ast.
Proof. vm_compute. reflexivity. Qed.
Definition signed_integers_ast : list gdecl := Eval vm_compute in ast_of ex_signed_integers.
Lemma signed_integers_parsed : parse ex_signed_integers = Some signed_integers_ast.
Proof. vm_compute. reflexivity. Qed.
Definition floating_point_ast : list gdecl := Eval vm_compute in ast_of ex_floating_point.
Lemma floating_point_parsed : parse ex_floating_point = Some floating_point_ast.
Proof. vm_compute. reflexivity. Qed.

(** ** One call *)

Notation v3_path := "github.com/superwhiskers/crunch/v3"%string.

(** The text of a call, once its arguments are there: the call of the package, and
    its value. *)
Ltac unfold_call :=
  unfold call_on, call_in; cbn [lookup opt bind];
  rewrite ?String.eqb_refl; cbn [bind];
  change (go_path v3_path) with (Some v3_program); cbn [opt bind];
  rewrite v3_program_text;
  match goal with |- context [find_func ?f (sources B3)] =>
    let x := eval vm_compute in (find_func f (sources B3)) in change (find_func f (sources B3)) with x end;
  cbn [opt bind is_method f_recv Bool.eqb f_params].
Ltac unfold_func :=
  unfold call_func;
  match goal with |- context [find_func ?f (sources B3)] =>
    let x := eval vm_compute in (find_func f (sources B3)) in change (find_func f (sources B3)) with x end;
  cbv beta iota;
  match goal with |- context [ret_opt (coerce_all ?p ?v)] =>
    let x := eval cbv in (coerce_all p v) in change (coerce_all p v) with x end;
  cbn [ret_opt andthen];
  cbv -[env den bind sources unit_result bytes_result ints_result self_result run];
  cbv beta.

(** A call of the text ends as its model does. *)
Lemma text_runs {A} pol f args res (T : prog A) s a s1 :
  text_of B3 pol f args res T -> run T s = Done a s1 ->
  exists N, forall n, (N <= n)%nat -> run (den (sources B3) pol n (QCall f args)) s = Done ([], Return (res a)) s1.
Proof.
  intros H E. destruct (conv_limit _ _ _ s H ltac:(rewrite E; discriminate)) as [r [Hr HN]].
  Transparent D. unfold D in HN. Opaque D. rewrite E in Hr. inversion Hr as [x b s' Hv E1 E2| |]; subst.
  rewrite Hv in HN. exact HN.
Qed.

(** [H]: the text of the call; [E]: how the model of the call ends. *)
Ltac from_text H E :=
  let N := fresh "N" in let HN := fresh "HN" in let n := fresh "n" in let Hn := fresh "Hn" in
  destruct (text_runs _ _ _ _ _ _ _ _ H E) as [N HN]; exists N; intros n Hn; specialize (HN n Hn);
  unfold_call;
  match goal with |- context [args ?xs] => let x := eval vm_compute in (args xs) in change (args xs) with x end;
  cbn [bind];
  unfold_func; rewrite !run_bind;
  rewrite HN; reflexivity.

(** The call [f(xs)] in the package of the examples ends with [v] in [s1], for
    enough steps. *)
Definition ends (pol : Z -> Z -> Z) (method : bool) (f : string) (xs : list gexpr) (s : St) (v : val) (s1 : St) : Prop :=
  exists N, forall n, (N <= n)%nat -> run (call_in go_path pol n v3_path method f xs) s = Done v s1.

Lemma ends_NewBuffer pol s0 s1 : run (V3Buffer.NewBuffer pol []) s0 = Done tt s1 ->
  ends pol false "NewBuffer" [] s0 VSelf s1.
Proof. intros E. from_text (FrontV3.NewBuffer_text pol [] ltac:(split; now vm_compute)) E. Qed.
Lemma ends_Bytes pol s b s1 : run V3Buffer.Bytes s = Done b s1 -> ends pol true "Bytes" [] s (VBytes b) s1.
Proof. intros E. from_text (FrontV3.Bytes_text pol) E. Qed.
Lemma ends_SeekByte pol s s1 : run (V3Buffer.SeekByte 0 false) s = Done tt s1 ->
  ends pol true "SeekByte" [EInt 0; EVar "false"] s VUnit s1.
Proof. intros E. from_text (FrontV3.SeekByte_text pol 0 false) E. Qed.

Lemma hello_Grow pol s s1 : run (V3Buffer.Grow 12) s = Done tt s1 -> ends pol true "Grow" [EInt 12] s VUnit s1.
Proof. intros E. from_text (FrontV3.Grow_text pol 12) E. Qed.
Lemma ints_Grow pol s s1 : run (V3Buffer.Grow 8) s = Done tt s1 ->
  ends pol true "Grow" [EBin "*" (EInt 4) (EInt 2)] s VUnit s1.
Proof. intros E. from_text (FrontV3.Grow_text pol 8) E. Qed.
Lemma floats_Grow pol s s1 : run (V3Buffer.Grow 32) s = Done tt s1 ->
  ends pol true "Grow" [EBin "*" (EInt 8) (EInt 4)] s VUnit s1.
Proof. intros E. from_text (FrontV3.Grow_text pol 32) E. Qed.

Lemma hello_write pol s s1 : run (d <- lit_bytes hello_world ;; V3Buffer.WriteBytesNext d) s = Done tt s1 ->
  ends pol true "WriteBytesNext" [ECall (ETy (GSlice (GNamed "byte"))) [EStr "hello, world"] false] s VUnit s1.
Proof.
  unfold lit_bytes. cbn [bind run]. intros E.
  match type of E with run (_ ?d) ?s1 = _ =>
    destruct (text_runs _ _ _ _ _ _ _ _ (FrontV3.WriteBytesNext_text pol d) E) as [N HN] end.
  exists N. intros n Hn. specialize (HN n Hn).
  unfold_call. cbn [args arg constant String.eqb Ascii.eqb Bool.eqb opt bind].
  change (GoMain.bytes_of_string "hello, world") with hello_world. unfold lit_bytes. cbn [bind run].
  revert HN. generalize (mkSlice (Datatypes.length (heap s)) 0 (zlen hello_world) (zlen hello_world)).
  generalize (set_heap s (heap s ++ [hello_world])%list). clear. intros s' d HN.
  unfold_func. rewrite !run_bind, HN. reflexivity.
Qed.

Lemma ints_write pol s s1 : run (V3BufferTyped.WriteI32LENext [-42; 69]) s = Done tt s1 ->
  ends pol true "WriteI32LENext" [EComp (GSlice (GNamed "int32")) [(""%string, EUn "-" (EInt 42)); (""%string, EInt 69)]]
    s VUnit s1.
Proof. intros E. from_text (FrontV3Typed.WriteI32LENext_text pol [-42; 69]) E. Qed.
Lemma ints_read pol s l s1 : run (V3BufferTyped.ReadI32LENext 2) s = Done l s1 ->
  ends pol true "ReadI32LENext" [EInt 2] s (VInts I32 l) s1.
Proof. intros E. from_text (FrontV3Typed.ReadI32LENext_text pol 2) E. Qed.

Lemma floats_write pol s s1 : run (V3BufferTyped.WriteF64BENext the_floats) s = Done tt s1 ->
  ends pol true "WriteF64BENext"
    [EComp (GSlice (GNamed "float64"))
       [(""%string, EFloat 690 1); (""%string, EUn "-" (EFloat 210 1)); (""%string, EUn "-" (EFloat 4242 2));
        (""%string, EFloat 3621 3)]] s VUnit s1.
Proof. unfold the_floats. intros E. match type of E with run (_ ?l) _ = _ => from_text (FrontV3Typed.WriteF64BENext_text pol l) E end. Qed.
Lemma floats_read pol s l s1 : run (V3BufferTyped.ReadF64BENext 4) s = Done l s1 ->
  ends pol true "ReadF64BENext" [EInt 4] s (VInts F64 l) s1.
Proof. intros E. from_text (FrontV3Typed.ReadF64BENext_text pol 4) E. Qed.

(** ** main *)

Section Steps.
Variable pol : Z -> Z -> Z.
Notation specs := [(""%string, "fmt"%string); ("crunch"%string, v3_path)].
Notation main n := (exec_main go_path pol n specs).
(** The statements [b] of a [main] with the variable [buf] print [lines]. *)
Definition rest (b : list gstmt) (s : St) (lines : list string) : Prop :=
  exists N s', forall n, (N <= n)%nat -> run (main n [("buf"%string, v3_path)] b) s = Done lines s'.

Lemma main_new b s s1 lines :
  ends pol false "NewBuffer" [] s VSelf s1 -> rest b s1 lines ->
  exists N s', forall n, (N <= n)%nat ->
  run (main n [] (SDefine "buf" (ECall (ESel (EVar "crunch") "NewBuffer") [] false) :: b)) s = Done lines s'.
Proof.
  intros [N HN] (N' & s' & H). exists (N + N')%nat, s'. intros n Hn.
  cbn [exec_main]. change (imported specs "crunch") with (Some v3_path). cbn [opt bind].
  rewrite run_bind, HN by lia. apply H. lia.
Qed.
Lemma main_call m xs b s v s1 lines :
  ends pol true m xs s v s1 -> rest b s1 lines ->
  rest (SExpr (ECall (ESel (EVar "buf") m) xs false) :: b) s lines.
Proof.
  intros [N HN] (N' & s' & H). exists (N + N')%nat, s'. intros n Hn.
  cbn [exec_main]. change (imported specs "buf") with (@None string). cbv iota.
  rewrite run_bind. unfold call_on. cbn [lookup String.eqb Ascii.eqb Bool.eqb opt bind].
  rewrite HN by lia. apply H. lia.
Qed.
Lemma main_print m xs b s v s1 line s2 lines :
  ends pol true m xs s v s1 -> run (print_val v) s1 = Done line s2 -> rest b s2 lines ->
  rest (SExpr (ECall (ESel (EVar "fmt") "Println") [ECall (ESel (EVar "buf") m) xs false] false) :: b) s (line :: lines).
Proof.
  intros [N HN] P (N' & s' & H). exists (N + N')%nat, s'. intros n Hn.
  cbn [exec_main]. change (imported specs "fmt") with (Some "fmt"%string). cbn [String.eqb Ascii.eqb Bool.eqb andb].
  rewrite run_bind. cbn [printed]. rewrite run_bind. unfold call_on. cbn [lookup String.eqb Ascii.eqb Bool.eqb opt bind].
  rewrite HN by lia. rewrite P, run_bind. rewrite H by lia. reflexivity.
Qed.
Lemma main_print_string m xs b s d s1 l s2 lines :
  ends pol true m xs s (VBytes d) s1 -> run (print_bytes d) s1 = Done l s2 -> rest b s2 lines ->
  rest (SExpr (ECall (ESel (EVar "fmt") "Println") [ECall (EVar "string") [ECall (ESel (EVar "buf") m) xs false] false] false)
        :: b) s (string_of_bytes l :: lines).
Proof.
  intros [N HN] P (N' & s' & H). exists (N + N')%nat, s'. intros n Hn.
  cbn [exec_main]. change (imported specs "fmt") with (Some "fmt"%string). cbn [String.eqb Ascii.eqb Bool.eqb andb].
  rewrite run_bind. cbn [printed String.eqb Ascii.eqb Bool.eqb]. rewrite run_bind. unfold call_on. cbn [lookup String.eqb Ascii.eqb Bool.eqb opt bind].
  rewrite HN by lia. rewrite run_bind. change (bytes_in d) with (print_bytes d). rewrite P. cbn [run].
  rewrite run_bind, H by lia. reflexivity.
Qed.
Lemma main_end s : rest [] s [].
Proof. exists 0%nat, s. reflexivity. Qed.
End Steps.

Lemma print_bytes_val d s l s1 : run (print_bytes d) s = Done l s1 ->
  run (print_val (VBytes d)) s = Done (brackets (map decimal l)) s1.
Proof. intros E. cbn [print_val]. rewrite run_bind. change (bytes_in d) with (print_bytes d). now rewrite E. Qed.

(** ** What the programs print *)

(** C56: examples/helloworld prints the one line. *)
Theorem C56_text_helloworld pol s0 : wf_heap (heap s0) ->
  prints pol ex_helloworld s0 ["hello, world"%string].
Proof.
  intros Hh. destruct (C56_helloworld pol s0 Hh) as (s' & E). unfold helloworld in E. revert E.
  rewrite !run_bind. destruct (run (V3Buffer.NewBuffer pol []) s0) as [[] s1|e s1|s1|] eqn:E1; try discriminate.
  rewrite !run_bind. destruct (run (V3Buffer.Grow 12) s1) as [[] s2|e s2|s2|] eqn:E2; try discriminate.
  intros E. unfold prints, run_main. rewrite helloworld_parsed. cbv beta iota delta [helloworld_ast].
  change (String.eqb "main" "main" && String.eqb "main" "main")%bool with true. cbn [f_recv f_params f_results f_body].
  eapply main_new; [exact (ends_NewBuffer _ _ _ E1)|].
  eapply main_call; [exact (hello_Grow _ _ _ E2)|].
  destruct (run (d <- lit_bytes hello_world ;; V3Buffer.WriteBytesNext d) s2) as [[] s3|e s3|s3|] eqn:E3.
  - eapply main_call; [exact (hello_write _ _ _ E3)|].
    revert E E3. unfold lit_bytes. cbn [bind run]. intros E E3. rewrite run_bind, E3 in E. cbv iota in E.
    rewrite run_bind in E. destruct (run V3Buffer.Bytes s3) as [b s4|e s4|s4|] eqn:E4; try discriminate.
    change "hello, world"%string with (string_of_bytes hello_world).
    eapply main_print_string; [exact (ends_Bytes _ _ _ _ E4)|exact E|apply main_end].
  - exfalso. revert E E3. unfold lit_bytes. cbn [bind run]. intros E E3. rewrite run_bind, E3 in E. discriminate.
  - exfalso. revert E E3. unfold lit_bytes. cbn [bind run]. intros E E3. rewrite run_bind, E3 in E. discriminate.
  - exfalso. revert E E3. unfold lit_bytes. cbn [bind run]. intros E E3. rewrite run_bind, E3 in E. discriminate.
Qed.
Print Assumptions C56_text_helloworld.

(** C56: examples/signed-integers prints the bytes of the two numbers in little
    endian, then the numbers. *)
Theorem C56_text_signed_integers pol s0 : wf_heap (heap s0) ->
  prints pol ex_signed_integers s0 ["[214 255 255 255 69 0 0 0]"; "[-42 69]"]%string.
Proof.
  intros Hh. destruct (C56_signed_integers pol s0 Hh) as (s' & E). unfold signed_integers in E. revert E.
  change (4 * 2) with 8.
  rewrite !run_bind. destruct (run (V3Buffer.NewBuffer pol []) s0) as [[] s1|e s1|s1|] eqn:E1; try discriminate.
  rewrite !run_bind. destruct (run (V3Buffer.Grow 8) s1) as [[] s2|e s2|s2|] eqn:E2; try discriminate.
  rewrite run_bind. destruct (run (V3BufferTyped.WriteI32LENext _) s2) as [[] s3|e s3|s3|] eqn:E3; try discriminate.
  rewrite run_bind. destruct (run V3Buffer.Bytes s3) as [b s4|e s4|s4|] eqn:E4; try discriminate.
  rewrite run_bind. destruct (run (print_bytes b) s4) as [l s5|e s5|s5|] eqn:E5; try discriminate.
  rewrite run_bind. destruct (run (V3Buffer.SeekByte 0 false) s5) as [[] s6|e s6|s6|] eqn:E6; try discriminate.
  rewrite run_bind. destruct (run (V3BufferTyped.ReadI32LENext 2) s6) as [v s7|e s7|s7|] eqn:E7; try discriminate.
  cbn [run]. intros [= -> -> <-].
  unfold prints, run_main. rewrite signed_integers_parsed. cbv beta iota delta [signed_integers_ast].
  change (String.eqb "main" "main" && String.eqb "main" "main")%bool with true. cbn [f_recv f_params f_results f_body].
  eapply main_new; [exact (ends_NewBuffer _ _ _ E1)|].
  eapply main_call; [exact (ints_Grow _ _ _ E2)|].
  eapply main_call; [exact (ints_write _ _ _ E3)|].
  eapply main_print; [exact (ends_Bytes _ _ _ _ E4)|exact (print_bytes_val _ _ _ _ E5)|].
  eapply main_call; [exact (ends_SeekByte _ _ _ E6)|].
  eapply main_print; [exact (ints_read _ _ _ _ E7)|reflexivity|apply main_end].
Qed.
Print Assumptions C56_text_signed_integers.

(** C56: examples/floating-point prints the bytes of the four numbers in big
    endian, then the numbers as they are written in the source. *)
Theorem C56_text_floating_point pol s0 : wf_heap (heap s0) ->
  prints pol ex_floating_point s0
    ["[64 81 64 0 0 0 0 0 192 53 0 0 0 0 0 0 192 69 53 194 143 92 40 246 64 12 247 206 217 22 135 43]";
     "[69 -21 -42.42 3.621]"]%string.
Proof.
  intros Hh. destruct (C56_floating_point pol s0 Hh) as (s' & E). unfold floating_point in E. revert E.
  change (8 * 4) with 32.
  rewrite !run_bind. destruct (run (V3Buffer.NewBuffer pol []) s0) as [[] s1|e s1|s1|] eqn:E1; try discriminate.
  rewrite !run_bind. destruct (run (V3Buffer.Grow 32) s1) as [[] s2|e s2|s2|] eqn:E2; try discriminate.
  rewrite run_bind. destruct (run (V3BufferTyped.WriteF64BENext _) s2) as [[] s3|e s3|s3|] eqn:E3; try discriminate.
  rewrite run_bind. destruct (run V3Buffer.Bytes s3) as [b s4|e s4|s4|] eqn:E4; try discriminate.
  rewrite run_bind. destruct (run (print_bytes b) s4) as [l s5|e s5|s5|] eqn:E5; try discriminate.
  rewrite run_bind. destruct (run (V3Buffer.SeekByte 0 false) s5) as [[] s6|e s6|s6|] eqn:E6; try discriminate.
  rewrite run_bind. destruct (run (V3BufferTyped.ReadF64BENext 4) s6) as [v s7|e s7|s7|] eqn:E7; try discriminate.
  cbn [run]. intros E. apply (f_equal (fun r => match r with Done p _ => Some p | _ => None end)) in E.
  injection E as El Ev. subst l v.
  unfold prints, run_main. rewrite floating_point_parsed. cbv beta iota delta [floating_point_ast].
  change (String.eqb "main" "main" && String.eqb "main" "main")%bool with true. cbn [f_recv f_params f_results f_body].
  eapply main_new; [exact (ends_NewBuffer _ _ _ E1)|].
  eapply main_call; [exact (floats_Grow _ _ _ E2)|].
  eapply main_call; [exact (floats_write _ _ _ E3)|].
  eapply main_print; [exact (ends_Bytes _ _ _ _ E4)|exact (print_bytes_val _ _ _ _ E5)|].
  eapply main_call; [exact (ends_SeekByte _ _ _ E6)|].
  eapply main_print; [exact (floats_read _ _ _ _ E7)| |apply main_end].
  cbn [print_val]. change (all_some (map print_float the_floats)) with
    (Some ["69"; "-21"; "-42.42"; "3.621"]%string). reflexivity.
Qed.
Print Assumptions C56_text_floating_point.

(** Non-vacuity: the text itself, run in a memory with other data. *)
Example C56_text_case : match run (run_main go_path Z.max 60 ex_signed_integers) ex with
  | Done lines _ => lines = ["[214 255 255 255 69 0 0 0]"; "[-42 69]"]%string | _ => False end.
Proof. vm_compute. reflexivity. Qed.
