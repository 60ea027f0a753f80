(** * ToolMainLemmas: what the text of main does. *)
From Coq Require Import ZArith List Bool String Ascii Permutation Lia.
From Verif Require Import GoLex GoParse Gen GenSpec GenLemmas ToolParse ToolRegex ToolEval ToolRegexLemmas SrcGen ToolText ToolLemmas ToolSpec.
Import ListNotations.
Open Scope string_scope.

(** ** The pieces of main *)

Definition main_body : list tstmt :=
  Eval vm_compute in match find_func "main" decls with Some (VFun _ _ b _) => b | _ => [] end.
Definition main_head : list tstmt := Eval vm_compute in firstn 14 main_body.
Definition read_body : list tstmt :=
  Eval vm_compute in match nth_error main_body 14 with Some (YRange _ _ _ b) => b | _ => [] end.
Definition write_body : list tstmt :=
  Eval vm_compute in match nth_error main_body 17 with Some (YRange _ _ _ b) => b | _ => [] end.
Definition read_loop : tstmt := YRange "_" "fileInfo" (XVar "directoryFiles") read_body.
Definition write_loop : tstmt := YRange "name" "contents" (XVar "generated") write_body.
Definition main15 : tstmt := Eval vm_compute in nth 15 main_body YContinue.
Definition main16 : tstmt := Eval vm_compute in nth 16 main_body YContinue.
Lemma main_split : main_body = (main_head ++ [read_loop; main15; main16; write_loop])%list.
Proof. reflexivity. Qed.
Definition head (n : nat) : tstmt := nth n main_head YContinue.

Definition read_cond : texpr :=
  Eval vm_compute in match read_body with [YIf c _ _] => c | _ => XInt 0 end.
Definition read_then : list tstmt :=
  Eval vm_compute in match read_body with [YIf _ b _] => b | _ => [] end.
Lemma read_split : read_body = [YIf read_cond read_then []].
Proof. reflexivity. Qed.
Definition rd (n : nat) : tstmt := nth n read_then YContinue.
Definition wr (n : nat) : tstmt := nth n write_body YContinue.
Lemma then_split : read_then = [rd 0; rd 1; rd 2; rd 3; rd 4]. Proof. reflexivity. Qed.
Lemma write_split : write_body = [wr 0; wr 1; wr 2; wr 3; wr 4]. Proof. reflexivity. Qed.

Lemma ext_go nm : (ext nm =? ".go") = ends_with ".go" nm.
Proof.
  induction nm as [|c r IH]; [reflexivity|]. cbn [ext ends_with].
  destruct (String.eqb_spec (ext r) "") as [E|E]; cbn [andb].
  - destruct (Ascii.eqb_spec c ".") as [->|D].
    + rewrite <- IH, E. rewrite orb_false_r. reflexivity.
    + rewrite IH. destruct (String.eqb_spec (String c r) ".go") as [F|]; [|reflexivity]. congruence.
  - rewrite IH. destruct (String.eqb_spec (String c r) ".go") as [F|]; [|reflexivity].
    injection F as -> ->. destruct E. reflexivity.
Qed.

Lemma assoc_none {A} x (l : list (string * A)) : ~ In x (map fst l) -> assoc x l = None.
Proof.
  induction l as [|[y v] l IH]; intros N; [reflexivity|]. cbn in *.
  destruct (String.eqb_spec x y) as [->|]; [destruct N; auto|]. apply IH. tauto.
Qed.
Lemma reset_none {A} x (v : A) (l : list (string * A)) : ~ In x (map fst l) -> reset x v l = None.
Proof.
  induction l as [|[y u] l IH]; intros N; [reflexivity|]. cbn in *.
  destruct (String.eqb_spec x y) as [->|]; [destruct N; auto|]. rewrite IH by tauto. reflexivity.
Qed.
Lemma map_set_new x t l : ~ In x (map fst l) -> map_set x (VStr t) (as_map l) = as_map (l ++ [(x, t)]).
Proof.
  intros N. unfold map_set. rewrite reset_none; [unfold as_map; rewrite map_app; reflexivity|].
  unfold as_map. rewrite map_map. exact N.
Qed.

Section Main.
Variable W : world.
Notation ev := (eval W packages decls).
Notation ex := (exec W packages decls).
Notation ap := (apply W packages decls).

Definition gl : list (string * val) := vars (VRef 0) (VRef 1).
Definition fl : list (string * nat) := [("generation", 1); ("directory", 0)]%nat.

(** ** Reading the sources *)

Definition infos : list val := map (fun p => VInfo (fst p) (snd p)) (listing W).

Definition read_env (er : val) : env :=
  mkEnv [[("files", VRef 3); ("directoryFiles", VList infos); ("directoryInfo", VInfo "." (is_directory W));
          ("directory", VRef 2); ("err", er)]] [].
Definition read_heap (v1 v2 : val) (l : list (string * string)) (h : list obj) : list obj :=
  OCell v1 :: OCell v2 :: ODir :: OMap (VStr "") (as_map l) :: h.

Lemma exec_if n c a b e s k :
  ex (S n) (YIf c a b) e s k
  = ev n e c s (fun v s => match v with
                           | VBool true => block (ex n) [] a e s k
                           | VBool false => block (ex n) [] b e s k
                           | _ => None
                           end).
Proof. reflexivity. Qed.

Lemma block_eq X f l e s k : block X f l e s k = execs X l (push f e) s (fun o s => k (out_pop o) s).
Proof. reflexivity. Qed.

Lemma cond_run nm isdir er v1 v2 l h d w k :
  ev 302 (push [("fileInfo", VInfo nm isdir)] (read_env er)) read_cond (mkSt (read_heap v1 v2 l h) gl fl true d w) k
  = if ext nm =? ".go" then
      if negb isdir then k (VBool (starts_with "_" nm)) (mkSt (read_heap v1 v2 l h) gl fl true d w)
      else k (VBool false) (mkSt (read_heap v1 v2 l h) gl fl true d w)
    else k (VBool false) (mkSt (read_heap v1 v2 l h) gl fl true d w).
Proof. vm_compute. reflexivity. Qed.

(** The statements for one source. *)
Definition in_source (nm : string) (isdir : bool) (er : val) (f : frame) : env :=
  mkEnv [f; [("fileInfo", VInfo nm isdir)];
         [("files", VRef 3); ("directoryFiles", VList infos); ("directoryInfo", VInfo "." (is_directory W));
          ("directory", VRef 2); ("err", er)]] [].

Definition after_if (k : out -> st -> answer) (o : out) (s : st) : answer :=
  match o with ONext e => execs (ex 303) [] e s (fun o s => k (out_pop o) s) | _ => k (out_pop o) s end.

Lemma push_in nm isdir er : push [] (push [("fileInfo", VInfo nm isdir)] (read_env er)) = in_source nm isdir er [].
Proof. reflexivity. Qed.

Section One.
Variables (nm : string) (isdir : bool) (er v1 v2 : val) (d : dir) (w : nat).
Notation S0 h := (mkSt h gl fl true d w).

Lemma rd0 h k :
  ex 302 (rd 0) (in_source nm isdir er []) (S0 h) k
  = match d nm with
    | Some _ => if fails W "Open" nm then k (ONext (in_source nm isdir er [("err", VErr "Open"); ("file", VNil)])) (S0 h)
                else k (ONext (in_source nm isdir er [("err", VNil); ("file", VRef (List.length h))])) (S0 (h ++ [OFile nm 0])%list)
    | None => k (ONext (in_source nm isdir er [("err", VErr "Open"); ("file", VNil)])) (S0 h)
    end.
Proof. vm_compute. reflexivity. Qed.
Lemma rd1_ok v h k :
  ex 302 (rd 1) (in_source nm isdir er [("err", VNil); ("file", v)]) (S0 h) k
  = k (ONext (in_source nm isdir er [("err", VNil); ("file", v)])) (S0 h).
Proof. vm_compute. reflexivity. Qed.
Lemma rd1_err e v h k :
  ex 302 (rd 1) (in_source nm isdir er [("err", VErr e); ("file", v)]) (S0 h) k
  = k (OContinue (in_source nm isdir er [("err", VErr e); ("file", v)])) (S0 h).
Proof. vm_compute. reflexivity. Qed.
Lemma rd2 l h r v k :
  ex 302 (rd 2) (in_source nm isdir er [("err", v); ("file", VRef r)]) (S0 (read_heap v1 v2 l h)) k
  = match nth_error (read_heap v1 v2 l h) r with
    | Some (OFile x _) =>
        if fails W "ReadAll" x then
          k (ONext (in_source nm isdir er [("err", VErr "ReadAll"); ("file", VRef r)]))
            (S0 (OCell v1 :: OCell v2 :: ODir :: OMap (VStr "") (map_set nm (VStr (read_before W x)) (as_map l)) :: h))
        else
          k (ONext (in_source nm isdir er [("err", VNil); ("file", VRef r)]))
            (S0 (OCell v1 :: OCell v2 :: ODir :: OMap (VStr "") (map_set nm (VStr (content d x)) (as_map l)) :: h))
    | _ => None
    end.
Proof. vm_compute. reflexivity. Qed.
Lemma rd3_ok v h k :
  ex 302 (rd 3) (in_source nm isdir er [("err", VNil); ("file", v)]) (S0 h) k
  = k (ONext (in_source nm isdir er [("err", VNil); ("file", v)])) (S0 h).
Proof. vm_compute. reflexivity. Qed.
Lemma rd3_err e v h k :
  ex 302 (rd 3) (in_source nm isdir er [("err", VErr e); ("file", v)]) (S0 h) k
  = k (OContinue (in_source nm isdir er [("err", VErr e); ("file", v)])) (S0 h).
Proof. vm_compute. reflexivity. Qed.
Lemma rd4 v r h k :
  ex 302 (rd 4) (in_source nm isdir er [("err", v); ("file", VRef r)]) (S0 h) k
  = match nth_error h r with
    | Some ODir | Some (OFile _ _) => k (ONext (in_source nm isdir er [("err", v); ("file", VRef r)])) (S0 h)
    | _ => None
    end.
Proof. vm_compute. reflexivity. Qed.

Lemma read_one l h : ~ In nm (map fst l) ->
  exists o h', (o = ONext (read_env er) \/ o = OContinue (read_env er)) /\
  forall k,
  block (fun x => ex 303 x) [("fileInfo", VInfo nm isdir)] read_body (read_env er) (S0 (read_heap v1 v2 l h)) k
  = k o (S0 (read_heap v1 v2 (l ++ source_read W d (nm, isdir)) h')).
Proof.
  intros N. unfold source_read. cbn [fst snd]. unfold is_source. rewrite <- ext_go.
  assert (E : forall k, block (fun x => ex 303 x) [("fileInfo", VInfo nm isdir)] read_body (read_env er) (S0 (read_heap v1 v2 l h)) k
    = if (ext nm =? ".go") && negb isdir && starts_with "_" nm then
        block (ex 302) [] read_then (push [("fileInfo", VInfo nm isdir)] (read_env er)) (S0 (read_heap v1 v2 l h))
          (after_if k)
      else k (ONext (read_env er)) (S0 (read_heap v1 v2 l h))).
  { intros k. rewrite block_eq, read_split, execs_cons, exec_if, cond_run.
    destruct (ext nm =? ".go"); [|reflexivity]. destruct isdir; [reflexivity|].
    cbn [negb andb]. destruct (starts_with "_" nm); [|reflexivity]. cbv beta iota. reflexivity. }
  assert (E' : forall k, block (fun x => ex 303 x) [("fileInfo", VInfo nm isdir)] read_body (read_env er) (S0 (read_heap v1 v2 l h)) k
    = if (ext nm =? ".go") && negb isdir && starts_with "_" nm then
        execs (ex 302) read_then (in_source nm isdir er []) (S0 (read_heap v1 v2 l h))
          (fun o s => after_if k (out_pop o) s)
      else k (ONext (read_env er)) (S0 (read_heap v1 v2 l h))).
  { intros k. rewrite E, block_eq, push_in. reflexivity. }
  clear E. rename E' into E.
  replace ((ext nm =? ".go") && starts_with "_" nm && negb isdir) with ((ext nm =? ".go") && negb isdir && starts_with "_" nm)
    by (destruct (ext nm =? ".go"), isdir, (starts_with "_" nm); reflexivity).
  destruct ((ext nm =? ".go") && negb isdir && starts_with "_" nm);
    [|exists (ONext (read_env er)), h; split; [auto|]; intros k; rewrite E, app_nil_r; reflexivity].
  assert (N1 : nth_error (read_heap v1 v2 l h ++ [OFile nm 0]) (List.length (read_heap v1 v2 l h)) = Some (OFile nm 0)).
  { rewrite nth_error_app2 by lia. rewrite Nat.sub_diag. reflexivity. }
  destruct (d nm) as [t|] eqn:D.
  - destruct (fails W "Open" nm) eqn:F.
    + exists (OContinue (read_env er)), h. split; [auto|]. intros k.
      rewrite E, app_nil_r, then_split, execs_cons, rd0, D, F, execs_cons, rd1_err. reflexivity.
    + assert (A : (read_heap v1 v2 l h ++ [OFile nm 0])%list = read_heap v1 v2 l (h ++ [OFile nm 0])) by reflexivity.
      assert (B : forall t' , nth_error
         (OCell v1 :: OCell v2 :: ODir :: OMap (VStr "") t' :: (h ++ [OFile nm 0]))%list (List.length (read_heap v1 v2 l h)) = Some (OFile nm 0)).
      { intros t'. exact N1. }
      destruct (fails W "ReadAll" nm) eqn:G.
      * exists (OContinue (read_env er)), (h ++ [OFile nm 0])%list. split; [auto|]. intros k.
        rewrite E, then_split, execs_cons, rd0, D, F, execs_cons, rd1_ok, execs_cons, A, rd2, <- A, N1, G, execs_cons, rd3_err.
        rewrite map_set_new by exact N. reflexivity.
      * exists (ONext (read_env er)), (h ++ [OFile nm 0])%list. split; [auto|]. intros k.
        rewrite E, then_split, execs_cons, rd0, D, F, execs_cons, rd1_ok, execs_cons, A, rd2, <- A, N1, G, execs_cons, rd3_ok, execs_cons, rd4.
        rewrite B. rewrite map_set_new by exact N. unfold content. rewrite D. reflexivity.
  - exists (OContinue (read_env er)), h. split; [auto|]. intros k.
    rewrite E, app_nil_r, then_split, execs_cons, rd0, D, execs_cons, rd1_err. reflexivity.
Qed.
End One.

Definition read_entry (n : nat) (p : nat * val) (e : env) (s : st) (k : out -> st -> answer) : answer :=
  block (fun x => ex n x) [("fileInfo", snd p)] read_body e s k.
Lemma read_step n er s k :
  ex (S (S n)) read_loop (read_env er) s k
  = each (read_entry (S n)) (combine (seq 0 (List.length infos)) infos) (read_env er) s k.
Proof. reflexivity. Qed.

Lemma source_names d p x : In x (map fst (source_read W d p)) -> x = fst p.
Proof.
  unfold source_read. destruct (is_source (fst p) && negb (snd p)); [|intros []].
  destruct (d (fst p)); [|intros []]. destruct (fails W "Open" (fst p)); [intros []|]. intros [<-|[]]. reflexivity.
Qed.
Lemma sources_names d ps x : In x (map fst (flat_map (source_read W d) ps)) -> In x (map fst ps).
Proof.
  induction ps as [|p ps IH]; [intros []|]. cbn [flat_map map]. rewrite map_app. intros H.
  apply in_app_or in H. destruct H as [H|H]; [left; symmetry; exact (source_names d p x H)|right; auto].
Qed.
Lemma sources_nodup d ps : NoDup (map fst ps) -> NoDup (map fst (flat_map (source_read W d) ps)).
Proof.
  induction ps as [|p ps IH]; [constructor|]. cbn [flat_map map]. intros N. inversion_clear N as [|? ? N1 N2].
  rewrite map_app. specialize (IH N2).
  assert (O : source_read W d p = [] \/ exists t, source_read W d p = [(fst p, t)]).
  { unfold source_read. destruct (is_source (fst p) && negb (snd p)); [|auto].
    destruct (d (fst p)); [|auto]. destruct (fails W "Open" (fst p)); eauto. }
  destruct O as [->|[t ->]]; [exact IH|]. cbn. constructor; [|exact IH].
  intros H. apply N1, (sources_names d), H.
Qed.

Lemma read_all er v1 v2 d w : forall ps i l h,
  NoDup (map fst ps) -> (forall x, In x (map fst l) -> ~ In x (map fst ps)) ->
  exists h', forall k,
  each (read_entry 303)
    (combine (seq i (List.length (map (fun p => VInfo (fst p) (snd p)) ps))) (map (fun p => VInfo (fst p) (snd p)) ps))
    (read_env er) (mkSt (read_heap v1 v2 l h) gl fl true d w) k
  = k (ONext (read_env er)) (mkSt (read_heap v1 v2 (l ++ flat_map (source_read W d) ps) h') gl fl true d w).
Proof.
  induction ps as [|[nm isdir] ps IH]; intros i l h N D.
  - exists h. intros k. cbn. rewrite app_nil_r. reflexivity.
  - cbn [map fst] in N, D. inversion_clear N as [|? ? N1 N2].
    destruct (read_one nm isdir er v1 v2 d w l h) as (o & h1 & O & E).
    { intros H. apply (D nm H). left. reflexivity. }
    destruct (IH (S i) (l ++ source_read W d (nm, isdir))%list h1 N2) as (h2 & E2).
    { intros x X Y. rewrite map_app in X. apply in_app_or in X. destruct X as [X|X].
      - apply (D x X). right. exact Y.
      - apply source_names in X. cbn in X. subst x. contradiction. }
    exists h2. intros k. cbn [map List.length seq combine each flat_map fst snd].
    unfold read_entry at 1. cbn [snd]. rewrite E. rewrite app_assoc.
    destruct O as [->| ->]; apply E2.
Qed.

(** ** The switch *)

Definition gen_env (g er : val) : env :=
  mkEnv [[("generated", g); ("files", VRef 3); ("directoryFiles", VList infos); ("directoryInfo", VInfo "." (is_directory W));
          ("directory", VRef 2); ("err", er)]] [].
Definition case_body : list tstmt :=
  Eval vm_compute in match main16 with YSwitch _ [(_, b); _] => b | _ => [] end.
Definition default_body : list tstmt :=
  Eval vm_compute in match main16 with YSwitch _ [_; (_, b)] => b | _ => [] end.
Definition case0 : tstmt := Eval vm_compute in nth 0 case_body YContinue.
Definition case1 : tstmt := Eval vm_compute in nth 1 case_body YContinue.
Lemma case_split : case_body = [case0; case1]. Proof. reflexivity. Qed.
Definition complex_value : val :=
  Eval vm_compute in match find_func "GenerateComplex" decls with Some v => v | None => VNil end.
Lemma complex_found : find_func "GenerateComplex" decls = Some complex_value.
Proof. vm_compute. reflexivity. Qed.

Definition kind_expr : texpr := Eval vm_compute in match main16 with YSwitch a _ => a | _ => XInt 0 end.
Lemma switch_split : main16 = YSwitch kind_expr [([XStr "complex"], case_body); ([], default_body)].
Proof. reflexivity. Qed.
Lemma exec_switch n a cs e s k :
  ex (S n) (YSwitch a cs) e s k = ev n e a s (fun v s => cases W packages decls n v cs e s k).
Proof. reflexivity. Qed.
Lemma cases_string n v t b r e s k :
  cases W packages decls (S (S n)) v (([XStr t], b) :: r) e s k
  = match equal v (VStr t) with
    | Some true => block (ex (S n)) [] b e s k
    | Some false => cases W packages decls (S n) v r e s k
    | None => None
    end.
Proof. reflexivity. Qed.
Lemma cases_default n v b r e s k :
  cases W packages decls (S n) v (([], b) :: r) e s k = block (ex n) [] b e s k.
Proof. reflexivity. Qed.
Lemma kind_run g er v1 kv l h d w k :
  ev 303 (gen_env g er) kind_expr (mkSt (read_heap v1 (VStr kv) l h) gl fl true d w) k
  = k (VStr kv) (mkSt (read_heap v1 (VStr kv) l h) gl fl true d w).
Proof. vm_compute. reflexivity. Qed.
Lemma switch_step g er v1 kv l h d w k :
  ex 304 main16 (gen_env g er) (mkSt (read_heap v1 (VStr kv) l h) gl fl true d w) k
  = if kv =? "complex" then block (ex 302) [] case_body (gen_env g er) (mkSt (read_heap v1 (VStr kv) l h) gl fl true d w) k
    else block (ex 301) [] default_body (gen_env g er) (mkSt (read_heap v1 (VStr kv) l h) gl fl true d w) k.
Proof.
  rewrite switch_split, exec_switch, kind_run, cases_string. cbn [equal].
  destruct (kv =? "complex"); [reflexivity|]. rewrite cases_default. reflexivity.
Qed.
Lemma default_run g er h d w k :
  block (ex 301) [] default_body (gen_env g er) (mkSt h gl fl true d w) k = k (OReturn None (gen_env g er)) (mkSt h gl fl true d w).
Proof. vm_compute. reflexivity. Qed.

Definition assign_generated (m : nat) (e : env) (k : out -> st -> answer) (v : val) (s : st) : answer :=
  match values 2 v with
  | Some vs => assign W packages decls (S m) [XVar "generated"; XVar "err"] vs e s (fun e s => k (ONext e) s)
  | None => None
  end.
Lemma exec_assign n ls a e s k :
  ex (S n) (YAssign ls a) e s k
  = ev n e a s (fun v s =>
      match values (List.length ls) v with
      | Some vs => assign W packages decls n ls vs e s (fun e s => k (ONext e) s)
      | None => None
      end).
Proof. reflexivity. Qed.
Lemma call_complex n e s k :
  ev (S n) e (XCall (XVar "GenerateComplex") [XVar "files"]) s k
  = ev n e (XVar "GenerateComplex") s (fun v s => evals (ev n e) [XVar "files"] s (fun vs s => ap n v vs s k)).
Proof. reflexivity. Qed.
Lemma eval_var n e x s k :
  ev (S n) e (XVar x) s k = match variable decls x e s with Some v => k v s | None => None end.
Proof. reflexivity. Qed.
Lemma case0_split : case0 = YAssign [XVar "generated"; XVar "err"] (XCall (XVar "GenerateComplex") [XVar "files"]).
Proof. reflexivity. Qed.
Lemma complex_variable g er h d w :
  variable decls "GenerateComplex" (push [] (gen_env g er)) (mkSt h gl fl true d w) = Some complex_value.
Proof. vm_compute. reflexivity. Qed.
Lemma files_variable g er h d w :
  variable decls "files" (push [] (gen_env g er)) (mkSt h gl fl true d w) = Some (VRef 3).
Proof. vm_compute. reflexivity. Qed.
Lemma case0_step g er h d w k :
  ex 302 case0 (push [] (gen_env g er)) (mkSt h gl fl true d w) k
  = ap 300 complex_value [VRef 3] (mkSt h gl fl true d w) (assign_generated 300 (push [] (gen_env g er)) k).
Proof.
  rewrite case0_split, exec_assign, call_complex, eval_var, complex_variable. cbn [evals].
  rewrite eval_var, files_variable. reflexivity.
Qed.
Lemma assign_run g er h d w k :
  assign_generated 300 (push [] (gen_env g er)) k (VTup [VRef 3; VNil]) (mkSt h gl fl true d w)
  = k (ONext (push [] (gen_env (VRef 3) VNil))) (mkSt h gl fl true d w).
Proof. vm_compute. reflexivity. Qed.
Lemma case1_run g h d w k :
  ex 302 case1 (push [] (gen_env g VNil)) (mkSt h gl fl true d w) k
  = k (ONext (push [] (gen_env g VNil))) (mkSt h gl fl true d w).
Proof. vm_compute. reflexivity. Qed.

Lemma as_render a : render_of W a = rendered W a.
Proof.
  unfold render_of, rendered. destruct (layout W (method_code a)) as [t|]; [|reflexivity].
  destruct (layout W (next_code a)); [|reflexivity]. rewrite append_assoc_s. reflexivity.
Qed.

Lemma generate_ext r r' t : (forall a, r a = r' a) -> generate r t = generate r' t.
Proof.
  intros H. unfold generate. f_equal. apply map_ext. intros x. unfold replace.
  destruct (magic x) as [a|]; [|reflexivity]. destruct (invalid a); [reflexivity|apply H].
Qed.

Definition generated (l : list (string * string)) : list (string * string) :=
  map (fun p => (fst p, generate (rendered W) (snd p))) l.

Lemma switch_run er v1 kv l h d w : NoDup (map fst l) ->
  (forall k names, Permutation (order W k names) names) ->
  forall k, ex 304 main16 (gen_env VNil er) (mkSt (read_heap v1 (VStr kv) l h) gl fl true d w) k
  = if kv =? "complex" then k (ONext (gen_env (VRef 3) VNil)) (mkSt (read_heap v1 (VStr kv) (generated l) h) gl fl true d (S w))
    else k (OReturn None (gen_env VNil er)) (mkSt (read_heap v1 (VStr kv) l h) gl fl true d w).
Proof.
  intros N P k. rewrite switch_step. destruct (kv =? "complex"); [|apply default_run].
  rewrite block_eq, case_split, execs_cons, case0_step.
  unfold gl.
  rewrite (complex_run W 3 (VStr "") l (read_heap v1 (VStr kv) l h) (VRef 0) (VRef 1) fl true d w _ N eq_refl P _ complex_found).
  fold gl. rewrite assign_run, execs_cons, case1_run. cbn [execs out_pop].
  assert (E : map (fun p => (fst p, generate (render_of W) (snd p))) l = generated l).
  { unfold generated. apply map_ext. intros p. f_equal. apply generate_ext, as_render. }
  rewrite E. reflexivity.
Qed.

(** ** Writing the results *)

Definition in_write (nm t : string) (f : frame) : env :=
  mkEnv [f ++ [("name", VStr nm); ("contents", VStr t)];
         [("generated", VRef 3); ("files", VRef 3); ("directoryFiles", VList infos); ("directoryInfo", VInfo "." (is_directory W));
          ("directory", VRef 2); ("err", VNil)]]%list [].

(** The file [o] opened, and then written to, in the terms of the interpreter. *)
Definition made (d : dir) (o : string) : dir := set_file d o (content d o).
Definition part (o t : string) : string := if fails W "Write" o then substring 0 (written_before W o) t else t.
Definition over (d : dir) (o : string) (pos : nat) (t : string) : dir := set_file d o (overwrite_at pos (content d o) (part o t)).

Section Write.
Variables (nm t : string) (w : nat).
Notation S0 h d := (mkSt h gl fl true d w).

Lemma wr0 h d k :
  ex 303 (wr 0) (in_write nm t []) (S0 h d) k
  = if fails W "OpenFile" (out_name nm) then
      k (ONext (in_write nm t [("err", VErr "OpenFile"); ("file", VNil)])) (S0 h d)
    else k (ONext (in_write nm t [("err", VNil); ("file", VRef (List.length h))])) (S0 (h ++ [OFile (out_name nm) 0])%list (made d (out_name nm))).
Proof. vm_compute. reflexivity. Qed.
Lemma wr1_ok v h d k :
  ex 303 (wr 1) (in_write nm t [("err", VNil); ("file", v)]) (S0 h d) k
  = k (ONext (in_write nm t [("err", VNil); ("file", v)])) (S0 h d).
Proof. vm_compute. reflexivity. Qed.
Lemma wr1_err e v h d k :
  ex 303 (wr 1) (in_write nm t [("err", VErr e); ("file", v)]) (S0 h d) k
  = k (OContinue (in_write nm t [("err", VErr e); ("file", v)])) (S0 h d).
Proof. vm_compute. reflexivity. Qed.
Lemma wr2 r h d k :
  ex 303 (wr 2) (in_write nm t [("err", VNil); ("file", VRef r)]) (S0 h d) k
  = match nth_error h r with
    | Some (OFile x pos) =>
        k (ONext (in_write nm t [("err", if fails W "Write" x then VErr "Write" else VNil); ("file", VRef r)]))
          (S0 (put r (OFile x (pos + String.length (part x t))) h) (over d x pos t))
    | Some (OBuf x) =>
        k (ONext (in_write nm t [("err", VNil); ("file", VRef r)])) (S0 (put r (OBuf (x ++ t)) h) d)
    | _ => None
    end.
Proof. vm_compute. reflexivity. Qed.
Lemma wr3_ok v h d k :
  ex 303 (wr 3) (in_write nm t [("err", VNil); ("file", v)]) (S0 h d) k
  = k (ONext (in_write nm t [("err", VNil); ("file", v)])) (S0 h d).
Proof. vm_compute. reflexivity. Qed.
Lemma wr3_err e v h d k :
  ex 303 (wr 3) (in_write nm t [("err", VErr e); ("file", v)]) (S0 h d) k
  = k (OContinue (in_write nm t [("err", VErr e); ("file", v)])) (S0 h d).
Proof. vm_compute. reflexivity. Qed.
Lemma wr4 v r h d k :
  ex 303 (wr 4) (in_write nm t [("err", v); ("file", VRef r)]) (S0 h d) k
  = match nth_error h r with
    | Some ODir | Some (OFile _ _) => k (ONext (in_write nm t [("err", v); ("file", VRef r)])) (S0 h d)
    | _ => None
    end.
Proof. vm_compute. reflexivity. Qed.

Definition wrote (d : dir) : dir :=
  if fails W "OpenFile" (out_name nm) then d else over (made d (out_name nm)) (out_name nm) 0 t.

Lemma push_write : push [("name", VStr nm); ("contents", VStr t)] (gen_env (VRef 3) VNil) = in_write nm t [].
Proof. reflexivity. Qed.

Lemma write_one v1 v2 l h d :
  exists o h', (o = ONext (gen_env (VRef 3) VNil) \/ o = OContinue (gen_env (VRef 3) VNil)) /\
  forall k,
  block (fun x => ex 303 x) [("name", VStr nm); ("contents", VStr t)] write_body (gen_env (VRef 3) VNil)
    (S0 (read_heap v1 v2 l h) d) k
  = k o (S0 (read_heap v1 v2 l h') (wrote d)).
Proof.
  unfold wrote.
  destruct (fails W "OpenFile" (out_name nm)) eqn:F.
  - exists (OContinue (gen_env (VRef 3) VNil)), h. split; [auto|]. intros k.
    rewrite block_eq, push_write, write_split, execs_cons, wr0, F, execs_cons, wr1_err. reflexivity.
  - assert (N1 : nth_error (read_heap v1 v2 l h ++ [OFile (out_name nm) 0]) (List.length (read_heap v1 v2 l h)) = Some (OFile (out_name nm) 0)).
    { rewrite nth_error_app2 by lia. rewrite Nat.sub_diag. reflexivity. }
    set (n := List.length (read_heap v1 v2 l h)) in *.
    set (h1 := (read_heap v1 v2 l h ++ [OFile (out_name nm) 0])%list) in *.
    assert (L : (n < List.length h1)%nat).
    { apply nth_error_Some. rewrite N1. discriminate. }
    set (o1 := OFile (out_name nm) (0 + String.length (part (out_name nm) t))).
    assert (R : exists h', put n o1 h1 = read_heap v1 v2 l h').
    { exists (put (List.length h) o1 (h ++ [OFile (out_name nm) 0])). reflexivity. }
    destruct R as [h' R].
    assert (N2 : nth_error (put n o1 h1) n = Some o1) by (apply put_nth, L).
    destruct (fails W "Write" (out_name nm)) eqn:G.
    + exists (OContinue (gen_env (VRef 3) VNil)), h'. split; [auto|]. intros k.
      rewrite block_eq, push_write, write_split, execs_cons, wr0, F, execs_cons. fold n. rewrite wr1_ok, execs_cons, wr2.
      fold h1. rewrite N1. fold o1. rewrite G, execs_cons, wr3_err, R. reflexivity.
    + exists (ONext (gen_env (VRef 3) VNil)), h'. split; [auto|]. intros k.
      rewrite block_eq, push_write, write_split, execs_cons, wr0, F, execs_cons. fold n. rewrite wr1_ok, execs_cons, wr2.
      fold h1. rewrite N1. fold o1. rewrite G, execs_cons, wr3_ok, execs_cons, wr4, N2. unfold o1 at 1. cbv iota.
      rewrite R. reflexivity.
Qed.
End Write.

Definition write_entry (n : nat) (nm : string) (e : env) (s : st) (k : out -> st -> answer) : answer :=
  match deref 3 s with
  | Some (OMap z m) =>
      block (fun x => ex n x) [("name", VStr nm); ("contents", match assoc nm m with Some v => v | None => z end)]
        write_body e s k
  | _ => None
  end.
Lemma write_step n v1 v2 l h d w k :
  ex (S (S n)) write_loop (gen_env (VRef 3) VNil) (mkSt (read_heap v1 v2 l h) gl fl true d w) k
  = each (write_entry (S n)) (order W w (map fst (as_map l))) (gen_env (VRef 3) VNil)
      (mkSt (read_heap v1 v2 l h) gl fl true d (S w)) k.
Proof. reflexivity. Qed.

Lemma assoc_map x l : assoc x (as_map l) = option_map VStr (assoc x l).
Proof. induction l as [|[y v] l IH]; [reflexivity|]. cbn. destruct (x =? y); [reflexivity|exact IH]. Qed.
Lemma assoc_in {A} x (l : list (string * A)) : In x (map fst l) -> exists t, assoc x l = Some t.
Proof.
  induction l as [|[y v] l IH]; [intros []|]. cbn. intros H. destruct (String.eqb_spec x y) as [->|D]; [eauto|].
  apply IH. destruct H; congruence.
Qed.

Lemma write_all v1 v2 l w : forall names h d, (forall x, In x names -> In x (map fst l)) ->
  exists h', forall k,
  each (write_entry 303) names (gen_env (VRef 3) VNil) (mkSt (read_heap v1 v2 l h) gl fl true d w) k
  = k (ONext (gen_env (VRef 3) VNil))
      (mkSt (read_heap v1 v2 l h') gl fl true (fold_left (fun d p => wrote (fst p) (snd p) d) (in_order names l) d) w).
Proof.
  induction names as [|nm names IH]; intros h d S; [exists h; reflexivity|].
  destruct (assoc_in nm l) as [t A]; [apply S; left; reflexivity|].
  destruct (write_one nm t w v1 v2 l h d) as (o & h1 & O & E).
  destruct (IH h1 (wrote nm t d)) as (h2 & E2); [intros x X; apply S; right; exact X|].
  exists h2. intros k. cbn [each in_order flat_map]. rewrite A. cbn [app fold_left fst snd].
  unfold write_entry at 1. unfold deref. cbn [heap read_heap nth_error]. rewrite assoc_map, A. cbn [option_map].
  fold (read_heap v1 v2 l h). rewrite E.
  destruct O as [->| ->]; apply E2.
Qed.

Lemma substring_all t : substring 0 (String.length t - 0) t = t.
Proof. rewrite Nat.sub_0_r. induction t as [|c t IH]; cbn; [reflexivity|rewrite IH; reflexivity]. Qed.
Lemma wrote_is p d d' : (forall x, d x = d' x) ->
  forall x, wrote (fst p) (generate (rendered W) (snd p)) d x = write_result W d' p x.
Proof.
  intros H x. unfold wrote, write_result. destruct (fails W "OpenFile" (out_name (fst p))); [apply H|].
  unfold over, made, set_file, write_file. destruct (x =? out_name (fst p)) eqn:E; [|apply H].
  unfold content at 1. cbv beta. rewrite String.eqb_refl. unfold overwrite_at.
  rewrite substring_all. unfold part. unfold content. rewrite H. 
  assert (Z : forall u, substring 0 0 u = "") by (intros [|]; reflexivity).
  rewrite Z. reflexivity.
Qed.
Lemma order_generated names l : in_order names (generated l) = map (fun p => (fst p, generate (rendered W) (snd p))) (in_order names l).
Proof.
  induction names as [|nm names IH]; [reflexivity|]. cbn [in_order flat_map]. rewrite map_app.
  fold (in_order names (generated l)) (in_order names l). rewrite IH. f_equal.
  unfold generated. assert (A : assoc nm (map (fun p => (fst p, generate (rendered W) (snd p))) l)
    = option_map (generate (rendered W)) (assoc nm l)).
  { clear IH. induction l as [|[y v] l IHl]; [reflexivity|]. cbn. destruct (nm =? y); [reflexivity|exact IHl]. }
  rewrite A. destruct (assoc nm l); reflexivity.
Qed.
Lemma folds l d d' : (forall x, d x = d' x) ->
  forall x, fold_left (fun d p => wrote (fst p) (snd p) d) (map (fun p => (fst p, generate (rendered W) (snd p))) l) d x
            = fold_left (write_result W) l d' x.
Proof.
  revert d d'. induction l as [|p l IH]; intros d d' H; [exact H|]. cbn [map fold_left fst snd].
  apply IH, wrote_is, H.
Qed.

(** ** From the start *)

Definition init_value : val :=
  Eval vm_compute in match find_func "init" decls with Some v => v | None => VNil end.
Lemma init_found : find_func "init" decls = Some init_value.
Proof. vm_compute. reflexivity. Qed.
Lemma main_found : find_func "main" decls = Some (VFun [] [] main_body []).
Proof. vm_compute. reflexivity. Qed.
Lemma init_run d k :
  ap 305 init_value [] (mkSt [] (variables decls) [] false d 0) k
  = k (VTup []) (mkSt [OCell (VStr "."); OCell (VStr "")] gl fl false d 0).
Proof. vm_compute. reflexivity. Qed.

Definition frame_env (f : frame) : env := mkEnv [f] [].
Lemma parse_run d k :
  ex 304 (head 0) (frame_env []) (mkSt [OCell (VStr "."); OCell (VStr "")] gl fl false d 0) k
  = k (ONext (frame_env []))
      (mkSt [OCell (VStr (flag_value W "directory" ".")); OCell (VStr (flag_value W "generation" ""))] gl fl false d 0).
Proof.
  transitivity (k (ONext (frame_env []))
    (fold_left (fun s f => match cmdline W (fst f) with
                           | Some v => store (snd f) (OCell (VStr v)) s
                           | None => s
                           end) fl (mkSt [OCell (VStr "."); OCell (VStr "")] gl fl false d 0))).
  - vm_compute. reflexivity.
  - f_equal. unfold flag_value, fl. cbn [fold_left fst snd].
    destruct (cmdline W "generation"), (cmdline W "directory"); reflexivity.
Qed.

Section Head.
Variables (dv kv : string) (d : dir).
Lemma err_run : ex 304 (head 1) (frame_env []) = fun s k => k (ONext (frame_env [("err", VNil)])) s.
Proof. reflexivity. Qed.
Lemma abs_run k :
  ex 304 (head 2) (frame_env [("err", VNil)]) (mkSt [OCell (VStr dv); OCell (VStr kv)] gl fl false d 0) k
  = match abs_path W dv with
    | Some p => k (ONext (frame_env [("err", VNil)])) (mkSt [OCell (VStr p); OCell (VStr kv)] gl fl false d 0)
    | None => k (ONext (frame_env [("err", VErr "Abs")])) (mkSt [OCell (VStr ""); OCell (VStr kv)] gl fl false d 0)
    end.
Proof. vm_compute. reflexivity. Qed.
Lemma stop3 e h k : ex 304 (head 3) (frame_env [("err", VErr e)]) (mkSt h gl fl false d 0) k
  = k (OReturn None (frame_env [("err", VErr e)])) (mkSt h gl fl false d 0).
Proof. vm_compute. reflexivity. Qed.
Lemma go3 h k : ex 304 (head 3) (frame_env [("err", VNil)]) (mkSt h gl fl false d 0) k
  = k (ONext (frame_env [("err", VNil)])) (mkSt h gl fl false d 0).
Proof. vm_compute. reflexivity. Qed.
Lemma open_run p k :
  ex 304 (head 4) (frame_env [("err", VNil)]) (mkSt [OCell (VStr p); OCell (VStr kv)] gl fl false d 0) k
  = if fails W "Open" p then
      k (ONext (frame_env [("directory", VNil); ("err", VErr "Open")])) (mkSt [OCell (VStr p); OCell (VStr kv)] gl fl false d 0)
    else
      k (ONext (frame_env [("directory", VRef 2); ("err", VNil)])) (mkSt [OCell (VStr p); OCell (VStr kv); ODir] gl fl false d 0).
Proof. vm_compute. reflexivity. Qed.
Lemma stop5 v e h k : ex 304 (head 5) (frame_env [("directory", v); ("err", VErr e)]) (mkSt h gl fl false d 0) k
  = k (OReturn None (frame_env [("directory", v); ("err", VErr e)])) (mkSt h gl fl false d 0).
Proof. vm_compute. reflexivity. Qed.
Lemma go5 v h k : ex 304 (head 5) (frame_env [("directory", v); ("err", VNil)]) (mkSt h gl fl false d 0) k
  = k (ONext (frame_env [("directory", v); ("err", VNil)])) (mkSt h gl fl false d 0).
Proof. vm_compute. reflexivity. Qed.
Lemma defer_run v h k : ex 304 (head 6) (frame_env [("directory", v); ("err", VNil)]) (mkSt h gl fl false d 0) k
  = k (ONext (frame_env [("directory", v); ("err", VNil)])) (mkSt h gl fl false d 0).
Proof. vm_compute. reflexivity. Qed.
Notation h2 p := [OCell (VStr p); OCell (VStr kv); ODir].
Lemma stat_run p k :
  ex 304 (head 7) (frame_env [("directory", VRef 2); ("err", VNil)]) (mkSt (h2 p) gl fl false d 0) k
  = if fails W "Stat" "." then
      k (ONext (frame_env [("directoryInfo", VNil); ("directory", VRef 2); ("err", VErr "Stat")])) (mkSt (h2 p) gl fl false d 0)
    else
      k (ONext (frame_env [("directoryInfo", VInfo "." (is_directory W)); ("directory", VRef 2); ("err", VNil)])) (mkSt (h2 p) gl fl false d 0).
Proof. vm_compute. reflexivity. Qed.
Lemma stop8 u v e h k : ex 304 (head 8) (frame_env [("directoryInfo", u); ("directory", v); ("err", VErr e)]) (mkSt h gl fl false d 0) k
  = k (OReturn None (frame_env [("directoryInfo", u); ("directory", v); ("err", VErr e)])) (mkSt h gl fl false d 0).
Proof. vm_compute. reflexivity. Qed.
Lemma go8 u v h k : ex 304 (head 8) (frame_env [("directoryInfo", u); ("directory", v); ("err", VNil)]) (mkSt h gl fl false d 0) k
  = k (ONext (frame_env [("directoryInfo", u); ("directory", v); ("err", VNil)])) (mkSt h gl fl false d 0).
Proof. vm_compute. reflexivity. Qed.
Definition info_env (b : bool) : env :=
  frame_env [("directoryInfo", VInfo "." b); ("directory", VRef 2); ("err", VNil)].
Lemma isdir_run b h k : ex 304 (head 9) (info_env b) (mkSt h gl fl false d 0) k
  = if b then k (ONext (info_env b)) (mkSt h gl fl false d 0) else k (OReturn None (info_env b)) (mkSt h gl fl false d 0).
Proof. destruct b; vm_compute; reflexivity. Qed.
Lemma chdir_run b p k : ex 304 (head 10) (info_env b) (mkSt (h2 p) gl fl false d 0) k
  = k (ONext (info_env b)) (mkSt (h2 p) gl fl true d 0).
Proof. vm_compute. reflexivity. Qed.
Definition listed : val := if fails W "Readdir" "." then VErr "Readdir" else VNil.
Definition list_env (b : bool) : env :=
  frame_env [("directoryFiles", VList infos); ("directoryInfo", VInfo "." b); ("directory", VRef 2); ("err", listed)].
Lemma readdir_run b p k : ex 304 (head 11) (info_env b) (mkSt (h2 p) gl fl true d 0) k
  = k (ONext (list_env b)) (mkSt (h2 p) gl fl true d 0).
Proof. vm_compute. reflexivity. Qed.
Lemma go12 b h k : ex 304 (head 12) (list_env b) (mkSt h gl fl true d 0) k
  = k (ONext (list_env b)) (mkSt h gl fl true d 0).
Proof. unfold list_env, listed. destruct (fails W "Readdir" "."); vm_compute; reflexivity. Qed.
Lemma map_run b p k : ex 304 (head 13) (list_env b) (mkSt (h2 p) gl fl true d 0) k
  = k (ONext (frame_env (("files", VRef 3) :: nth 0 (scopes (list_env b)) []))) (mkSt (read_heap (VStr p) (VStr kv) [] []) gl fl true d 0).
Proof. vm_compute. reflexivity. Qed.
End Head.
Lemma generated_run er s k : ex 304 main15 (read_env er) s k = k (ONext (gen_env VNil er)) s.
Proof. reflexivity. Qed.

Lemma head_split : main_body =
  head 0 :: head 1 :: head 2 :: head 3 :: head 4 :: head 5 :: head 6 :: head 7 :: head 8 :: head 9 :: head 10 :: head 11
  :: head 12 :: head 13 :: [read_loop; main15; main16; write_loop].
Proof. reflexivity. Qed.
Lemma read_env_is : is_directory W = true ->
  frame_env (("files", VRef 3) :: nth 0 (scopes (list_env true)) []) = read_env listed.
Proof. intros ID. unfold read_env. rewrite ID. reflexivity. Qed.
Lemma run_unfold d :
  tool_run W d = ap 305 init_value [] (mkSt [] (variables decls) [] false d 0) (fun _ s =>
    ap 305 (VFun [] [] main_body []) [] s (fun v s => Some (v, s))).
Proof. unfold tool_run, run_in. rewrite program_read, init_found, main_found. reflexivity. Qed.

Lemma main_run d :
  NoDup (map fst (listing W)) -> (forall k names, Permutation (order W k names) names) ->
  exists s, tool_run W d = Some (VTup [], s) /\ forall x, disk s x = files_after W d x.
Proof.
  intros N P. rewrite run_unfold, init_run, apply_fun. change (Nat.eqb _ _) with true. cbv iota.
  change (mkEnv _ []) with (frame_env []).
  unfold files_after, starts.
  set (dv := flag_value W "directory" "."). set (kv := flag_value W "generation" "").
  rewrite head_split, execs_cons, parse_run. fold dv kv. rewrite execs_cons, err_run, execs_cons, abs_run.
  destruct (abs_path W dv) as [p|]; rewrite execs_cons.
  2: { rewrite stop3. eexists. split; reflexivity. }
  rewrite go3, execs_cons, open_run. destruct (fails W "Open" p); rewrite execs_cons.
  1: { rewrite stop5. eexists. split; reflexivity. }
  rewrite go5, execs_cons, defer_run, execs_cons, stat_run. destruct (fails W "Stat" "."); rewrite execs_cons.
  1: { rewrite stop8. eexists. split; reflexivity. }
  rewrite go8, execs_cons. fold (info_env (is_directory W)). rewrite isdir_run.
  destruct (is_directory W) eqn:ID.
  2: { eexists. split; reflexivity. }
  rewrite execs_cons, chdir_run, execs_cons, readdir_run, execs_cons, go12, execs_cons, map_run.
  rewrite read_env_is by exact ID.
  rewrite execs_cons, read_step.
  destruct (read_all listed (VStr p) (VStr kv) d 0 (listing W) 0 [] [] N) as (h & E); [intros x []|].
  unfold infos. rewrite E. cbn [app]. fold (sources_read W d).
  rewrite execs_cons, generated_run, execs_cons, switch_run;
    [|apply sources_nodup, N|exact P].
  cbn [negb andb].
  destruct (kv =? "complex").
  2: { eexists. split; reflexivity. }
  rewrite execs_cons, write_step.
  assert (M : map fst (as_map (generated (sources_read W d))) = map fst (sources_read W d)).
  { unfold as_map, generated. rewrite !map_map. reflexivity. }
  rewrite M.
  destruct (write_all (VStr p) (VStr kv) (generated (sources_read W d)) 2 (order W 1 (map fst (sources_read W d))) h d) as (h' & E').
  { intros x X. unfold generated. rewrite map_map. apply (Permutation_in _ (P 1%nat _)), X. }
  rewrite E'. cbn [execs]. eexists. split; [reflexivity|].
  intros x. cbn [disk]. rewrite order_generated. apply folds. reflexivity.
Qed.
End Main.
