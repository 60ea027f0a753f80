(** * ToolLemmas: the text of the generator does what [Gen.v] says. *)
From Coq Require Import ZArith List Bool String Ascii Permutation Lia.
From Verif Require Import GoLex GoParse Gen GenSpec GenLemmas ToolParse ToolRegex ToolEval ToolRegexLemmas SrcGen ToolText.
Import ListNotations.
Open Scope string_scope.

(** ** The pieces of GenerateComplex *)

Definition complex_body : list tstmt :=
  Eval vm_compute in match find_func "GenerateComplex" decls with Some (VFun _ _ b _) => b | _ => [] end.
Definition loop_body : list tstmt :=
  Eval vm_compute in match nth_error complex_body 2 with Some (YRange _ _ _ b) => b | _ => [] end.
Definition callback_body : list tstmt :=
  Eval vm_compute in match nth_error loop_body 1 with
                     | Some (YAssign _ (XCall _ [_; XFunc _ _ b])) => b
                     | _ => []
                     end.
Definition check (n : nat) : tstmt := nth n callback_body YContinue.
Definition first_stmts : list tstmt := Eval vm_compute in firstn 2 callback_body.
Definition check0 : tstmt := Eval vm_compute in check 2.
Definition check1 : tstmt := Eval vm_compute in check 3.
Definition check2 : tstmt := Eval vm_compute in check 4.
Definition check3 : tstmt := Eval vm_compute in check 5.
Definition check4 : tstmt := Eval vm_compute in check 6.
Definition generation : list tstmt := Eval vm_compute in skipn 7 callback_body.
Lemma callback_split :
  callback_body = (first_stmts ++ check0 :: check1 :: check2 :: check3 :: check4 :: generation)%list.
Proof. reflexivity. Qed.

Definition callback_params : list (string * ttype) := [("comment", TySlice (TyName "byte"))].
Definition callback_results : list (string * ttype) := [("", TySlice (TyName "byte"))].
Definition callback : val :=
  VFun callback_params callback_results callback_body [("magicCommentRegex", VRe magic_rx)].

Section Callback.
Variable W : world.
Notation ev := (eval W packages decls).
Notation ex := (exec W packages decls).
Notation ap := (apply W packages decls).

(** What jennifer makes of the builder calls. *)
Definition render_of (a : args) : string :=
  match layout W (method_code a) with
  | Some t1 =>
      match layout W (next_code a) with
      | Some t2 => (t1 ++ String newline (String newline "")) ++ t2
      | None => "// render failure"
      end
  | None => "// render failure"
  end.

Definition arg_env (m : string) (a : args) : env :=
  mkEnv [[("arguments", VList (map VStr (groups a))); ("comment", VStr m)]] [("magicCommentRegex", VRe magic_rx)].

(** The variables of the package. *)
Definition vars (v1 v2 : val) : list (string * val) := [("directoryName", v1); ("generationKind", v2)].

(** What a function does with the way its body ended. *)
Definition after_call (rs : list (string * ttype)) (k : val -> st -> answer) (o : out) (s : st) : answer :=
  match o with
  | OReturn (Some v) _ => k v s
  | OReturn None e | ONext e =>
      if Nat.eqb (List.length (filter (fun p => negb (fst p =? "")) rs)) (List.length rs) then
        match all_of (fun p => find_var (fst p) (scopes e)) rs with
        | Some vs => k (VTup vs) s
        | None => None
        end
      else None
  | OContinue _ => None
  end.
Lemma apply_fun n ps rs body cap args s k :
  ap (S n) (VFun ps rs body cap) args s k
  = if Nat.eqb (List.length ps) (List.length args) then
      execs (ex n) body
        (mkEnv [combine (map fst ps) args
                ++ map (fun p => (fst p, zero (snd p))) (filter (fun p => negb (fst p =? "")) rs)]%list cap) s
        (after_call rs k)
    else None.
Proof. reflexivity. Qed.
Lemma execs_cons n x l e s k :
  execs (ex n) (x :: l) e s k
  = ex n x e s (fun o s => match o with ONext e => execs (ex n) l e s k | _ => k o s end).
Proof. reflexivity. Qed.

(** What a callback does with its result. *)
Definition bytes_to (k : string -> st -> answer) (h : list obj) (u : val) (s : st) : answer :=
  match u with VStr u => k u (set_heap h s) | _ => None end.
Definition finish (k : string -> st -> answer) (h : list obj) : out -> st -> answer :=
  after_call callback_results (bytes_to k h).

Definition render_then (a : args) (k : string -> answer) : answer :=
  match layout W (method_code a) with
  | Some t1 =>
      match layout W (next_code a) with
      | Some t2 => k ((t1 ++ String newline (String newline "")) ++ t2)
      | None => k "// render failure"
      end
  | None => k "// render failure"
  end.
Lemma render_then_of a k : render_then a k = k (render_of a).
Proof. unfold render_then, render_of. destruct (layout W (method_code a)); [destruct (layout W (next_code a))|]; reflexivity. Qed.

Lemma generation_valid a v1 v2 fl ins d w m h k : In a valid_args ->
  execs (ex 294) generation (arg_env m a) (mkSt [] (vars v1 v2) fl ins d w) (finish k h)
  = render_then a (fun t => k t (mkSt h (vars v1 v2) fl ins d w)).
Proof.
  intros V.
  repeat (destruct V as [<-|V]; [vm_compute; reflexivity|]).
  destruct V.
Qed.

(** ** The checks of the arguments *)

Section Checks.
Variables (r0 r1 r2 r3 r4 m : string) (v1 v2 : val) (fl : list (string * nat)) (ins : bool) (d : dir) (w : nat).
Let E : env := arg_env m (mkArgs r0 r1 r2 r3 r4).
Let s : st := mkSt [] (vars v1 v2) fl ins d w.
Variable k : out -> st -> answer.
Let go : answer := k (ONext E) s.
Let fail_with (t : string) : answer := k (OReturn (Some (VStr t)) E) s.

Lemma check0_step :
  ex 294 check0 E s k
  = if negb (r0 =? "Buffer") then
      if negb (r0 =? "MiniBuffer") then fail_with ("// invalid argument provided in position zero:" ++ r0) else go
    else go.
Proof. vm_compute. reflexivity. Qed.
Lemma check1_step :
  ex 294 check1 E s k
  = if negb (r1 =? "Read") then
      if negb (r1 =? "Write") then fail_with ("// invalid argument provided in position one:" ++ r1) else go
    else go.
Proof. vm_compute. reflexivity. Qed.
Lemma check2_step :
  ex 294 check2 E s k
  = if negb (r2 =? "I") then
      if negb (r2 =? "U") then
        if negb (r2 =? "F") then fail_with ("// invalid argument provided in position two:" ++ r2) else go
      else go
    else go.
Proof. vm_compute. reflexivity. Qed.
Lemma check3_step :
  ex 294 check3 E s k
  = if negb (r3 =? "16") then
      if negb (r3 =? "32") then
        if negb (r3 =? "64") then fail_with ("// invalid argument provided in position three:" ++ r3) else go
      else go
    else go.
Proof. vm_compute. reflexivity. Qed.
Lemma check4_step :
  ex 294 check4 E s k
  = if negb (r4 =? "BE") then
      if negb (r4 =? "LE") then fail_with ("// invalid argument provided in position four:" ++ r4) else go
    else go.
Proof. vm_compute. reflexivity. Qed.
End Checks.

Definition first0 : tstmt := Eval vm_compute in check 0.
Definition first1 : tstmt := Eval vm_compute in check 1.
Definition comment_env (m : string) : env :=
  mkEnv [[("comment", VStr m)]] [("magicCommentRegex", VRe magic_rx)].
Lemma first0_step m v1 v2 fl ins d w k :
  let s := mkSt [] (vars v1 v2) fl ins d w in
  ex 294 first0 (comment_env m) s k
  = match nth_error (map (fun g => VList (map VStr g)) (submatches (segs magic_rx m))) 0 with
    | Some v =>
        match slice_from v (VInt 1) with
        | Some u => k (ONext (mkEnv [[("arguments", u); ("comment", VStr m)]] [("magicCommentRegex", VRe magic_rx)])) s
        | None => None
        end
    | None => None
    end.
Proof. cbv zeta. unfold comment_env. generalize magic_rx. intros p. vm_compute. reflexivity. Qed.

Lemma arguments_step m a v1 v2 fl ins d w k : magic m = Some a ->
  ex 294 first0 (comment_env m) (mkSt [] (vars v1 v2) fl ins d w) k
  = k (ONext (arg_env m a)) (mkSt [] (vars v1 v2) fl ins d w).
Proof. intros M. rewrite first0_step, (submatches_magic m a M). destruct a. reflexivity. Qed.
Lemma first1_step m r0 r1 r2 r3 r4 v1 v2 fl ins d w k :
  ex 294 first1 (arg_env m (mkArgs r0 r1 r2 r3 r4)) (mkSt [] (vars v1 v2) fl ins d w) k
  = k (ONext (arg_env m (mkArgs r0 r1 r2 r3 r4))) (mkSt [] (vars v1 v2) fl ins d w).
Proof. vm_compute. reflexivity. Qed.

(** The function that replaces a magic comment. *)
Lemma callback_run m a h v1 v2 fl ins d w k : magic m = Some a ->
  let s := mkSt h (vars v1 v2) fl ins d w in
  ap 295 callback [VStr m] (set_heap [] s) (bytes_to k h)
  = k (match invalid a with Some msg => msg | None => render_of a end) s.
Proof.
  intros M s. unfold callback. rewrite apply_fun.
  change (Nat.eqb _ _) with true. cbv iota.
  change (execs (ex 294) (first0 :: first1 :: check0 :: check1 :: check2 :: check3 :: check4 :: generation)
            (comment_env m) (mkSt [] (vars v1 v2) fl ins d w) (finish k h)
          = k (match invalid a with Some msg => msg | None => render_of a end) s).
  rewrite execs_cons, (arguments_step m a _ _ _ _ _ _ _ M).
  assert (V : invalid a = None -> In a valid_args) by (apply invalid_spec).
  destruct a as [r0 r1 r2 r3 r4].
  rewrite execs_cons, first1_step, execs_cons, check0_step.
  unfold invalid, one_of2, one_of3 in *. cbn [a_recv a_rw a_sn a_is a_en] in *.
  destruct (r0 =? "Buffer"); [|destruct (r0 =? "MiniBuffer")]; cbn [negb orb] in *; try reflexivity;
  rewrite execs_cons, check1_step;
  (destruct (r1 =? "Read"); [|destruct (r1 =? "Write")]); cbn [negb orb] in *; try reflexivity;
  rewrite execs_cons, check2_step;
  (destruct (r2 =? "I"); [|destruct (r2 =? "U"); [|destruct (r2 =? "F")]]); cbn [negb orb] in *; try reflexivity;
  rewrite execs_cons, check3_step;
  (destruct (r3 =? "16"); [|destruct (r3 =? "32"); [|destruct (r3 =? "64")]]); cbn [negb orb] in *; try reflexivity;
  rewrite execs_cons, check4_step;
  (destruct (r4 =? "BE"); [|destruct (r4 =? "LE")]); cbn [negb orb] in *; try reflexivity;
  rewrite generation_valid by auto; apply render_then_of.
Qed.

(** ** One file *)

Definition subst (F : string -> string) : list seg -> string :=
  fix go (l : list seg) : string :=
    match l with
    | [] => ""
    | Plain c :: r => String c (go r)
    | Match m _ :: r => F m ++ go r
    end.
Lemma replaced_pure f F s l :
  (forall m gs k, In (Match m gs) l -> f m s k = k (F m) s) ->
  forall k, replaced f l s k = k (subst F l) s.
Proof.
  induction l as [|[c|m gs] l IH]; intros H k; cbn [replaced subst]; [reflexivity| |].
  - rewrite IH by (intros; eapply H; right; eassumption). reflexivity.
  - rewrite (H m gs) by (left; reflexivity).
    rewrite IH by (intros; eapply H; right; eassumption). reflexivity.
Qed.

Lemma subst_plains F l r : subst F (plains l ++ r) = l ++ subst F r.
Proof. induction l as [|c l IH]; [reflexivity|]. cbn. f_equal. apply IH. Qed.
Lemma subst_line render l r : subst (replace render) (line_segs l ++ r) = replace render l ++ subst (replace render) r.
Proof.
  unfold line_segs. destruct (magic l) as [a|] eqn:M; [reflexivity|].
  rewrite subst_plains. unfold replace at 2. rewrite M. reflexivity.
Qed.
Lemma subst_lines render ls : subst (replace render) (lines_segs ls) = text_of (map (replace render) ls).
Proof.
  unfold text_of. induction ls as [|l ls IH]; [reflexivity|]. destruct ls as [|l' ls].
  - cbn [lines_segs map]. rewrite <- (app_nil_r (line_segs l)), subst_line. cbn. apply append_nil_r.
  - change (lines_segs (l :: l' :: ls)) with (line_segs l ++ Plain newline :: lines_segs (l' :: ls))%list.
    rewrite subst_line. change (map (replace render) (l :: l' :: ls)) with (replace render l :: map (replace render) (l' :: ls)).
    rewrite join_cons by discriminate. f_equal.
    change (subst (replace render) (Plain newline :: lines_segs (l' :: ls)))
      with (String newline (subst (replace render) (lines_segs (l' :: ls)))).
    rewrite IH. reflexivity.
Qed.
Lemma lines_segs_magic ls m gs : In (Match m gs) (lines_segs ls) -> exists a, magic m = Some a.
Proof.
  assert (P : forall l, ~ In (Match m gs) (plains l)).
  { induction l as [|c l IH]; [auto|]. cbn. intros [H|H]; [discriminate|auto]. }
  assert (L : forall l, In (Match m gs) (line_segs l) -> exists a, magic m = Some a).
  { intros l. unfold line_segs. destruct (magic l) as [a|] eqn:M.
    - intros [[= <- _]|[]]. eauto.
    - intros H. destruct (P _ H). }
  induction ls as [|l ls IH]; [contradiction|]. destruct ls as [|l' ls]; [apply L|].
  change (lines_segs (l :: l' :: ls)) with (line_segs l ++ Plain newline :: lines_segs (l' :: ls))%list.
  intros H. apply in_app_or in H as [H|[H|H]]; [eauto|discriminate|auto].
Qed.

Lemma replace_all n s p x g k :
  ap (S n) (VMeth (VRe p) "ReplaceAllFunc") [VStr x; g] s k
  = if no_pointer g then
      replaced (fun t s k => ap n g [VStr t] (set_heap [] s) (bytes_to k (heap s)))
        (segs p x) s (fun t s => k (VStr t) s)
    else None.
Proof. reflexivity. Qed.

Lemma file_run h v1 v2 fl ins d w x k :
  let s := mkSt h (vars v1 v2) fl ins d w in
  ap 296 (VMeth (VRe magic_rx) "ReplaceAllFunc") [VStr x; callback] s k
  = k (VStr (generate render_of x)) s.
Proof.
  intros s. rewrite replace_all. change (no_pointer callback) with true. cbv iota.
  rewrite (replaced_pure _ (replace render_of)).
  - rewrite segs_magic, subst_lines. reflexivity.
  - intros m gs k' H. rewrite segs_magic in H. apply lines_segs_magic in H as [a M].
    change (heap s) with h. unfold s at 1. rewrite (callback_run m a h v1 v2 fl ins d w k' M).
    unfold replace. rewrite M. reflexivity.
Qed.

(** ** The loop *)

Definition loop_env (v : val) (r : nat) : env :=
  mkEnv [[("magicCommentRegex", VRe magic_rx); ("oldFiles", VRef r); ("files", v); ("e", VNil)]] [].
Definition scan_stmt : tstmt := Eval vm_compute in nth 0 loop_body YContinue.
Definition file_stmt : tstmt := Eval vm_compute in nth 1 loop_body YContinue.

Lemma scan_step n r nm s k v1 v2 fl ins d w h :
  s = mkSt h (vars v1 v2) fl ins d w ->
  let e := push [("name", VStr nm)] (loop_env (VRef r) r) in
  ex (S (S (S (S (S n))))) scan_stmt e s k = k (ONext e) s.
Proof. intros -> e. reflexivity. Qed.
Lemma callback_made r nm :
  VFun callback_params callback_results callback_body
    (capture callback_body (push [("name", VStr nm)] (loop_env (VRef r) r))) = callback.
Proof.
  assert (E : capture callback_body (push [("name", VStr nm)] (loop_env (VRef r) r)) = [("magicCommentRegex", VRe magic_rx)])
    by (vm_compute; reflexivity).
  rewrite E. reflexivity.
Qed.
Lemma file_step n r nm s k v1 v2 fl ins d w h :
  s = mkSt h (vars v1 v2) fl ins d w ->
  let e := push [("name", VStr nm)] (loop_env (VRef r) r) in
  ex (S (S (S (S (S n))))) file_stmt e s k
  = match index s (VRef r) (VStr nm) with
    | Some u =>
        ap (S (S (S n))) (VMeth (VRe magic_rx) "ReplaceAllFunc")
          [u; VFun callback_params callback_results callback_body (capture callback_body e)] s (fun v s =>
          match deref r s with
          | Some (OMap z m) => k (ONext e) (store r (OMap z (map_set nm v m)) s)
          | _ => None
          end)
    | None => None
    end.
Proof. intros -> e. reflexivity. Qed.

Lemma block_run r nm x z m h v1 v2 fl ins d w k :
  let s := mkSt h (vars v1 v2) fl ins d w in
  nth_error h r = Some (OMap z m) -> assoc nm m = Some (VStr x) ->
  block (fun x => ex 298 x) [("name", VStr nm)] loop_body (loop_env (VRef r) r) s k
  = k (ONext (loop_env (VRef r) r)) (store r (OMap z (map_set nm (VStr (generate render_of x)) m)) s).
Proof.
  intros s H A. unfold block.
  change loop_body with [scan_stmt; file_stmt].
  rewrite execs_cons, (scan_step 293 r nm s _ v1 v2 fl ins d w h eq_refl).
  rewrite execs_cons, (file_step 293 r nm s _ v1 v2 fl ins d w h eq_refl), callback_made.
  unfold index, deref at 1. change (heap s) with h. rewrite H, A.
  unfold s at 1. rewrite (file_run h v1 v2 fl ins d w). fold s.
  unfold deref. change (heap s) with h. rewrite H. reflexivity.
Qed.

(** Maps from names to texts. *)
Definition as_map (l : list (string * string)) : list (string * val) := map (fun p => (fst p, VStr (snd p))) l.
Definition done_for (names : list string) (l : list (string * string)) : list (string * string) :=
  map (fun p => (fst p, if among (fst p) names then generate render_of (snd p) else snd p)) l.

Lemma among_in x l : among x l = true <-> In x l.
Proof.
  unfold among. rewrite existsb_exists. split.
  - intros (y & H & E). apply String.eqb_eq in E. congruence.
  - intros H. exists x. split; [exact H|apply String.eqb_refl].
Qed.
Lemma done_none l : done_for [] l = l.
Proof. unfold done_for. induction l as [|[a b] l IH]; [reflexivity|]. cbn in *. congruence. Qed.
Lemma done_map_fst names l : map fst (done_for names l) = map fst l.
Proof. unfold done_for. rewrite map_map. reflexivity. Qed.
Lemma done_ext n1 n2 l : (forall x, In x (map fst l) -> among x n1 = among x n2) -> done_for n1 l = done_for n2 l.
Proof.
  intros H. unfold done_for. apply map_ext_in. intros p P. rewrite (H (fst p)); [reflexivity|].
  apply in_map, P.
Qed.
Lemma done_all names l : (forall x, In x (map fst l) -> In x names) ->
  done_for names l = map (fun p => (fst p, generate render_of (snd p))) l.
Proof.
  intros H. unfold done_for. apply map_ext_in. intros p P.
  rewrite (proj2 (among_in (fst p) names)); [reflexivity|]. apply H, in_map, P.
Qed.

Lemma map_set_done names nm l :
  NoDup (map fst l) -> In nm (map fst l) -> ~ In nm names ->
  exists x, assoc nm (as_map (done_for names l)) = Some (VStr x)
    /\ map_set nm (VStr (generate render_of x)) (as_map (done_for names l)) = as_map (done_for (nm :: names) l).
Proof.
  intros N I O. unfold map_set.
  assert (S : exists x, assoc nm (as_map (done_for names l)) = Some (VStr x)
    /\ reset nm (VStr (generate render_of x)) (as_map (done_for names l)) = Some (as_map (done_for (nm :: names) l))).
  { induction l as [|[a b] l IH]; [contradiction|]. cbn in N, I. inversion_clear N as [|? ? N1 N2].
    unfold as_map, done_for in *. cbn [map fst snd assoc reset] in *.
    destruct (String.eqb_spec nm a) as [->|D].
    - exists b. assert (F : among a names = false).
      { destruct (among a names) eqn:F; [|reflexivity]. apply among_in in F. contradiction. }
      rewrite F. split; [reflexivity|].
      assert (T : among a (a :: names) = true) by (apply among_in; left; reflexivity).
      rewrite T. do 2 f_equal. rewrite !map_map. apply map_ext_in. intros [c e] P. cbn.
      destruct (String.eqb_spec c a) as [->|]; [|reflexivity].
      destruct N1. apply (in_map fst) in P. exact P.
    - destruct I as [->|I]; [contradiction|]. destruct (IH N2 I) as (x & A & R).
      exists x. split; [exact A|]. rewrite R. cbn [option_map]. do 3 f_equal. unfold among. cbn [existsb].
      destruct (String.eqb_spec a nm); [congruence|reflexivity]. }
  destruct S as (x & A & R). exists x. split; [exact A|]. rewrite R. reflexivity.
Qed.

Lemma put_same {A} r (x y : A) l : put r x (put r y l) = put r x l.
Proof. revert r. induction l as [|a l IH]; intros [|r]; cbn; congruence. Qed.
Lemma put_nth {A} r (x : A) l : (r < List.length l)%nat -> nth_error (put r x l) r = Some x.
Proof. revert r. induction l as [|a l IH]; intros [|r] H; cbn in *; [lia|lia|reflexivity|apply IH; lia]. Qed.
Lemma put_id {A} r (x : A) l : nth_error l r = Some x -> put r x l = l.
Proof. revert r. induction l as [|a l IH]; intros [|r] H; cbn in *; try congruence. rewrite IH; auto. Qed.
Lemma put_length {A} r (x : A) l : List.length (put r x l) = List.length l.
Proof. revert r. induction l as [|a l IH]; intros [|r]; cbn; congruence. Qed.

Definition one_file (r : nat) (nm : string) (e : env) (s : st) (k : out -> st -> answer) : answer :=
  match deref r s with
  | Some (OMap z m) => block (fun x => ex 298 x) [("name", VStr nm)] loop_body e s k
  | _ => None
  end.

Lemma files_run r z l h v1 v2 fl ins d w : NoDup (map fst l) -> (r < List.length h)%nat ->
  forall names before k, NoDup (names ++ before) -> (forall x, In x names -> In x (map fst l)) ->
  each (one_file r) names (loop_env (VRef r) r)
    (mkSt (put r (OMap z (as_map (done_for before l))) h) (vars v1 v2) fl ins d w) k
  = k (ONext (loop_env (VRef r) r))
      (mkSt (put r (OMap z (as_map (done_for (rev names ++ before) l))) h) (vars v1 v2) fl ins d w).
Proof.
  intros N B. induction names as [|nm names IH]; intros before k ND S; [reflexivity|].
  cbn [each]. unfold one_file at 1. unfold deref. cbn [heap]. rewrite put_nth by exact B.
  cbn in ND. inversion_clear ND as [|? ? O ND'].
  destruct (map_set_done before nm l N) as (x & A & R);
    [apply S; left; reflexivity|intros H; apply O, in_or_app; auto|].
  rewrite (block_run r nm x z (as_map (done_for before l))); [|apply put_nth, B|exact A].
  unfold store. cbn [heap set_heap globals flags inside disk walks]. rewrite put_same, R.
  unfold set_heap. cbn [heap globals flags inside disk walks].
  rewrite (IH (nm :: before)).
  - cbn [rev]. rewrite <- app_assoc. reflexivity.
  - apply (Permutation.Permutation_NoDup (l := nm :: names ++ before)).
    + apply Permutation.Permutation_middle.
    + constructor; assumption.
  - intros y Y. apply S. right. exact Y.
Qed.

(** ** GenerateComplex *)

Definition range_stmt : tstmt := YRange "name" "_" (XVar "files") loop_body.
Lemma complex_split : exists s0 s1, complex_body = [s0; s1; range_stmt; YReturn None].
Proof. eexists _, _. reflexivity. Qed.
Definition complex0 : tstmt := Eval vm_compute in nth 0 complex_body YContinue.
Definition complex1 : tstmt := Eval vm_compute in nth 1 complex_body YContinue.

Lemma range_step n r s k v1 v2 fl ins d w h :
  s = mkSt h (vars v1 v2) fl ins d w ->
  ex (S (S n)) range_stmt (loop_env (VRef r) r) s k
  = match deref r s with
    | Some (OMap _ m) =>
        each (fun nm e s k =>
                match deref r s with
                | Some (OMap z m) => block (fun x => ex (S n) x) [("name", VStr nm)] loop_body e s k
                | _ => None
                end)
          (order W w (map fst m)) (loop_env (VRef r) r) (mkSt h (vars v1 v2) fl ins d (S w)) k
    | _ => None
    end.
Proof. intros ->. reflexivity. Qed.

Lemma complex_run r z l h v1 v2 fl ins d w k :
  NoDup (map fst l) -> nth_error h r = Some (OMap z (as_map l)) ->
  (forall k names, Permutation.Permutation (order W k names) names) ->
  forall f, find_func "GenerateComplex" decls = Some f ->
  ap 300 f [VRef r] (mkSt h (vars v1 v2) fl ins d w) k
  = k (VTup [VRef r; VNil])
      (mkSt (put r (OMap z (as_map (map (fun p => (fst p, generate render_of (snd p))) l))) h)
         (vars v1 v2) fl ins d (S w)).
Proof.
  intros N H P f F.
  assert (E : f = VFun [("oldFiles", TyMap (TyName "string") (TySlice (TyName "byte")))]
                    [("files", TyMap (TyName "string") (TySlice (TyName "byte"))); ("e", TyName "error")]
                    [complex0; complex1; range_stmt; YReturn None] []).
  { vm_compute in F. injection F as <-. vm_compute. reflexivity. }
  subst f. clear F. rewrite apply_fun. change (Nat.eqb _ _) with true. cbv iota.
  rewrite execs_cons.
  match goal with |- ex 299 complex0 ?e ?s _ = _ =>
    assert (E0 : forall k, ex 299 complex0 e s k
              = k (ONext (mkEnv [[("magicCommentRegex", VRe magic_rx); ("oldFiles", VRef r); ("files", VNil); ("e", VNil)]] [])) s)
      by (intros; vm_compute; reflexivity)
  end.
  rewrite E0. clear E0. rewrite execs_cons.
  match goal with |- ex 299 complex1 ?e ?s _ = _ =>
    assert (E1 : forall k, ex 299 complex1 e s k = k (ONext (loop_env (VRef r) r)) s)
      by (intros; vm_compute; reflexivity)
  end.
  rewrite E1. clear E1. rewrite execs_cons.
  rewrite (range_step 297 r _ _ v1 v2 fl ins d w h eq_refl).
  unfold deref at 1. cbn [heap]. rewrite H.
  fold (one_file r).
  assert (M : map fst (as_map l) = map fst l) by (unfold as_map; rewrite map_map; reflexivity).
  rewrite M. pose proof (P w (map fst l)) as Q.
  rewrite <- (put_id r _ h H) at 1. rewrite <- (done_none l) at 2.
  rewrite (files_run r z l h v1 v2 fl ins d (S w) N).
  - rewrite execs_cons, app_nil_r. cbn [exec]. 
    rewrite done_all; [reflexivity|].
    intros x X. apply in_rev. rewrite rev_involutive. apply (Permutation.Permutation_in _ (Permutation.Permutation_sym Q)), X.
  - apply nth_error_Some. rewrite H. discriminate.
  - rewrite app_nil_r. apply (Permutation.Permutation_NoDup (Permutation.Permutation_sym Q)), N.
  - intros x X. apply (Permutation.Permutation_in _ Q), X.
Qed.
End Callback.
