(** * GenLemmas: lemmas about the code generator. *)
From Coq Require Import ZArith List Bool String Ascii Lia Permutation DecimalString.
From Verif Require Import GoLex GoParse SrcV3 AstV3 Gen GenSpec.
Import ListNotations.
Open Scope string_scope.

(** ** Text and lines *)

Lemma append_nil_r s : s ++ "" = s.
Proof. induction s; cbn; congruence. Qed.
Lemma append_assoc_s (a b c : string) : (a ++ b) ++ c = a ++ b ++ c.
Proof. induction a; cbn; congruence. Qed.

Lemma split_on_nonempty sep s : split_on sep s <> [].
Proof. destruct s; cbn; [discriminate|]. destruct (Ascii.eqb a sep); [discriminate|].
  destruct (split_on sep s); discriminate. Qed.

Lemma join_cons sep x l : l <> [] -> join_with sep (x :: l) = x ++ String sep (join_with sep l).
Proof. unfold join_with. destruct l; [congruence|]. intros _. cbn. reflexivity. Qed.

Lemma join_split sep s : join_with sep (split_on sep s) = s.
Proof.
  induction s as [|c r IH]; [reflexivity|]. cbn [split_on].
  destruct (Ascii.eqb_spec c sep) as [->|N].
  - rewrite join_cons by apply split_on_nonempty. rewrite IH. reflexivity.
  - pose proof (split_on_nonempty sep r). destruct (split_on sep r) as [|p ps]; [congruence|].
    destruct ps; cbn in *; congruence.
Qed.

Lemma split_on_no_char sep s : no_char sep s = true -> split_on sep s = [s].
Proof.
  induction s as [|c r IH]; [reflexivity|]. cbn. intros H. apply andb_prop in H as [H1 H2].
  destruct (Ascii.eqb c sep); [discriminate|]. rewrite (IH H2). reflexivity.
Qed.
Lemma split_on_append sep s r :
  no_char sep s = true -> split_on sep (s ++ String sep r) = s :: split_on sep r.
Proof.
  induction s as [|c s IH]; cbn.
  - rewrite Ascii.eqb_refl. reflexivity.
  - intros H. apply andb_prop in H as [H1 H2]. destruct (Ascii.eqb c sep); [discriminate|].
    rewrite (IH H2). reflexivity.
Qed.
Lemma split_on_pieces sep s : Forall (fun p => no_char sep p = true) (split_on sep s).
Proof.
  induction s as [|c r IH]; cbn; [repeat constructor|].
  destruct (Ascii.eqb c sep) eqn:E; [constructor; [reflexivity|assumption]|].
  destruct (split_on sep r); inversion IH; subst; constructor; cbn; try rewrite E; auto.
Qed.

Lemma strip_prefix_spec p s r : strip_prefix p s = Some r <-> s = p ++ r.
Proof.
  revert s. induction p as [|a p IH]; intros s; cbn.
  - split; [intros [= ->]; reflexivity|intros ->; reflexivity].
  - destruct s as [|b s]; [split; discriminate|].
    destruct (Ascii.eqb_spec a b) as [->|N].
    + rewrite IH. split; [intros ->; reflexivity|intros [= ->]; reflexivity].
    + split; [discriminate|intros [= -> _]; congruence].
Qed.

(** ** Magic comments *)

Lemma word_no_space s : is_word s = true -> no_char " " s = true.
Proof.
  unfold is_word. intros H. apply andb_prop in H as [_ H].
  induction s as [|c r IH]; [reflexivity|]. cbn in *. apply andb_prop in H as [H1 H2].
  apply andb_true_intro. split; [|auto].
  destruct (Ascii.eqb_spec c " ") as [->|]; [discriminate|reflexivity].
Qed.
Lemma number_no_space s : is_number s = true -> no_char " " s = true.
Proof.
  unfold is_number. intros H. apply andb_prop in H as [_ H].
  induction s as [|c r IH]; [reflexivity|]. cbn in *. apply andb_prop in H as [H1 H2].
  apply andb_true_intro. split; [|auto].
  destruct (Ascii.eqb_spec c " ") as [->|]; [discriminate|reflexivity].
Qed.

(** The magic comments are exactly the lines the regular expression describes. *)
Lemma magic_spec line a b c d e :
  magic line = Some (mkArgs a b c d e) <->
  line = "//generator:complex " ++ a ++ " " ++ b ++ " " ++ c ++ " " ++ d ++ " " ++ e
  /\ is_word a = true /\ is_word b = true /\ is_word c = true /\ is_number d = true /\ is_word e = true.
Proof.
  unfold magic. split.
  - destruct (strip_prefix magic_prefix line) as [r|] eqn:E; [|discriminate].
    apply strip_prefix_spec in E. subst line.
    pose proof (join_split " " r) as J.
    destruct (split_on " " r) as [|x1 [|x2 [|x3 [|x4 [|x5 [|]]]]]]; try discriminate.
    destruct (is_word x1) eqn:W1, (is_word x2) eqn:W2, (is_word x3) eqn:W3, (is_number x4) eqn:W4,
      (is_word x5) eqn:W5; try discriminate.
    cbn [andb]. intros [= -> -> -> -> ->].
    split; [|auto]. rewrite <- J. reflexivity.
  - intros (-> & H1 & H2 & H3 & H4 & H5).
    replace (strip_prefix magic_prefix _)
      with (Some (a ++ " " ++ b ++ " " ++ c ++ " " ++ d ++ " " ++ e)) by reflexivity.
    cbn -[split_on].
    rewrite !split_on_append by (auto using word_no_space, number_no_space).
    rewrite (split_on_no_char " " e) by auto using word_no_space.
    rewrite H1, H2, H3, H4, H5. reflexivity.
Qed.

(** ** Expanding the magic comments *)

(** A source template read as tokens, magic comments expanded; [None] if a magic
    comment stands inside a block comment or has invalid arguments. *)
Fixpoint expand (in_block : bool) (ls : list string) : option (bool * list tok) :=
  match ls with
  | [] => Some (in_block, [])
  | l :: r =>
      match (match magic l with
             | Some a => if in_block then None
                         else match invalid a with None => Some (false, code_of a) | Some _ => None end
             | None => Some (lex_line in_block l)
             end) with
      | Some (b1, t1) =>
          match expand b1 r with Some (b2, t2) => Some (b2, t1 ++ t2)%list | None => None end
      | None => None
      end
  end.

Lemma lex_lines_app b l1 l2 :
  lex_lines b (l1 ++ l2)%list =
  let '(b1, t1) := lex_lines b l1 in let '(b2, t2) := lex_lines b1 l2 in (b2, t1 ++ t2)%list.
Proof.
  revert b. induction l1 as [|x l1 IH]; intros b; cbn.
  - destruct (lex_lines b l2); reflexivity.
  - destruct (lex_line b x) as [b1 t1]. rewrite IH.
    destruct (lex_lines b1 l1) as [b2 t2]. destruct (lex_lines b2 l2) as [b3 t3].
    rewrite app_assoc. reflexivity.
Qed.

Lemma lines_of_app s r : lines_of (s ++ String newline r) = (lines_of s ++ lines_of r)%list.
Proof.
  unfold lines_of. induction s as [|c s IH].
  - reflexivity.
  - cbn [append split_on]. destruct (Ascii.eqb c newline); [rewrite IH; reflexivity|].
    rewrite IH. pose proof (split_on_nonempty newline s).
    destruct (split_on newline s); [congruence|reflexivity].
Qed.

Lemma lines_of_text l : l <> [] -> lines_of (text_of l) = flat_map lines_of l.
Proof.
  unfold text_of. induction l as [|x l IH]; [congruence|]. intros _.
  destruct l as [|y l]; [cbn; rewrite app_nil_r; reflexivity|].
  rewrite join_cons by discriminate. rewrite lines_of_app, IH by discriminate. reflexivity.
Qed.

Lemma expand_lex render b ls t :
  renders render ->
  Forall (fun l => no_char newline l = true) ls ->
  expand b ls = Some t -> lex_lines b (flat_map lines_of (map (replace render) ls)) = t.
Proof.
  intros R. revert b t. induction ls as [|l ls IH]; intros b t F; cbn [expand map flat_map].
  - intros [= <-]. reflexivity.
  - inversion F; subst. rewrite lex_lines_app. unfold replace at 1.
    destruct (magic l) as [a|].
    + destruct b; [discriminate|]. destruct (invalid a) eqn:V; [discriminate|].
      rewrite (R a V). destruct (expand false ls) as [[b2 t2]|] eqn:E; [|discriminate].
      intros [= <-]. rewrite (IH _ _ H2 E). reflexivity.
    + unfold lines_of at 1. rewrite split_on_no_char by assumption. cbn [lex_lines].
      destruct (lex_line b l) as [b1 t1].
      destruct (expand b1 ls) as [[b2 t2]|] eqn:E; [|discriminate].
      intros [= <-]. rewrite (IH _ _ H2 E). rewrite app_nil_r. reflexivity.
Qed.

Lemma generate_lex render ls t :
  renders render -> ls <> [] -> forallb (no_char newline) ls = true ->
  expand false ls = Some t -> lex_lines false (lines_of (generate render (text_of ls))) = t.
Proof.
  intros R N F E. unfold generate.
  assert (L : lines_of (text_of ls) = ls).
  { rewrite lines_of_text by assumption. rewrite forallb_forall in F. clear -F.
    induction ls as [|x l IH]; [reflexivity|]. cbn.
    unfold lines_of at 1. rewrite split_on_no_char by (apply F; left; reflexivity).
    cbn. f_equal. apply IH. intros; apply F; right; assumption. }
  rewrite L, lines_of_text.
  - apply expand_lex; [assumption| |assumption]. apply Forall_forall. apply forallb_forall. assumption.
  - destruct ls; [congruence|discriminate].
Qed.

Lemma lines_buffer : forallb (no_char newline) v3_buffer_template = true.
Proof. vm_compute. reflexivity. Qed.
Lemma lines_minibuf : forallb (no_char newline) v3_minibuf_template = true.
Proof. vm_compute. reflexivity. Qed.
Lemma expand_buffer : expand false v3_buffer_template = Some (lex_lines false v3_buffer).
Proof. vm_cast_no_check (eq_refl (Some (lex_lines false v3_buffer))). Qed.
Lemma expand_minibuf : expand false v3_minibuf_template = Some (lex_lines false v3_minibuf).
Proof. vm_cast_no_check (eq_refl (Some (lex_lines false v3_minibuf))). Qed.

(** Non-vacuity: printing the tokens with a space after each and a newline after
    each comment is a way to lay the code out. *)
Definition print_tok (t : tok) : string :=
  match t with
  | TId s | TOp s | TBad s => s ++ " "
  | TInt z => NilEmpty.string_of_int (Z.to_int z) ++ " "
  | TFloat _ _ => " "           (* generated code has none *)
  | TStr s => """" ++ s ++ """ "
  | TComment s => s ++ String newline ""
  end.
Definition plain (a : args) : string := fold_right append "" (map print_tok (code_of a)).

Lemma one_of2_spec x y s : one_of2 x y s = true <-> In s [x; y].
Proof.
  unfold one_of2. rewrite orb_true_iff, !String.eqb_eq. cbn. intuition congruence.
Qed.
Lemma one_of3_spec x y z s : one_of3 x y z s = true <-> In s [x; y; z].
Proof.
  unfold one_of3. rewrite !orb_true_iff, !String.eqb_eq. cbn. intuition congruence.
Qed.
Lemma in_valid r w s i e :
  In (mkArgs r w s i e) valid_args <->
  In r ["Buffer"; "MiniBuffer"] /\ In w ["Read"; "Write"] /\ In s ["I"; "U"; "F"]
  /\ In i ["16"; "32"; "64"] /\ In e ["BE"; "LE"].
Proof.
  unfold valid_args. split.
  - intros H. apply in_flat_map in H as (r' & Hr & H). apply in_flat_map in H as (w' & Hw & H).
    apply in_flat_map in H as (s' & Hs & H). apply in_flat_map in H as (i' & Hi & H).
    apply in_map_iff in H as (e' & [= <- <- <- <- <-] & He). tauto.
  - intros (Hr & Hw & Hs & Hi & He).
    apply in_flat_map. exists r. split; [exact Hr|]. apply in_flat_map. exists w. split; [exact Hw|].
    apply in_flat_map. exists s. split; [exact Hs|]. apply in_flat_map. exists i. split; [exact Hi|].
    apply in_map_iff. exists e. split; [reflexivity|exact He].
Qed.

Lemma invalid_spec a : invalid a = None <-> In a valid_args.
Proof.
  destruct a as [r w s i e]. rewrite in_valid, <- !one_of2_spec, <- !one_of3_spec.
  unfold invalid. cbn [a_recv a_rw a_sn a_is a_en].
  destruct (one_of2 "Buffer" "MiniBuffer" r), (one_of2 "Read" "Write" w), (one_of3 "I" "U" "F" s),
    (one_of3 "16" "32" "64" i), (one_of2 "BE" "LE" e); cbn [negb];
    (split; [try discriminate; auto|intuition discriminate]).
Qed.

Lemma map_eq_in {A B} (f g : A -> B) l : map f l = map g l -> forall x, In x l -> f x = g x.
Proof. induction l as [|y l IH]; [contradiction|]. cbn. intros [= H1 H2] x [->|H]; auto. Qed.

Lemma plain_all :
  map (fun a => lex_lines false (lines_of (plain a))) valid_args = map (fun a => (false, code_of a)) valid_args.
Proof. vm_compute. reflexivity. Qed.
Definition committed_ast (recv : string) : list gdecl := if recv =? "Buffer" then buffer_ast else minibuf_ast.

Lemma generated_all :
  map (fun a => p_decls fuel (no_comments (code_of a)))
      (filter (fun a => negb ((a_sn a =? "F") && (a_is a =? "16"))) valid_args)
  = map (fun a => Some (filter (is_func (a_recv a) (method_name a)) (committed_ast (a_recv a))
                        ++ filter (is_func (a_recv a) (method_name a ++ "Next")) (committed_ast (a_recv a)))%list)
      (filter (fun a => negb ((a_sn a =? "F") && (a_is a =? "16"))) valid_args).
Proof. vm_compute. reflexivity. Qed.

(** ** File names *)

Lemma ends_with_spec suf s : ends_with suf s = true <-> exists x, s = x ++ suf.
Proof.
  induction s as [|c r IH]; cbn [ends_with].
  - rewrite orb_false_r, String.eqb_eq. split.
    + intros <-. exists "". reflexivity.
    + intros ([|] & H); [exact H|discriminate].
  - rewrite orb_true_iff, String.eqb_eq, IH. split.
    + intros [<-|(x & ->)]; [exists ""|exists (String c x)]; reflexivity.
    + intros ([|c' x] & H); [left; exact H|right]. injection H as <- H. exists x. exact H.
Qed.
Lemma length_append_s a b : String.length (a ++ b) = String.length a + String.length b.
Proof. induction a; cbn; congruence. Qed.
Lemma substring_prefix x y : substring 0 (String.length x) (x ++ y) = x.
Proof. induction x as [|c x IH]; cbn; [destruct y; reflexivity|]. congruence. Qed.
Lemma append_inj_r x y s : x ++ s = y ++ s -> x = y.
Proof.
  revert y. induction x as [|c x IH]; intros [|c' y] H; cbn in *.
  - reflexivity.
  - apply (f_equal String.length) in H. cbn in H. rewrite length_append_s in H. lia.
  - apply (f_equal String.length) in H. cbn in H. rewrite length_append_s in H. lia.
  - injection H as -> H. f_equal. auto.
Qed.
Lemma trim_suffix_append x suf : trim_suffix suf (x ++ suf) = x.
Proof.
  unfold trim_suffix. rewrite (proj2 (ends_with_spec suf (x ++ suf))) by (exists x; reflexivity).
  rewrite length_append_s, Nat.add_sub. apply substring_prefix.
Qed.

