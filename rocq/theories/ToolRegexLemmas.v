(** * ToolRegexLemmas: the regular expression of the generator finds exactly the
    lines that are magic comments. *)
From Coq Require Import List Bool String Ascii Arith Lia.
From Verif Require Import GoLex GoParse Gen GenSpec GenLemmas ToolRegex.
Import ListNotations.
Open Scope string_scope.

(** generation/complex.go:78 *)
Definition pattern : string :=
  "(?m)^\/\/generator:complex ([A-z]{1,}) ([A-z]{1,}) ([A-z]{1,}) ([0-9]{1,}) ([A-z]{1,})$".

Fixpoint chars (s : string) : list rx :=
  match s with EmptyString => [] | String c r => RChar c :: chars r end.
Definition word : rx := RRun "A" "z".
Definition num : rx := RRun "0" "9".
Definition magic_rx : list rx :=
  RBol :: (chars magic_prefix
    ++ [word; RChar " "; word; RChar " "; word; RChar " "; num; RChar " "; word; REol])%list.
Lemma compile_pattern : compile pattern = Some magic_rx.
Proof. vm_compute. reflexivity. Qed.

(** [s] is empty or a new line starts after its first character. *)
Definition line_end (s : string) : Prop := s = "" \/ exists r, s = String newline r.
(** The first character of [s] is not between [lo] and [hi]. *)
Definition stops (lo hi : ascii) (s : string) : Prop :=
  match s with EmptyString => True | String c _ => between lo hi c = false end.
Definition run_of (lo hi : ascii) (w : string) : bool := negb (w =? "") && all_chars (between lo hi) w.

Lemma no_char_cons c d s : no_char c (String d s) = true -> Ascii.eqb d c = false /\ no_char c s = true.
Proof.
  unfold no_char. cbn [all_chars]. intros H. apply andb_prop in H as [H1 H2]. apply negb_true_iff in H1. auto.
Qed.

(** ** Sound *)

Lemma chars_sound l p b s gs m rest :
  rmatch (chars l ++ p) b s = Some (gs, m, rest) ->
  exists b' s' m', s = l ++ s' /\ m = l ++ m' /\ rmatch p b' s' = Some (gs, m', rest).
Proof.
  revert b s gs m. induction l as [|c l IH]; intros b s gs m H; cbn [chars app] in H.
  - exists b, s, m. auto.
  - cbn [rmatch] in H. destruct s as [|d r]; [discriminate|].
    destruct (Ascii.eqb_spec c d) as [->|]; [|discriminate].
    destruct (rmatch (chars l ++ p) (Ascii.eqb d newline) r) as [[[gs1 m1] rest1]|] eqn:E; [|discriminate].
    injection H as <- <- <-. destruct (IH _ _ _ _ E) as (b' & s' & m' & -> & -> & R).
    exists b', s', m'. auto.
Qed.

Lemma run_sound lo hi p b s gs m rest :
  rmatch (RRun lo hi :: p) b s = Some (gs, m, rest) ->
  exists w b' s' gs' m', run_of lo hi w = true /\ s = w ++ s' /\ gs = w :: gs' /\ m = w ++ m'
    /\ rmatch p b' s' = Some (gs', m', rest).
Proof.
  cbn [rmatch]. revert gs m. induction s as [|d r IH]; intros gs m H; [discriminate|].
  destruct (between lo hi d) eqn:B; [|discriminate].
  assert (L : (exists gs1 m1 , rmatch p (Ascii.eqb d newline) r = Some (gs1, m1, rest)
                /\ gs = String d "" :: gs1 /\ m = String d m1) ->
              exists w b' s' gs' m', run_of lo hi w = true /\ String d r = w ++ s' /\ gs = w :: gs' /\ m = w ++ m'
                /\ rmatch p b' s' = Some (gs', m', rest)).
  { intros (gs1 & m1 & E & -> & ->). exists (String d ""), (Ascii.eqb d newline), r, gs1, m1.
    unfold run_of. cbn. rewrite B. auto. }
  revert H.
  match goal with |- match ?X with _ => _ end = _ -> _ => destruct X as [[[[|g gs1] m1] rest1]|] eqn:E end; intros H.
  - destruct (rmatch p (Ascii.eqb d newline) r) as [[[gs2 m2] rest2]|]; [|discriminate].
    injection H as <- <- <-. apply L. eauto.
  - injection H as <- <- <-.
    destruct (IH _ _ eq_refl) as (w & b' & s' & gs' & m' & W & -> & G & -> & R). injection G as -> ->.
    exists (String d w), b', s', gs', m'. unfold run_of in *. cbn. rewrite B.
    apply andb_prop in W as [_ W]. rewrite W. auto.
  - destruct (rmatch p (Ascii.eqb d newline) r) as [[[gs2 m2] rest2]|]; [|discriminate].
    injection H as <- <- <-. apply L. eauto.
Qed.

Lemma char_sound c p b s gs m rest :
  rmatch (RChar c :: p) b s = Some (gs, m, rest) ->
  exists b' s' m', s = String c s' /\ m = String c m' /\ rmatch p b' s' = Some (gs, m', rest).
Proof. exact (chars_sound (String c "") p b s gs m rest). Qed.

Lemma eol_sound b s gs m rest :
  rmatch [REol] b s = Some (gs, m, rest) -> line_end s /\ gs = [] /\ m = "" /\ rest = s.
Proof.
  cbn [rmatch]. destruct s as [|c r].
  - intros [= <- <- <-]. repeat split. left. reflexivity.
  - destruct (Ascii.eqb_spec c newline) as [->|]; [|discriminate].
    intros [= <- <- <-]. repeat split. right. eauto.
Qed.

Definition groups (a : args) : list string := [a_recv a; a_rw a; a_sn a; a_is a; a_en a].

Lemma magic_sound b s gs m rest :
  rmatch magic_rx b s = Some (gs, m, rest) ->
  b = true /\ s = m ++ rest /\ line_end rest /\ exists a, magic m = Some a /\ gs = groups a.
Proof.
  unfold magic_rx. cbn [rmatch]. destruct b; [|discriminate]. intros H.
  apply chars_sound in H as (b1 & s1 & m1 & -> & -> & H).
  apply run_sound in H as (w1 & b2 & s2 & gs2 & m2 & W1 & -> & -> & -> & H).
  apply char_sound in H as (b3 & s3 & m3 & -> & -> & H).
  apply run_sound in H as (w2 & b4 & s4 & gs4 & m4 & W2 & -> & -> & -> & H).
  apply char_sound in H as (b5 & s5 & m5 & -> & -> & H).
  apply run_sound in H as (w3 & b6 & s6 & gs6 & m6 & W3 & -> & -> & -> & H).
  apply char_sound in H as (b7 & s7 & m7 & -> & -> & H).
  apply run_sound in H as (w4 & b8 & s8 & gs8 & m8 & W4 & -> & -> & -> & H).
  apply char_sound in H as (b9 & s9 & m9 & -> & -> & H).
  apply run_sound in H as (w5 & b10 & s10 & gs10 & m10 & W5 & -> & -> & -> & H).
  apply eol_sound in H as (L & -> & -> & ->).
  repeat split; [|exact L|].
  - rewrite !append_assoc_s. cbn. rewrite !append_assoc_s. cbn. rewrite !append_assoc_s. cbn.
    rewrite !append_assoc_s. cbn. rewrite !append_assoc_s. cbn. reflexivity.
  - exists (mkArgs w1 w2 w3 w4 w5). split; [|reflexivity].
    apply magic_spec. rewrite append_nil_r. repeat split; assumption.
Qed.

(** ** Complete *)

Lemma chars_complete l p b s :
  no_char newline l = true -> l <> "" ->
  rmatch (chars l ++ p) b (l ++ s) =
  match rmatch p false s with Some (gs, m, rest) => Some (gs, l ++ m, rest) | None => None end.
Proof.
  revert b. induction l as [|c l IH]; intros b N E; [congruence|]. cbn [chars app].
  apply no_char_cons in N as [N1 N2].
  cbn [rmatch append]. rewrite Ascii.eqb_refl, N1. destruct l as [|c' l].
  - cbn [chars app append]. destruct (rmatch p false s) as [[[gs m] rest]|]; reflexivity.
  - rewrite (IH false N2) by discriminate. destruct (rmatch p false s) as [[[gs m] rest]|]; reflexivity.
Qed.

Lemma run_complete lo hi p b w s gs m rest :
  run_of lo hi w = true -> stops lo hi s -> between lo hi newline = false ->
  rmatch p false s = Some (gs, m, rest) ->
  rmatch (RRun lo hi :: p) b (w ++ s) = Some (w :: gs, w ++ m, rest).
Proof.
  intros W S N H. cbn [rmatch]. unfold run_of in W. apply andb_prop in W as [W0 W].
  induction w as [|c w IH]; [discriminate|]. cbn [all_chars] in W. apply andb_prop in W as [B W].
  cbn [append]. rewrite B.
  assert (NL : Ascii.eqb c newline = false)
    by (destruct (Ascii.eqb_spec c newline) as [->|]; [congruence|reflexivity]).
  rewrite NL. destruct w as [|c' w].
  - cbn [append]. destruct s as [|d s].
    + rewrite H. reflexivity.
    + cbn in S. rewrite S, H. reflexivity.
  - rewrite (IH eq_refl W). reflexivity.
Qed.

Lemma char_complete c p b s gs m rest :
  Ascii.eqb c newline = false -> rmatch p false s = Some (gs, m, rest) ->
  rmatch (RChar c :: p) b (String c s) = Some (gs, String c m, rest).
Proof. intros N H. cbn [rmatch]. rewrite Ascii.eqb_refl, N, H. reflexivity. Qed.

Lemma line_end_stops lo hi s : between lo hi newline = false -> line_end s -> stops lo hi s.
Proof. intros N [->|(r & ->)]; cbn; auto. Qed.

Lemma magic_complete m a rest :
  magic m = Some a -> line_end rest -> rmatch magic_rx true (m ++ rest) = Some (groups a, m, rest).
Proof.
  destruct a as [w1 w2 w3 w4 w5]. intros M L. apply magic_spec in M as (-> & W1 & W2 & W3 & W4 & W5).
  assert (E : forall x r, (x ++ r) ++ rest = x ++ r ++ rest) by (intros; apply append_assoc_s).
  unfold magic_rx. cbn [rmatch]. change "//generator:complex " with magic_prefix.
  rewrite !E. rewrite chars_complete by (vm_compute; congruence).
  assert (H5 : rmatch [REol] false rest = Some ([], "", rest)).
  { destruct L as [->|(r & ->)]; reflexivity. }
  assert (N1 : between "A" "z" newline = false) by reflexivity.
  assert (N2 : between "0" "9" newline = false) by reflexivity.
  eapply (run_complete _ _ _ false w5) in H5; [|exact W5|apply (line_end_stops _ _ _ N1 L)|exact N1].
  eapply (char_complete " " _ false) in H5; [|reflexivity].
  eapply (run_complete _ _ _ false w4) in H5; [|exact W4|reflexivity|exact N2].
  eapply (char_complete " " _ false) in H5; [|reflexivity].
  eapply (run_complete _ _ _ false w3) in H5; [|exact W3|reflexivity|exact N1].
  eapply (char_complete " " _ false) in H5; [|reflexivity].
  eapply (run_complete _ _ _ false w2) in H5; [|exact W2|reflexivity|exact N1].
  eapply (char_complete " " _ false) in H5; [|reflexivity].
  eapply (run_complete _ _ _ false w1) in H5; [|exact W1|reflexivity|exact N1].
  cbn [append] in H5 |- *. rewrite append_nil_r in H5.
  fold word num in H5. rewrite H5. reflexivity.
Qed.

(** ** A text, line by line *)

Fixpoint plains (s : string) : list seg :=
  match s with EmptyString => [] | String c r => Plain c :: plains r end.
Definition line_segs (l : string) : list seg :=
  match magic l with Some a => [Match l (groups a)] | None => plains l end.
Fixpoint lines_segs (ls : list string) : list seg :=
  match ls with
  | [] => []
  | [l] => line_segs l
  | l :: r => line_segs l ++ Plain newline :: lines_segs r
  end%list.

Lemma line_unique l1 r1 l2 r2 :
  l1 ++ r1 = l2 ++ r2 -> no_char newline l1 = true -> no_char newline l2 = true ->
  line_end r1 -> line_end r2 -> l1 = l2 /\ r1 = r2.
Proof.
  revert l2. induction l1 as [|c l1 IH]; intros [|d l2] E N1 N2 L1 L2; cbn [append] in E.
  - auto.
  - subst r1. destruct L1 as [|(r & [= -> ->])]; [discriminate|].
    discriminate.
  - subst r2. destruct L2 as [|(r & [= -> <-])]; [discriminate|]. discriminate.
  - injection E as -> E. apply no_char_cons in N1 as [_ N1], N2 as [_ N2].
    destruct (IH _ E N1 N2 L1 L2). subst. auto.
Qed.

Lemma word_no_newline lo hi w : between lo hi newline = false -> run_of lo hi w = true -> no_char newline w = true.
Proof.
  intros N W. unfold run_of in W. apply andb_prop in W as [_ W].
  induction w as [|c w IH]; [reflexivity|]. cbn [all_chars] in W. apply andb_prop in W as [B W].
  unfold no_char in *. cbn [all_chars].
  destruct (Ascii.eqb_spec c newline) as [->|]; [congruence|]. apply IH, W.
Qed.
Lemma no_char_app c a b : no_char c (a ++ b) = no_char c a && no_char c b.
Proof. unfold no_char. induction a as [|x a IH]; [reflexivity|]. cbn. rewrite IH, andb_assoc. reflexivity. Qed.
Lemma magic_no_newline m a : magic m = Some a -> no_char newline m = true.
Proof.
  destruct a as [w1 w2 w3 w4 w5]. intros M. apply magic_spec in M as (-> & W1 & W2 & W3 & W4 & W5).
  rewrite !no_char_app.
  rewrite (word_no_newline "A" "z" w1), (word_no_newline "A" "z" w2), (word_no_newline "A" "z" w3),
    (word_no_newline "0" "9" w4), (word_no_newline "A" "z" w5) by (reflexivity || assumption).
  reflexivity.
Qed.

(** Where no line starts there is no match. *)
Lemma segs_plain l : no_char newline l = true -> forall n rest, (n > String.length l)%nat ->
  segs_from n magic_rx false (l ++ rest) = (plains l ++ segs_from (n - String.length l) magic_rx false rest)%list.
Proof.
  induction l as [|c l IH]; intros N n rest G; [cbn; rewrite Nat.sub_0_r; reflexivity|].
  destruct n as [|n]; [cbn in G; lia|]. cbn [append segs_from rmatch magic_rx plains app].
  apply no_char_cons in N as [N1 N2]. rewrite N1.
  rewrite (IH N2) by (cbn in G; lia). cbn [String.length Nat.sub]. reflexivity.
Qed.

Lemma last_char_magic m a : magic m = Some a -> Ascii.eqb (last_char m) newline = false.
Proof.
  intros M. pose proof (magic_no_newline m a M) as N.
  clear M. destruct (Ascii.eqb_spec (last_char m) newline) as [E|]; [|reflexivity]. exfalso.
  induction m as [|c m IH]; [discriminate|]. apply no_char_cons in N as [N1 N2].
  destruct m as [|d m]; [cbn in E; subst c; discriminate|]. apply IH; assumption.
Qed.

Lemma length_app_s a b : String.length (a ++ b) = (String.length a + String.length b)%nat.
Proof. apply length_append_s. Qed.

(** A line at its start. *)
Lemma segs_line l rest n : no_char newline l = true -> line_end rest -> (n > String.length (l ++ rest))%nat ->
  exists n' b, (n' > String.length rest)%nat /\
    (rest = "" \/ b = true \/ b = false) /\
    segs_from n magic_rx true (l ++ rest) = (line_segs l ++ segs_from n' magic_rx b rest)%list.
Proof.
  intros N L G. unfold line_segs. destruct (magic l) as [a|] eqn:M.
  - destruct n as [|n]; [lia|]. cbn [segs_from]. rewrite (magic_complete l a rest M L).
    destruct l as [|c l]; [discriminate|]. rewrite (last_char_magic _ _ M).
    exists n, false. repeat split; auto. rewrite length_app_s in G. cbn in G. lia.
  - destruct n as [|n]; [lia|]. cbn [segs_from].
    destruct (rmatch magic_rx true (l ++ rest)) as [[[gs m] rest']|] eqn:R.
    { apply magic_sound in R as (_ & E & L' & a & M' & _).
      destruct (line_unique _ _ _ _ E N (magic_no_newline _ _ M') L L') as [-> _]. congruence. }
    destruct l as [|c l].
    + cbn [append plains app]. exists (S n), true. repeat split; auto.
      cbn [segs_from]. cbn [append] in R. rewrite R. reflexivity.
    + cbn [append]. apply no_char_cons in N as [N1 N2]. rewrite N1.
      rewrite length_app_s in G. cbn in G.
      rewrite segs_plain by (assumption || lia).
      exists (n - String.length l)%nat, false. repeat split; auto. lia.
Qed.

Lemma segs_newline n b r : (n > String.length (String newline r))%nat ->
  exists n', (n' > String.length r)%nat /\
    segs_from n magic_rx b (String newline r) = Plain newline :: segs_from n' magic_rx true r.
Proof.
  intros G. destruct n as [|n]; [lia|]. exists n. split; [cbn in G; lia|].
  cbn [segs_from]. assert (R : rmatch magic_rx b (String newline r) = None) by (destruct b; reflexivity).
  rewrite R. reflexivity.
Qed.

Lemma segs_lines ls : ls <> [] -> Forall (fun l => no_char newline l = true) ls ->
  forall n, (n > String.length (text_of ls))%nat -> segs_from n magic_rx true (text_of ls) = lines_segs ls.
Proof.
  unfold text_of. induction ls as [|l ls IH]; [congruence|]. intros _ F n G. inversion_clear F as [|? ? N F'].
  destruct ls as [|l' ls].
  - unfold join_with in *. cbn [String.concat] in *.
    destruct (segs_line l "" n N) as (n' & b & G' & _ & E); [left; reflexivity|rewrite append_nil_r; exact G|].
    rewrite append_nil_r in E. rewrite E. cbn [lines_segs].
    assert (Z : segs_from n' magic_rx b "" = []).
    { destruct n'; [reflexivity|]. destruct b; reflexivity. }
    rewrite Z, app_nil_r. reflexivity.
  - rewrite (join_cons newline l (l' :: ls)) in G |- * by discriminate.
    destruct (segs_line l (String newline (join_with newline (l' :: ls))) n N) as (n' & b & G' & _ & E);
      [right; eauto|exact G|].
    rewrite E. destruct (segs_newline n' b _ G') as (n2 & G2 & E2). rewrite E2.
    rewrite (IH) by (discriminate || assumption). reflexivity.
Qed.

(** The matches of the generator's expression are the magic lines. *)
Theorem segs_magic s : segs magic_rx s = lines_segs (lines_of s).
Proof.
  unfold segs. rewrite <- (join_split newline s) at 1 2. apply segs_lines.
  - apply split_on_nonempty.
  - apply split_on_pieces.
  - unfold text_of, lines_of. lia.
Qed.

Lemma submatches_magic m a : magic m = Some a -> submatches (segs magic_rx m) = [m :: groups a].
Proof.
  intros M. rewrite segs_magic. unfold lines_of.
  rewrite split_on_no_char by (apply (magic_no_newline m a M)). cbn. unfold line_segs. rewrite M. reflexivity.
Qed.
