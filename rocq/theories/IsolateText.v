(** * IsolateText: the goroutines of IsolateSpec.v, running the Go text.

    For a starting state and the calls of each goroutine there is one bound on the
    nesting of calls and loop rounds above which, in every schedule, the text and
    the models take the same steps. *)
From Coq Require Import ZArith List Bool Lia Arith ZifyBool.
From Verif Require Import GoSem Errors GoLemmas Conv GoEval Front Tables Spec FrontCalls FrontMiniCalls.
From Verif Require Import V1Lemmas Typed Calls Abs MiniAbs History MiniHistory OldCalls V1Calls Abs2 Sim2 MiniAbs2 FrontOldCalls FrontOldMini Enough Conc ConcLemmas Race FrontConc
  Props_Front Props_Abs2 Props_Mini2 Props_Race3 Props_RaceMini Props_FrontRace IsolateSpec Isolate.
Import ListNotations.
Open Scope Z_scope.
Open Scope list_scope.

(** ** The text of a call *)

(** What the caller finds in the variable behind the [out] pointer, for the methods
    that fill it bit by bit or number by number. *)
Definition finds3 (c : call slice) : option (list Z -> rv slice) :=
  match c with
  | At _ (OReadBits _) | Next (OReadBits _) => Some (fun o => RInt (hd 0 o))
  | At _ (ORead _ _) | Next (ORead _ _) => Some (fun o => RNums o)
  | _ => None
  end.
Definition finds_old (v : version) (c : call2 slice) : option (list Z -> rv slice) :=
  match v, c with
  | _, At2 _ (PReadBits _) | _, Next2 (PReadBits _) => Some (fun o => RInt (hd 0 o))
  | V2, At2 _ (PRead _ _) | V2, Next2 (PRead _ _) => Some (fun o => RNums o)
  | _, _ => None
  end.
Definition then_find (f : option (list Z -> rv slice)) (p : prog (rv slice)) : prog (rv slice) :=
  match f with Some g => x <- p ;; GetOuts (fun o => Ret (g o)) | None => p end.

Definition job_text (pol : Z -> Z -> Z) (n : nat) (k : sort) (j : job) : prog (rv slice) :=
  match k, j with
  | Buf3, J3 c _ => go_body v3_program pol n (go_call c)
  | Mini3, J3 c _ => then_find (finds3 c) (go_body v3_mini_program pol n (mini_go_call c))
  | BufOld v, J2 c _ => go_body (old_program v) pol n (old_go_call v c)
  | MiniOld v, J2 c _ => then_find (finds_old v c) (go_body (old_mini_program v) pol n (old_mini_go_call v c))
  | _, _ => Panic (RuntimeError NilMapOrOther)   (* no such method *)
  end.

Lemma conv_unassoc {A B C} (T : prog A) (f : A -> prog B) (g : B -> prog C) : forall P,
  conv eq (bind (bind T f) g) P -> conv eq (bind T (fun a => bind (f a) g)) P.
Proof.
  conv_cases T IH; intros P; cbn [bind conv]; auto;
    intros (M & K & HK & H); exists M, K; split; auto; intros x; apply (IH x (fun n => K n x)); auto.
Qed.
Lemma conv_find (g : list Z -> rv slice) (T : prog unit) P :
  conv eq (ret_unit T) P -> conv eq (bind T (fun _ => GetOuts (fun o => Ret (g o)))) (fun n => then_find (Some g) (P n)).
Proof.
  intro H. apply (conv_unassoc T (fun _ => Ret (@RUnit slice)) (fun _ => GetOuts (fun o => Ret (g o)))). cbn [then_find].
  eapply (conv_bind eq eq); [exact H|]. intros a b <-. apply (conv_refl (GetOuts (fun o => Ret (g o)))).
Qed.

Lemma job_conv pol s k j : valid_job k s j -> conv eq (job_body pol k j) (fun n => job_text pol n k j).
Proof.
  intro V. destruct k as [| |v|v], j as [c o|c o]; cbn [valid_job] in V; try contradiction; cbn [job_body job_text].
  - rewrite v3_program_text. apply body_conv. apply do_call_text.
  - destruct V as [MM _]. rewrite v3_mini_program_text. pose proof (body_conv _ _ _ _ (mini_call_text pol c MM)) as H.
    destruct c as [off q|q| | | |off r|off r|off|off| | |n|n|n| | | | | | |]; try destruct q; try exact H; now apply conv_find.
  - destruct V as [_ NR]. rewrite old_program_text. destruct v; cbn [old_package old_go_call].
    + destruct (do1_call pol c) eqn:E; [apply body_conv; now apply do1_call_text|]. destruct c; try discriminate E. now destruct NR.
    + apply body_conv. apply do2_call_text.
  - destruct V as [MM _]. rewrite old_mini_program_text. pose proof (body_conv _ _ _ _ (old_mini_text v pol c MM)) as H.
    destruct v, c as [off q|q| | | |off r|off r|off|off| | |n| | | | | | |]; try destruct q; try exact H; now apply conv_find.
Qed.

Lemma old_mini_enough v pol c : old_mini_method v c = true -> Forall exists_in_go (snd (go_call2 c)) -> enough any (old_mini v pol c).
Proof.
  destruct v, c as [off o|o| | | |off r|off r|off|off| | |n| | | | | | |]; cbn [old_mini_method go_call2 go_other2 old_mini mini1_call mini2_call snd];
    try destruct o; intro MM; try discriminate MM; cbn [go_op2 snd mini1_at mini1_next mini2_at mini2_next]; try match goal with t : uty |- _ => destruct t end;
    cbn [MiniWriteU MiniWriteUNext MiniReadU MiniReadUNext]; intros H; args_tac H; cbn [idata_of] in *; unfold out_int, out_nums; enough_tac.
Qed.
Lemma job_enough pol s k j : wf_heap (heap s) -> valid_job k s j -> enough any (job_body pol k j).
Proof.
  intros W V. destruct k as [| |v|v], j as [c o|c o]; cbn [valid_job] in V; try contradiction; cbn [job_body].
  - apply do_call_enough. eapply valid_exists; eauto.
  - destruct V as (MM & V & _). apply mini_call_enough; auto. eapply valid_exists; eauto.
  - destruct V as [V NR]. destruct v.
    + destruct (do1_call pol c) eqn:E; [|exact I]. eapply do1_call_enough; eauto.
    + apply do2_call_enough. eapply valid2_exists; eauto.
  - destruct V as (MM & V & _). apply old_mini_enough; auto. eapply valid2_exists; eauto.
Qed.

(** ** Steps, computed *)

Definition wnext (body : sort -> job -> prog (rv slice)) (m : heap_t) (w : worker) : option (heap_t * worker) :=
  match w with
  | mkW k b mu o js None l =>
      match js with j :: r => Some (m, mkW k b mu (job_out j) r (Some (body k j)) l) | [] => None end
  | mkW k b mu o js (Some p) l =>
      match p with
      | Ret v => Some (m, mkW k b mu o js None (l ++ [MReturned (view_rv (mkSt m b mu o) v) o]))
      | Panic e => Some (m, mkW k b mu o js None (l ++ [MRaised e o]))
      | _ => match step1 p (mkSt m b mu o) with
             | Some (p', s') => Some (heap s', mkW k (bb s') (GoSem.mu s') (outs s') js (Some p') l)
             | None => None
             end
      end
  end.
Lemma wnext_step body m w m' w' : wstep body m w m' w' <-> wnext body m w = Some (m', w').
Proof.
  split.
  - intro H. inversion H; subst; cbn [wnext]; auto. destruct p; try discriminate; match goal with X : _ = Some _ |- _ => now rewrite X end.
  - destruct w as [k b mu o js [p|] l]; cbn [wnext].
    + destruct p; try (intro H; injection H as <- <-; constructor; fail);
        match goal with |- context [step1 ?q ?s] => destruct (step1 q s) as [[p' s']|] eqn:E end; try discriminate;
        intro H; injection H as <- <-; now constructor.
    + destruct js as [|j r]; [discriminate|]. intro H. injection H as <- <-. constructor.
Qed.

(** ** Two shops that do the same *)

(** The same but for the inside of the calls under way. *)
Definition alike1 (w w' : worker) : Prop :=
  w_sort w = w_sort w' /\ w_buf w = w_buf w' /\ w_mu w = w_mu w' /\ w_outs w = w_outs w' /\ w_todo w = w_todo w' /\ w_done w = w_done w' /\
  (w_cur w = None <-> w_cur w' = None) /\ (waits w <-> waits w').
Definition alike (c c' : shop) : Prop := memory c = memory c' /\ Forall2 alike1 (workers c) (workers c').

Inductive twin (body body' : sort -> job -> prog (rv slice)) (c c' : shop) : Prop :=
| twin_intro :
    alike c c' -> (forall t, shop_access c t = shop_access c' t) ->
    (forall t w w', nth_error (workers c) t = Some w -> nth_error (workers c') t = Some w' ->
       (wnext body (memory c) w = None -> wnext body' (memory c') w' = None) /\
       (forall m w1, wnext body (memory c) w = Some (m, w1) -> exists w1', wnext body' (memory c') w' = Some (m, w1') /\
          twin body body' (mkShop m (set_nth (workers c) t w1)) (mkShop m (set_nth (workers c') t w1')))) ->
    twin body body' c c'.

Lemma twin_alike body body' c c' : twin body body' c c' -> alike c c'.
Proof. now intros []. Qed.
Lemma alike_nth c c' t w' : alike c c' -> nth_error (workers c') t = Some w' -> exists w, nth_error (workers c) t = Some w /\ alike1 w w'.
Proof.
  intros [_ F]. revert t. induction F as [|a b l l' R F IH]; intros [|t] E; try discriminate E; cbn in *; auto. injection E as <-. eauto.
Qed.
Lemma alike_sees c c' w w' : alike c c' -> alike1 w w' -> sees (memory c') w' = sees (memory c) w.
Proof. intros [E _] (A1 & A2 & A3 & A4 & _). unfold sees. now rewrite E, A2, A3, A4. Qed.

Lemma twin_works body body' c0 c0' sch tr c' : twin body body' c0 c0' -> works body' c0' sch tr c' ->
  exists c, works body c0 sch tr c /\ twin body body' c c'.
Proof.
  intros T W. induction W as [|sch tr c1 t w m w' W IH E S].
  - exists c0. split; [constructor|exact T].
  - destruct IH as (c2 & W2 & T2). pose proof T2 as [AL AC ST]. destruct (alike_nth _ _ _ _ AL E) as (v & E2 & _).
    apply wnext_step in S. destruct (ST t v w E2 E) as [NO YES].
    destruct (wnext body (memory c2) v) as [[m2 v2]|] eqn:EN; [|rewrite NO in S by auto; discriminate].
    destruct (YES m2 v2 eq_refl) as (w1' & S' & T'). rewrite S in S'. injection S' as <- <-.
    eexists. split; [|exact T']. rewrite <- AC. eapply wk_step; eauto. now apply wnext_step.
Qed.

(** ** Families *)

Section Families.
Variables (body : sort -> job -> prog (rv slice)) (text : nat -> sort -> job -> prog (rv slice)) (ok : sort -> job -> Prop).
Hypothesis text_conv : forall k j, ok k j -> conv eq (body k j) (fun n => text n k j).
Hypothesis body_enough : forall k j, ok k j -> enough any (body k j).

(** A goroutine at every bound at once. *)
Definition family : Type := (worker * option (nat -> prog (rv slice)))%type.
Definition inst (n : nat) (f : family) : worker :=
  let w := fst f in mkW (w_sort w) (w_buf w) (w_mu w) (w_outs w) (w_todo w) (option_map (fun P => P n) (snd f)) (w_done w).
Definition good (f : family) : Prop :=
  Forall (ok (w_sort (fst f))) (w_todo (fst f)) /\ short (b_buf (w_buf (fst f))) /\
  match w_cur (fst f), snd f with None, None => True | Some T, Some P => conv eq T P /\ enough any T | _, _ => False end.

Lemma family_step m f : good f ->
  (wnext body m (fst f) = None /\ exists N, forall n, (N <= n)%nat -> wnext (text n) m (inst n f) = None) \/
  (exists m1 f1, wnext body m (fst f) = Some (m1, fst f1) /\ good f1 /\
     exists N, forall n, (N <= n)%nat -> wnext (text n) m (inst n f) = Some (m1, inst n f1)).
Proof.
  destruct f as [[k b mu o js cu l] cf]. intros (F1 & F2 & F3). cbn [fst snd w_sort w_buf w_todo w_cur] in *. unfold inst. cbn [fst snd w_sort w_buf w_todo w_cur w_mu w_outs w_done].
  destruct cu as [T|], cf as [P|]; try contradiction; cbn [option_map].
  - destruct F3 as [C E]. destruct (conv_step T P (mkSt m b mu o) C E F2) as [(v & -> & N & HN)|[(e & -> & N & HN)|[[(E1 & E2 & E3) (N & HN)]|(T' & s' & P' & E1 & (N & HN) & C' & E' & S')]]].
    + right. exists m, (mkW k b mu o js None (l ++ [MReturned (view_rv (mkSt m b mu o) v) o]), None). split; [reflexivity|]. split; [exact (conj F1 (conj F2 I))|].
      exists N. intros n Hn. now rewrite HN.
    + right. exists m, (mkW k b mu o js None (l ++ [MRaised e o]), None). split; [reflexivity|]. split; [exact (conj F1 (conj F2 I))|].
      exists N. intros n Hn. now rewrite HN.
    + left. split.
      * cbn [wnext]. destruct T; try (now rewrite E1). { now destruct (E2 a). } { now destruct (E3 e). }
      * exists N. intros n Hn. destruct (HN n Hn) as (G1 & G2 & G3). cbn [wnext]. destruct (P n); try (now rewrite G1). { now destruct (G2 a). } { now destruct (G3 e). }
    + right. exists (heap s'), (mkW k (bb s') (GoSem.mu s') (outs s') js (Some T') l, Some P'). cbn [fst snd]. split; [|split].
      * cbn [wnext]. destruct T; try discriminate E1; now rewrite E1.
      * exact (conj F1 (conj S' (conj C' E'))).
      * exists N. intros n Hn. specialize (HN n Hn). cbn [wnext]. destruct (P n); try discriminate HN; now rewrite HN.
  - destruct js as [|j r]; [left; split; [reflexivity|exists 0%nat; reflexivity]|right].
    inversion F1; subst. exists m, (mkW k b mu (job_out j) r (Some (body k j)) l, Some (fun n => text n k j)). split; [reflexivity|].
    split; [exact (conj H2 (conj F2 (conj (text_conv k j H1) (body_enough k j H1))))|]. exists 0%nat. reflexivity.
Qed.
Lemma family_alike f : good f -> exists N, forall n, (N <= n)%nat -> alike1 (fst f) (inst n f).
Proof.
  destruct f as [[k b mu o js cu l] cf]. intros (_ & _ & F3). cbn [fst snd w_cur] in F3. unfold alike1, inst, waits. cbn.
  destruct cu as [T|], cf as [P|]; try contradiction; cbn [option_map].
  - destruct F3 as [C E].
    assert (X : exists N, forall n, (N <= n)%nat -> (exists p, T = Lock p) <-> (exists p, P n = Lock p)).
    { destruct T; cbn [conv] in C; try contradiction.
      1: destruct C as (N & x & _ & H).
      2: destruct C as (N & H).
      3-14: destruct C as (N & K & H & _).
      all: exists N; intros n' Hn; rewrite (H n' Hn); split; intros [q Q]; try discriminate Q; eauto. }
    destruct X as [N HN]. exists N. intros n Hn. do 6 (split; [reflexivity|]). split; [split; discriminate|].
    specialize (HN n Hn). split; intros (p & Q & M).
    + injection Q as ->. destruct (proj1 HN) as [q Q]; [eauto|]. exists q. now rewrite Q.
    + injection Q as Q. destruct (proj2 HN) as [q Q']; [eauto|]. exists q. now rewrite Q'.
  - exists 0%nat. intros n _. do 6 (split; [reflexivity|]). split; [tauto|]. split; intros (p & Q & _); discriminate.
Qed.
Lemma family_access m f : good f -> exists N, forall n, (N <= n)%nat -> forall t : nat,
  match w_cur (fst f) with Some p => match access_of p (sees m (fst f)) with Some a => [(t, a)] | None => [] end | None => [] end =
  match w_cur (inst n f) with Some p => match access_of p (sees m (inst n f)) with Some a => [(t, a)] | None => [] end | None => [] end.
Proof.
  destruct f as [[k b mu o js cu l] cf]. intros (_ & _ & F3). cbn [fst snd w_cur] in F3. unfold inst, sees. cbn [fst snd w_sort w_buf w_todo w_cur w_mu w_outs w_done].
  destruct cu as [T|], cf as [P|]; try contradiction; cbn [option_map].
  - destruct F3 as [C E]. destruct (conv_access T P (mkSt m b mu o) C E) as [N HN]. exists N. intros n Hn t. now rewrite (HN n Hn).
  - exists 0%nat. reflexivity.
Qed.

Lemma uniform_list {X} (Q : nat -> X -> Prop) (l : list X) : Forall (fun x => exists N, forall n, (N <= n)%nat -> Q n x) l ->
  exists N, forall n, (N <= n)%nat -> Forall (Q n) l.
Proof.
  induction 1 as [|x l [N HN] _ [M HM]]; [exists 0%nat; auto|]. exists (N + M)%nat. intros n Hn. constructor; [apply HN; lia|apply HM; lia].
Qed.
Lemma set_nth_map {A B} (f : A -> B) l t x : map f (set_nth l t x) = set_nth (map f l) t (f x).
Proof. unfold set_nth. now rewrite map_app, <- firstn_map, map_cons, <- skipn_map. Qed.
Lemma Forall_set_nth {A} (P : A -> Prop) l t x : Forall P l -> P x -> Forall P (set_nth l t x).
Proof.
  intros F X. unfold set_nth. apply Forall_app. split; [|constructor; auto].
  - revert t. induction F; intros [|t]; cbn; auto.
  - revert t. induction F; intros [|t]; cbn; auto. apply (IHF t).
Qed.

Variables (c0 : shop) (bound : nat).
Hypothesis ends : forall sch tr c, works body c0 sch tr c -> (length sch <= bound)%nat.

Lemma twins k : forall m fl sch tr, works body c0 sch tr (mkShop m (map fst fl)) -> (bound < length sch + k)%nat -> Forall good fl ->
  exists N, forall n, (N <= n)%nat -> twin body (text n) (mkShop m (map fst fl)) (mkShop m (map (inst n) fl)).
Proof.
  induction k as [|k IH]; intros m fl sch tr W B G; [apply ends in W; lia|].
  destruct (uniform_list (fun n f => alike1 (fst f) (inst n f)) fl) as [N1 H1]. { eapply Forall_impl; [|exact G]. intros. now apply family_alike. }
  destruct (uniform_list (fun n f => forall t : nat,
    match w_cur (fst f) with Some p => match access_of p (sees m (fst f)) with Some a => [(t, a)] | None => [] end | None => [] end =
    match w_cur (inst n f) with Some p => match access_of p (sees m (inst n f)) with Some a => [(t, a)] | None => [] end | None => [] end) fl) as [N2 H2].
  { eapply Forall_impl; [|exact G]. intros. now apply family_access. }
  destruct (uniform (fun t n => forall f, nth_error fl t = Some f ->
     (wnext body m (fst f) = None -> wnext (text n) m (inst n f) = None) /\
     (forall m1 w1, wnext body m (fst f) = Some (m1, w1) -> exists w1', wnext (text n) m (inst n f) = Some (m1, w1') /\
        twin body (text n) (mkShop m1 (set_nth (map fst fl) t w1)) (mkShop m1 (set_nth (map (inst n) fl) t w1')))) (length fl)) as [N3 H3].
  { intros t L. destruct (nth_error fl t) as [f|] eqn:E; [|apply nth_error_None in E; lia].
    assert (Gf : good f). { rewrite Forall_forall in G. apply G. eapply nth_error_In; eauto. }
    destruct (family_step m f Gf) as [[NO (N & HN)]|(m1 & f1 & YES & G1 & N & HN)].
    - exists N. intros n Hn f' E'. injection E' as <-. split; [auto|]. intros m1 w1 X. rewrite NO in X. discriminate.
    - destruct (IH m1 (set_nth fl t f1) (sch ++ [t]) (tr ++ shop_access (mkShop m (map fst fl)) t)) as [M HM].
      + rewrite set_nth_map. eapply (wk_step body c0 sch tr (mkShop m (map fst fl)) t (fst f)); [exact W| |].
        * cbn [workers]. now apply map_nth_error.
        * now apply wnext_step.
      + rewrite app_length. cbn. lia.
      + now apply Forall_set_nth.
      + exists (N + M)%nat. intros n Hn f' E'. injection E' as <-. split; [rewrite YES; discriminate|]. intros m2 w2 X. rewrite YES in X. injection X as <- <-.
        exists (inst n f1). split; [apply HN; lia|]. specialize (HM n ltac:(lia)). rewrite !set_nth_map in HM. exact HM. }
  exists (N1 + N2 + N3)%nat. intros n Hn. specialize (H1 n ltac:(lia)). specialize (H2 n ltac:(lia)). specialize (H3 n ltac:(lia)). constructor.
  - split; [reflexivity|]. cbn [workers]. clear - H1. induction H1; cbn; constructor; auto.
  - intro t. unfold shop_access. cbn [workers memory]. destruct (nth_error fl t) as [f|] eqn:E.
    + rewrite (map_nth_error _ _ _ E), (map_nth_error _ _ _ E). rewrite Forall_forall in H2. apply (H2 f). eapply nth_error_In; eauto.
    + assert (L : (length fl <= t)%nat) by (now apply nth_error_None).
      rewrite !(proj2 (nth_error_None _ _)); auto; now rewrite map_length.
  - cbn [workers memory]. intros t w w' E E'. destruct (nth_error fl t) as [f|] eqn:Ef.
    + rewrite (map_nth_error _ _ _ Ef) in E. rewrite (map_nth_error _ _ _ Ef) in E'. injection E as <-. injection E' as <-. apply H3; auto. apply nth_error_Some. congruence.
    + exfalso. assert (L : (length fl <= t)%nat) by (now apply nth_error_None). rewrite (proj2 (nth_error_None (map fst fl) t)) in E; [discriminate|now rewrite map_length].
Qed.
End Families.

(** ** The run alone *)

Lemma res_eq {A} (r r' : res A) : res_rel eq r r' -> r' = r.
Proof. now intros [a b s <-|e s|s]. Qed.
Lemma alone_text pol k js : forall s, WF s -> Forall (valid_job k s) js ->
  exists N, forall n, (N <= n)%nat -> alone (job_text pol n) k s js = alone (job_body pol) k s js.
Proof.
  induction js as [|j js IH]; intros s W F; [exists 0%nat; reflexivity|]. inversion F; subst.
  pose proof (job_safe pol k s j W H1) as S.
  assert (NS : run (job_body pol k j) (set_outs s (job_out j)) <> Stuck) by (intro X; now rewrite X in S).
  destruct (conv_run eq _ _ _ (job_conv pol s k j H1) NS) as [N HN].
  assert (X : exists M, forall n, (M <= n)%nat -> match run (job_body pol k j) (set_outs s (job_out j)) with
    | Done _ s' | Panicked _ s' => alone (job_text pol n) k s' js = alone (job_body pol) k s' js | _ => True end).
  { destruct (run (job_body pol k j) _) as [v s'|e s'|s'|]; try (exists 0%nat; auto; fail);
      (destruct (IH s') as [M HM]; [apply S|eapply Forall_impl; [|exact H2]; intro; apply valid_grows; apply S|exists M; auto]). }
  destruct X as [M HM]. exists (N + M)%nat. intros n Hn. specialize (HN n ltac:(lia)). specialize (HM n ltac:(lia)). apply res_eq in HN.
  cbn [alone]. rewrite HN. destruct (run (job_body pol k j) _); auto; now rewrite HM.
Qed.

(** ** One bound for every schedule *)

Theorem text_twin pol own c0 : exclusive own -> at_home own c0 -> opened c0 ->
  exists N, forall n, (N <= n)%nat -> twin (job_body pol) (job_text pol n) c0 c0 /\
    Forall (fun w => alone (job_text pol n) (w_sort w) (sees (memory c0) w) (w_todo w) = alone (job_body pol) (w_sort w) (sees (memory c0) w) (w_todo w)) (workers c0).
Proof.
  intros X H O. pose proof O as F. unfold opened in F.
  destruct (uniform_list (fun n w => alone (job_text pol n) (w_sort w) (sees (memory c0) w) (w_todo w) = alone (job_body pol) (w_sort w) (sees (memory c0) w) (w_todo w)) (workers c0)) as [N1 H1].
  { eapply Forall_impl; [|exact F]. intros w (W & _ & _ & _ & V). now apply alone_text. }
  set (ok := fun (k : sort) (j : job) => exists s, wf_heap (heap s) /\ valid_job k s j).
  destruct (twins (job_body pol) (job_text pol) ok) with (c0 := c0) (bound := list_sum (all_steps pol c0)) (k := S (list_sum (all_steps pol c0)))
    (m := memory c0) (fl := map (fun w => (w, @None (nat -> prog (rv slice)))) (workers c0)) (sch := @nil nat) (tr := @nil (nat * access)) as [N2 H2].
  - intros k j (s & _ & V). eapply job_conv; eauto.
  - intros k j (s & W & V). eapply job_enough; eauto.
  - intros sch tr c W. exact (steps_bound pol own c0 X H O sch tr c W).
  - rewrite map_map. cbn [fst]. rewrite map_id. destruct c0. constructor.
  - cbn. lia.
  - apply Forall_map. eapply Forall_impl; [|exact F]. intros w (W & _ & C & _ & V). split; [|split]; cbn [fst snd].
    + eapply Forall_impl; [|exact V]. intros j J. exists (sees (memory c0) w). split; auto. apply W.
    + apply (wf_slice_short (memory c0)); apply W.
    + now rewrite C.
  - exists (N1 + N2)%nat. intros n Hn. split; [|apply H1; lia]. specialize (H2 n ltac:(lia)). rewrite !map_map in H2. cbn [fst] in H2. rewrite map_id in H2.
    replace (map (fun x => inst n (x, None)) (workers c0)) with (workers c0) in H2; [destruct c0; exact H2|].
    clear - F. induction F as [|w l (_ & _ & C & _) _ IH]; cbn [map]; auto. f_equal; auto. unfold inst. cbn. destruct w; cbn in *. now subst.
Qed.
