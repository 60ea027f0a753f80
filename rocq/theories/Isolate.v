(** * Isolate: goroutines that each have a buffer of their own behave as if alone. *)
From Coq Require Import ZArith List Bool Lia Arith ZifyBool.
From Verif Require RaceSpec3.
From Verif Require Import ConcLemmas GoSem Errors Spec GoLemmas V3ByteLemmas Calls Abs Frame Sim History MiniAbs MiniHistory OldCalls V1Calls Abs2 Hist2 MiniAbs2 MiniHist2 Conc Race Alone IsolateSpec IsolateRel.
Import ListNotations.
Open Scope Z_scope.
Open Scope list_scope.

(** ** Memory *)

Definition cell (h : heap_t) (b : nat) (i : Z) : Z := nth (Z.to_nat i) (nth b h []) 0.
Lemma cell_write h b i d h' : heap_write h b i d = Some h' ->
  length h' = length h /\
  (forall c, zlen (nth c h' []) = zlen (nth c h [])) /\
  (forall c j, 0 <= j -> cell h' c j = if (c =? b)%nat && ((i <=? j) && (j <? i + zlen d)) then nth (Z.to_nat (j - i)) d 0 else cell h c j).
Proof. intro H. exact (written (mkSt h (mkBuf (mkSlice 0 0 0 0) 0 0 0 0) false []) b i d h' H). Qed.
Lemma nth_alloc_old (h : heap_t) l b : (b < length h)%nat -> nth b (h ++ [l]) [] = nth b h [].
Proof. intro H. now rewrite app_nth1. Qed.
Lemma nth_alloc_new (h : heap_t) l : nth (length h) (h ++ [l]) [] = l.
Proof. rewrite app_nth2 by lia. now rewrite Nat.sub_diag. Qed.

(** Arrays stay where they are and keep their sizes. *)
Definition grows (h h' : heap_t) : Prop :=
  (length h <= length h')%nat /\ forall b, (b < length h)%nat -> zlen (nth b h' []) = zlen (nth b h []).
Lemma grows_refl h : grows h h. Proof. split; auto. Qed.
Lemma grows_trans h1 h2 h3 : grows h1 h2 -> grows h2 h3 -> grows h1 h3.
Proof. intros [A B] [C D]. split; [lia|]. intros b L. rewrite D by lia. now apply B. Qed.
Lemma grows_write h b i d h' : heap_write h b i d = Some h' -> grows h h'.
Proof. intro H. apply cell_write in H as (H1 & H2 & _). split; auto. lia. Qed.
Lemma grows_alloc h l : grows h (h ++ [l]).
Proof. split; [rewrite app_length; lia|]. intros b L. now rewrite nth_alloc_old. Qed.
Lemma run_grows {A} (p : prog A) : forall s, match run p s with
  | Done _ s' | Panicked _ s' | Deadlock s' => grows (heap s) (heap s') | Stuck => True end.
Proof.
  induction p; intro s0; cbn [run]; try exact (grows_refl _); try exact I; try (now apply H); try (now apply (IHp (set_bb s0 _))); auto.
  - destruct (heap_read _ _ _ _) as [[|v [|]]|]; auto. apply H.
  - destruct (heap_write _ _ _ _) as [h|] eqn:E; auto. specialize (IHp (set_heap s0 h)). apply grows_write in E.
    destruct (run p _); auto; eapply grows_trans; eauto.
  - destruct (heap_read _ _ _ _); auto. destruct (heap_write _ _ _ _) as [h|] eqn:E; auto. specialize (IHp (set_heap s0 h)). apply grows_write in E.
    destruct (run p _); auto; eapply grows_trans; eauto.
  - specialize (H (length (heap s0)) (set_heap s0 (heap s0 ++ [l]))). pose proof (grows_alloc (heap s0) l).
    destruct (run _ _); auto; eapply grows_trans; eauto.
  - apply (IHp (set_outs s0 _)).
  - destruct (mu s0); [apply grows_refl|]. apply (IHp (set_mu s0 _)).
  - destruct (mu s0); auto. apply (IHp (set_mu s0 _)).
Qed.

(** ** One goroutine in company and alone *)

Section One.
Variables (n0 : nat) (own look : nat -> Z -> Prop).
Notation known := (known n0).
Notation rd := (rd n0 look).
Notation wr := (wr n0 own).
Notation srel := (srel n0 own).
Notation arel := (arel n0 look).
Notation rel := (rel n0 own look).
Notation rvrel := (rvrel n0 look).

(** [U]: memory alone; [S]: memory in company. *)
Record hrel (r : pairs) (U S : heap_t) : Prop := mkH {
  h_lenU : (n0 <= length U)%nat;
  h_lenS : (n0 <= length S)%nat;
  h_in : forall b b', In (b, b') r -> (n0 <= b < length U)%nat /\ (n0 <= b' < length S)%nat;
  h_inj : forall b b' c c', In (b, b') r -> In (c, c') r -> b = c <-> b' = c';
  h_size : forall b b', known r b b' -> zlen (nth b U []) = zlen (nth b' S []);
  h_cell : forall b b' i, 0 <= i -> rd r b b' i -> cell U b i = cell S b' i }.

Record sim (r : pairs) (U S : St) : Prop := mkS {
  s_heap : hrel r (heap U) (heap S);
  s_buf : srel r (b_buf (bb U)) (b_buf (bb S));
  s_fld : forall f, get_fld (bb U) f = get_fld (bb S) f;
  s_mu : mu U = mu S;
  s_outs : outs U = outs S }.

Lemma wr_known r b b' i : wr r b b' i -> known r b b'.
Proof. intros [(A & B & C)|H]; [left|right]; auto. Qed.
Lemma rd_known r b b' i : rd r b b' i -> known r b b'.
Proof. intros [(A & B & C)|H]; [left|right]; auto. Qed.
Lemma known_inj r U S b b' c c' : hrel r U S -> known r b b' -> known r c c' -> b = c <-> b' = c'.
Proof.
  intros H [[<- K]|K] [[<- L]|L].
  - tauto.
  - apply (h_in _ _ _ H) in L. lia.
  - apply (h_in _ _ _ H) in K. lia.
  - eapply h_inj; eauto.
Qed.
Lemma known_in r U S b b' : hrel r U S -> known r b b' -> (b < length U)%nat /\ (b' < length S)%nat.
Proof. intros H [[<- K]|K]; [destruct H; lia|]. apply (h_in _ _ _ H) in K. lia. Qed.

Lemma read_company r U S b b' i n d' : hrel r U S -> known r b b' -> (forall j, i <= j < i + n -> rd r b b' j) ->
  heap_read S b' i n = Some d' -> heap_read U b i n = Some d'.
Proof.
  intros H K C R. apply heap_read_inv in R as (_ & R2 & R3 & R4 & ->). pose proof (h_size _ _ _ H _ _ K) as Z.
  destruct (known_in _ _ _ _ _ H K) as [K1 K2]. rewrite heap_read_ok by (auto; lia). f_equal. apply sub_same; auto.
  intros j J. exact (h_cell _ _ _ H b b' j ltac:(lia) (C j J)).
Qed.
Lemma read_alone r U S b b' i n d : hrel r U S -> known r b b' -> (forall j, i <= j < i + n -> rd r b b' j) ->
  heap_read U b i n = Some d -> heap_read S b' i n = Some d.
Proof.
  intros H K C R. apply heap_read_inv in R as (_ & R2 & R3 & R4 & ->). pose proof (h_size _ _ _ H _ _ K) as Z.
  destruct (known_in _ _ _ _ _ H K) as [K1 K2]. rewrite heap_read_ok by (auto; lia). f_equal. apply sub_same; auto.
  intros j J. symmetry. exact (h_cell _ _ _ H b b' j ltac:(lia) (C j J)).
Qed.
Lemma write_company r U S b b' i d S' : hrel r U S -> known r b b' -> heap_write S b' i d = Some S' ->
  exists U', heap_write U b i d = Some U' /\ hrel r U' S'.
Proof.
  intros H K W. pose proof W as W0. apply heap_write_inv in W0 as (_ & W2 & W3 & _). pose proof (h_size _ _ _ H _ _ K) as Z.
  destruct (known_in _ _ _ _ _ H K) as [K1 K2].
  destruct (heap_write U b i d) as [U'|] eqn:E.
  - exists U'. split; auto. apply cell_write in E as (E1 & E2 & E3), W as (W4 & W5 & W6).
    constructor; rewrite ?E1, ?W4; try apply H.
    + intros c c' C. rewrite E2, W5. now apply H.
    + intros c c' j J C. rewrite E3, W6 by auto. pose proof (known_inj _ _ _ _ _ _ _ H K (rd_known _ _ _ _ C)) as I.
      destruct (Nat.eqb_spec c b), (Nat.eqb_spec c' b'); try lia; cbn [andb].
      * destruct (_ && _); auto. now apply (h_cell _ _ _ H).
      * now apply (h_cell _ _ _ H).
  - rewrite heap_write_ok in E by (auto; lia). discriminate.
Qed.
Lemma write_alone r U S b b' i d U' : hrel r U S -> known r b b' -> heap_write U b i d = Some U' ->
  exists S', heap_write S b' i d = Some S'.
Proof.
  intros H K W. apply heap_write_inv in W as (_ & W2 & W3 & _). pose proof (h_size _ _ _ H _ _ K) as Z.
  destruct (known_in _ _ _ _ _ H K) as [K1 K2]. eexists. apply heap_write_ok; auto; lia.
Qed.
Lemma alloc_both r U S l : hrel r U S -> hrel ((length U, length S) :: r) (U ++ [l]) (S ++ [l]).
Proof.
  intros [A B C D E F]. constructor; rewrite ?app_length; cbn [length]; try lia.
  - intros b b' [X|X]; [injection X as <- <-; lia|]. apply C in X. lia.
  - intros b b' c c' [X|X] [Y|Y].
    + injection X as <- <-. injection Y as <- <-. tauto.
    + injection X as <- <-. apply C in Y. lia.
    + injection Y as <- <-. apply C in X. lia.
    + eauto.
  - intros b b' [[<- X]|[X|X]].
    + rewrite !nth_alloc_old by lia. apply E. now left.
    + injection X as <- <-. now rewrite !nth_alloc_new.
    + pose proof (C _ _ X). rewrite !nth_alloc_old by lia. apply E. now right.
  - intros b b' i I [(<- & X & Y)|[X|X]]; unfold cell.
    + rewrite !nth_alloc_old by lia. apply F; auto. left; auto.
    + injection X as <- <-. now rewrite !nth_alloc_new.
    + pose proof (C _ _ X). rewrite !nth_alloc_old by lia. apply F; auto. now right.
Qed.

Lemma step_sim {A} (R : pairs -> A -> A -> Prop) r p p' U S q' S' : rel R r p p' -> sim r U S -> step1 p' S = Some (q', S') ->
  exists q U' r', step1 p U = Some (q, U') /\ incl r r' /\ rel R r' q q' /\ sim r' U' S' /\
    (forall b b', In (b, b') r' -> In (b, b') r \/ b' = length (heap S)) /\
    (forall l k, p' = Alloc l k -> exists a, In (a, length (heap S)) r').
Proof.
  intros H Z E. assert (I : incl r r) by apply incl_refl.
  assert (O : forall b b', In (b, b') r -> In (b, b') r \/ b' = length (heap S)) by auto.
  destruct Z as [Z1 Z2 Z3 Z4 Z5]. inversion H; subst; cbn [step1] in *; try discriminate.
  - injection E as <- <-. do 3 eexists. split; [reflexivity|]. split; [exact I|]. split; [auto|]. split; [constructor; auto|split; [auto|discriminate]].
  - injection E as <- <-. do 3 eexists. split; [reflexivity|]. split; [exact I|]. split; [eassumption|]. split; [constructor; auto|split; [auto|discriminate]].
  - injection E as <- <-. rewrite Z3. do 3 eexists. split; [reflexivity|]. split; [exact I|]. split; [auto|]. split; [constructor; auto|split; [auto|discriminate]].
  - injection E as <- <-. do 3 eexists. split; [reflexivity|]. split; [exact I|]. split; [eassumption|]. split; [constructor; cbn; rewrite ?buf_upd; auto|split; [auto|discriminate]].
    intro g. rewrite !get_upd. destruct (RaceSpec3.fld_eqb g f); auto.
  - destruct (heap_read (heap S) b' i 1) as [[|v [|]]|] eqn:E1; try discriminate. injection E as <- <-.
    rewrite (read_company r _ _ b b' i 1 [v] Z1 (rd_known _ _ _ _ H0)); auto.
    + do 3 eexists. split; [reflexivity|]. split; [exact I|]. split; [auto|]. split; [constructor; auto|split; [auto|discriminate]].
    + intros j J. now replace j with i by lia.
  - destruct (heap_write (heap S) b' i [v]) as [h|] eqn:E1; try discriminate. injection E as <- <-.
    destruct (write_company r _ _ b b' i [v] h Z1 (wr_known _ _ _ _ H0) E1) as (U' & EU & HU). rewrite EU.
    do 3 eexists. split; [reflexivity|]. split; [exact I|]. split; [eassumption|]. split; [constructor; auto|split; [auto|discriminate]].
  - destruct (heap_read (heap S) sb' si n) as [d|] eqn:E1; try discriminate.
    destruct (heap_write (heap S) db' di d) as [h|] eqn:E2; try discriminate. injection E as <- <-.
    rewrite (read_company r _ _ sb sb' si n d Z1); auto.
    destruct (write_company r _ _ db db' di d h Z1 H0 E2) as (U' & EU & HU). rewrite EU.
    do 3 eexists. split; [reflexivity|]. split; [exact I|]. split; [eassumption|]. split; [constructor; auto|split; [auto|discriminate]].
  - injection E as <- <-. do 3 eexists. split; [reflexivity|]. split; [apply incl_tl; exact I|]. split; [apply H0|].
    split; [constructor; cbn [heap bb mu outs set_heap]; auto|split].
    + now apply alloc_both.
    + eapply srel_mono; [|eassumption]. apply incl_tl, incl_refl.
    + intros b b' [X|X]; auto. injection X as <- <-. auto.
    + intros l' k0 _. eexists. left. reflexivity.
  - injection E as <- <-. rewrite Z5. do 3 eexists. split; [reflexivity|]. split; [exact I|]. split; [auto|]. split; [constructor; auto|split; [auto|discriminate]].
  - injection E as <- <-. do 3 eexists. split; [reflexivity|]. split; [exact I|]. split; [eassumption|]. split; [constructor; auto|split; [auto|discriminate]].
  - rewrite Z4. destruct (mu S); try discriminate. injection E as <- <-.
    do 3 eexists. split; [reflexivity|]. split; [exact I|]. split; [eassumption|]. split; [constructor; auto|split; [auto|discriminate]].
  - rewrite Z4. destruct (mu S); try discriminate. injection E as <- <-.
    do 3 eexists. split; [reflexivity|]. split; [exact I|]. split; [eassumption|]. split; [constructor; auto|split; [auto|discriminate]].
Qed.

Lemma step_too {A} (R : pairs -> A -> A -> Prop) r p p' U S : rel R r p p' -> sim r U S -> step1 p U <> None -> step1 p' S <> None.
Proof.
  intros H [Z1 Z2 Z3 Z4 Z5] E. inversion H; subst; cbn [step1] in *; try congruence.
  - destruct (heap_read (heap U) b i 1) as [d|] eqn:E1; [|congruence].
    rewrite (read_alone r _ _ b b' i 1 d Z1 (rd_known _ _ _ _ H0)); auto.
    + destruct d as [|v [|]]; congruence.
    + intros j J. now replace j with i by lia.
  - destruct (heap_write (heap U) b i [v]) as [h|] eqn:E1; [|congruence].
    destruct (write_alone r _ _ b b' i [v] h Z1 (wr_known _ _ _ _ H0) E1) as (S' & ->). discriminate.
  - destruct (heap_read (heap U) sb si n) as [d|] eqn:E1; [|congruence].
    destruct (heap_write (heap U) db di d) as [h|] eqn:E2; [|congruence].
    rewrite (read_alone r _ _ sb sb' si n d Z1); auto.
    destruct (write_alone r _ _ db db' di d h Z1 H0 E2) as (S' & ->). discriminate.
  - rewrite <- Z4. destruct (mu U); congruence.
  - rewrite <- Z4. destruct (mu U); congruence.
Qed.

(** What a step in company does to memory. *)
Definition may_change (r : pairs) (b : nat) (i : Z) : Prop := ((b < n0)%nat /\ own b i) \/ exists a, In (a, b) r.
Definition may_use (r : pairs) (b : nat) (i : Z) : Prop := ((b < n0)%nat /\ look b i) \/ exists a, In (a, b) r.
Lemma wr_change r b b' i : wr r b b' i -> may_change r b' i.
Proof. intros [(<- & A & B)|H]; [left|right]; eauto. Qed.
Lemma rd_use r b b' i : rd r b b' i -> may_use r b' i.
Proof. intros [(<- & A & B)|H]; [left|right]; eauto. Qed.

Lemma step_effect {A} (R : pairs -> A -> A -> Prop) r p p' S q' S' : rel R r p p' -> step1 p' S = Some (q', S') ->
  grows (heap S) (heap S') /\
  forall b i, 0 <= i -> (b < length (heap S))%nat -> cell (heap S') b i = cell (heap S) b i \/ may_change r b i.
Proof.
  intros H E. assert (G : grows (heap S) (heap S)) by apply grows_refl.
  inversion H; subst; cbn [step1] in E; try discriminate; try (injection E as <- <-; cbn [heap set_bb set_outs]; split; auto; fail).
  - destruct (heap_read _ _ _ _) as [[|v [|]]|]; try discriminate. injection E as <- <-. auto.
  - destruct (heap_write (heap S) b' i [v]) as [h|] eqn:E1; try discriminate. injection E as <- <-. split; [eapply grows_write; eauto|].
    intros c j J L. apply cell_write in E1 as (_ & _ & E3). cbn [heap set_heap]. rewrite E3 by auto. change (zlen [v]) with 1.
    destruct (Nat.eqb_spec c b') as [->|]; cbn [andb]; auto. destruct (_ && _) eqn:X; auto. right. replace j with i by lia. eapply wr_change; eauto.
  - destruct (heap_read _ _ _ _) as [d|] eqn:E0; try discriminate.
    destruct (heap_write (heap S) db' di d) as [h|] eqn:E1; try discriminate. injection E as <- <-. split; [eapply grows_write; eauto|].
    apply heap_read_inv in E0 as (_ & R2 & R3 & R4 & ->).
    intros c j J L. apply cell_write in E1 as (_ & _ & E3). cbn [heap set_heap]. rewrite E3 by auto. rewrite sub_length by auto.
    destruct (Nat.eqb_spec c db') as [->|]; cbn [andb]; auto. destruct (_ && _) eqn:X; auto. right. eapply wr_change. apply H2. lia.
  - injection E as <- <-. split; [apply grows_alloc|]. intros b i I L. left. cbn. unfold cell. now rewrite nth_alloc_old.
  - destruct (mu S); try discriminate. injection E as <- <-. auto.
  - destruct (mu S); try discriminate. injection E as <- <-. auto.
Qed.

(** ... and what it accesses. *)
Lemma step_access {A} (R : pairs -> A -> A -> Prop) r p p' S a : rel R r p p' -> access_of p' S = Some a ->
  (forall b i, reads a (LByte b i) -> may_use r b i) /\
  (forall b i, writes a (LByte b i) -> may_change r b i \/ (b = length (heap S) /\ exists l k, p' = Alloc l k)).
Proof.
  intros H E. inversion H; subst; cbn [access_of] in E; try discriminate; injection E as <-; cbn [reads writes]; split; intros c j X; try discriminate; try contradiction.
  - injection X as -> ->. eapply rd_use; eauto.
  - injection X as -> ->. left. eapply wr_change; eauto.
  - destruct X as (x & X1 & X2). injection X2 as -> ->. eapply rd_use; eauto.
  - destruct X as (x & X1 & X2). injection X2 as -> ->. left. eapply wr_change; eauto.
  - destruct X as (x & X2). injection X2 as -> ->. right. eauto.
Qed.

(** Somebody else's step. *)
Lemma sim_other r U S S' : sim r U S -> bb S' = bb S -> mu S' = mu S -> outs S' = outs S -> grows (heap S) (heap S') ->
  (forall b b' i, 0 <= i -> rd r b b' i -> cell (heap S') b' i = cell (heap S) b' i) -> sim r U S'.
Proof.
  intros [[A B C D E F] Z2 Z3 Z4 Z5] E1 E2 E3 [G1 G2] X. constructor; rewrite ?E1, ?E2, ?E3; auto. constructor; auto; try lia.
  - intros b b' I. apply C in I. lia.
  - intros b b' K. rewrite (E b b' K). symmetry. apply G2. destruct K as [[<- K]|K]; [lia|]. apply C in K. lia.
  - intros b b' i I K. rewrite (X b b' i I K). now apply F.
Qed.

Lemma view_same r U S v v' : sim r U S -> rvrel r v v' -> view_rv U v = view_rv S v'.
Proof.
  intros [Z1 _ _ _ _] H. destruct v, v'; cbn [IsolateRel.rvrel] in H; try contradiction; try discriminate; try (injection H as ->; reflexivity); try reflexivity.
  cbn [view_rv]. f_equal. destruct H as (H1 & H2 & O & H3 & H4). apply same_eq in H1 as (A1 & A2 & A3). unfold slice_bytes. rewrite A1, A2.
  apply sub_same; auto.
  - now apply (h_size _ _ _ Z1).
  - intros j J. apply (h_cell _ _ _ Z1); auto. lia.
Qed.
End One.

(** ** All goroutines *)

Lemma alone_app pol k js : forall ds s l U, alone (job_body pol) k s ds = (l, Some U) ->
  alone (job_body pol) k s (ds ++ js) = (l ++ fst (alone (job_body pol) k U js), snd (alone (job_body pol) k U js)).
Proof.
  induction ds as [|j ds IH]; intros s l U H; cbn [alone app] in *.
  - injection H as <- <-. cbn [app]. now destruct (alone (job_body pol) k s js).
  - destruct (run _ _) as [v s'|e s'|s'|]; try discriminate; destruct (alone (job_body pol) k s' ds) as [l' e'] eqn:E;
      injection H as <- ->; rewrite (IH _ _ _ E); reflexivity.
Qed.

(** How many steps a call, and all calls, take alone. *)
Fixpoint cost {A} (p : prog A) (s : St) : nat :=
  match p with
  | Ret _ | Panic _ | OutOfFuel => 0
  | GetBuf k => S (cost (k (b_buf (bb s))) s)
  | SetBuf d k => S (cost k (set_bb s (upd_buf (bb s) d)))
  | GetF f k => S (cost (k (get_fld (bb s) f)) s)
  | SetF f v k => S (cost k (set_bb s (upd_fld (bb s) f v)))
  | Load b i k => match heap_read (heap s) b i 1 with Some [v] => S (cost (k v) s) | _ => 0 end
  | Store b i v k => match heap_write (heap s) b i [v] with Some h => S (cost k (set_heap s h)) | None => 0 end
  | Move db di sb si n k =>
      match heap_read (heap s) sb si n with
      | Some d => match heap_write (heap s) db di d with Some h => S (cost k (set_heap s h)) | None => 0 end
      | None => 0
      end
  | Alloc l k => S (cost (k (length (heap s))) (set_heap s (heap s ++ [l])))
  | GetOuts k => S (cost (k (outs s)) s)
  | SetOuts o k => S (cost k (set_outs s o))
  | Lock k => if mu s then 0 else S (cost k (set_mu s true))
  | Unlock k => if mu s then S (cost k (set_mu s false)) else 0
  end.
Lemma cost_step {A} (p : prog A) s q s' : step1 p s = Some (q, s') -> cost p s = S (cost q s').
Proof.
  destruct p; cbn [step1 cost]; intro H; try discriminate; try (injection H as <- <-; reflexivity).
  - destruct (heap_read _ _ _ _) as [[|v [|]]|]; try discriminate. now injection H as <- <-.
  - destruct (heap_write _ _ _ _); try discriminate. now injection H as <- <-.
  - destruct (heap_read _ _ _ _); try discriminate. destruct (heap_write _ _ _ _); try discriminate. now injection H as <- <-.
  - destruct (mu s); try discriminate. now injection H as <- <-.
  - destruct (mu s); try discriminate. now injection H as <- <-.
Qed.
Definition after (f : St -> nat) (r : res (rv slice)) : nat :=
  match r with Done _ s | Panicked _ s => S (f s) | Deadlock _ | Stuck => 0%nat end.
Fixpoint total (pol : Z -> Z -> Z) (k : sort) (s : St) (js : list job) : nat :=
  match js with
  | [] => 0%nat
  | j :: r => S (cost (job_body pol k j) (set_outs s (job_out j)) +
                 after (fun s' => total pol k s' r) (run (job_body pol k j) (set_outs s (job_out j))))
  end.

Lemma valid_grows k s s' j : grows (heap s) (heap s') -> valid_job k s j -> valid_job k s' j.
Proof.
  intros G. assert (A : forall d, wf_arg s d -> wf_arg s' d).
  { intros d (X1 & X2 & X3 & X4). destruct G as [G1 G2]. split; [lia|]. rewrite G2 by auto. auto. }
  assert (C3 : forall c, valid_call s c -> valid_call s' c).
  { intros c. destruct c as [off p|p| | | | | | | | | | | | | | | | | | |]; cbn; auto; destruct p; cbn; auto; intuition auto. }
  assert (C2 : forall c, valid_call2 s c -> valid_call2 s' c).
  { intros c. destruct c as [off p|p| | | | | | | | | | | | | | | | |]; cbn; auto; destruct p; cbn; auto; intuition auto. }
  destruct k, j as [c o|c o]; cbn [valid_job]; auto.
  - intros (X1 & X2 & X3). split; auto.
  - intros (X1 & X2). split; auto.
  - intros (X1 & X2 & X3). split; auto.
Qed.
Lemma WF_outs s o : WF s -> WF (set_outs s o).
Proof. intros []. now constructor. Qed.
Lemma job_safe pol k s j : WF s -> valid_job k s j ->
  match run (job_body pol k j) (set_outs s (job_out j)) with
  | Done _ s' | Panicked _ s' => WF s' /\ grows (heap s) (heap s') | Deadlock _ => True | Stuck => False end.
Proof.
  intros W V. pose proof (run_grows (job_body pol k j) (set_outs s (job_out j))) as G. cbn [heap set_outs] in G.
  destruct k as [| |v|v], j as [c o|c o]; cbn [valid_job] in V; try contradiction; cbn [job_out job_body] in *.
  - assert (V' : valid_job Buf3 (set_outs s o) (J3 c o)) by (apply (valid_grows Buf3 s); [apply grows_refl|exact V]).
    destruct (exec1_refines (History.ECall c) (set_outs s o) (WF_outs _ _ W) V') as (a & s' & E & W' & _). cbn [exec1] in E.
    destruct (run _ _); try discriminate; injection E as _ <-; auto.
  - destruct (mexec1_refines (MCall c o) s W V) as (a & s' & E & W' & _). cbn [mexec1] in E.
    destruct (run _ _); try discriminate; injection E as _ <-; auto.
  - assert (V' : valid_job (BufOld v) (set_outs s o) (J2 c o)) by (apply (valid_grows (BufOld v) s); [apply grows_refl|exact V]).
    destruct (play1_refines v pol (OCall c) (set_outs s o) (WF_outs _ _ W) V') as (a & s' & E & W' & _). cbn [play1] in E.
    destruct v; cbn [Sim2.old_do] in E.
    + destruct (do1_call pol c); try discriminate. destruct (run _ _); try discriminate; injection E as _ <-; auto.
    + destruct (run _ _); try discriminate; injection E as _ <-; auto.
  - destruct (omexec1_refines v pol (OMCall c o) s W V) as (a & s' & E & W' & _). cbn [omexec1] in E.
    destruct (run _ _); try discriminate; injection E as _ <-; auto.
Qed.
Lemma alone_safe pol k ds : forall s l U, WF s -> Forall (valid_job k s) ds -> alone (job_body pol) k s ds = (l, Some U) -> WF U /\ grows (heap s) (heap U).
Proof.
  induction ds as [|j ds IH]; intros s l U W V A; cbn [alone] in A.
  - injection A as _ <-. split; auto. apply grows_refl.
  - inversion V; subst. pose proof (job_safe pol k s j W H1) as J.
    destruct (run _ _) as [v s'|e s'|s'|]; try discriminate; destruct (alone (job_body pol) k s' ds) as [l' e'] eqn:E; injection A as _ ->; destruct J as [J1 J2];
      (assert (K : WF U /\ grows (heap s') (heap U)) by (apply (IH s' l' U J1); [eapply Forall_impl; [|exact H2]; intro; now apply valid_grows|exact E]); destruct K as [K1 K2]; split; auto; eapply grows_trans; eauto).
Qed.

Lemma count_all n : forall ns sch, length ns = n -> Forall (fun t => t < n)%nat sch ->
  (forall t, (t < n)%nat -> (count_occ Nat.eq_dec sch t <= nth t ns 0)%nat) -> (length sch <= list_sum ns)%nat.
Proof.
  induction n as [|n IH]; intros ns sch L F C.
  - destruct sch; [cbn; lia|]. inversion F. lia.
  - assert (exists ms m, ns = ms ++ [m]) as (ms & m & ->).
    { exists (removelast ns), (last ns 0%nat). apply app_removelast_last. intros ->. discriminate. }
    rewrite app_length in L. cbn in L. assert (Lm : length ms = n) by lia.
    rewrite list_sum_app. cbn [list_sum fold_right]. rewrite Nat.add_0_r.
    pose proof (C n ltac:(lia)) as Cn. rewrite app_nth2, Lm, Nat.sub_diag in Cn by lia. cbn [nth] in Cn.
    pose proof (IH ms (remove Nat.eq_dec n sch) Lm) as B.
    assert (LR : length sch = (length (remove Nat.eq_dec n sch) + count_occ Nat.eq_dec sch n)%nat).
    { clear. induction sch as [|x sch IH]; auto. cbn [remove count_occ length]. destruct (Nat.eq_dec n x), (Nat.eq_dec x n); subst; try congruence; cbn [length]; lia. }
    rewrite LR. apply Nat.add_le_mono; auto. apply B.
    + apply Forall_forall. intros x X. apply in_remove in X as [X N]. rewrite Forall_forall in F. apply F in X. lia.
    + intros t Lt. specialize (C t ltac:(lia)). rewrite app_nth1 in C by lia. rewrite <- C. clear - Lt.
      induction sch as [|x sch IH]; auto. cbn [remove]. destruct (Nat.eq_dec n x) as [E|N].
      * cbn [count_occ]. destruct (Nat.eq_dec x t); lia.
      * cbn [count_occ]. destruct (Nat.eq_dec x t); lia.
Qed.

Section Shop.
Variables (pol : Z -> Z -> Z) (own : ownership) (c0 : shop).
Hypothesis excl : exclusive own.
Hypothesis home : at_home own c0.
Hypothesis fresh : opened c0.

Let n0 := length (memory c0).
Notation look t := (may_see own t).
Notation sim t := (sim n0 (own t) (may_see own t)).
Notation rel t := (rel n0 (own t) (may_see own t)).
Notation rvrel t := (rvrel n0 (may_see own t)).

Lemma own_look t b i : own t b i -> look t b i.
Proof. intros H u X. eapply excl; eauto. Qed.

Lemma job_arg_wf k s j d : valid_job k s j -> job_arg j = Some d -> wf_arg s d.
Proof.
  intros V E. destruct j as [c o|c o].
  - assert (W : valid_call s c) by (destruct k; cbn in V; try contradiction; [exact V|apply V]).
    destruct c as [off p|p| | | | | | | | | | | | | | | | | | |]; cbn in E; try discriminate; destruct p; try discriminate; injection E as <-; cbn in W; tauto.
  - assert (W : valid_call2 s c) by (destruct k; cbn in V; try contradiction; [apply V|apply V]).
    destruct c as [off p|p| | | | | | | | | | | | | | | | |]; cbn in E; try discriminate; destruct p; try discriminate; injection E as <-; cbn in W; tauto.
Qed.

Lemma rel_job t r k j : (forall d, job_arg j = Some d -> arel n0 (look t) r d d) -> rel t (rvrel t) r (job_body pol k j) (job_body pol k j).
Proof.
  intro H. assert (A : arg_ok n0 (look t) r (job_arg j)) by (destruct (job_arg j); cbn; auto).
  assert (O := own_look t).
  destruct k as [| |[]|v], j as [c o|c o]; cbn [job_body]; try constructor.
  - eapply rel_call3; eauto.
  - eapply rel_mini; eauto.
  - destruct (do1_call pol c) eqn:E; [|constructor]. eapply rel_call1; eauto.
  - eapply rel_call2; eauto.
  - eapply rel_old_mini; eauto.
Qed.

(** [n]: steps taken so far. *)
Definition track (t : nat) (n : nat) (r : pairs) (m : heap_t) (w : worker) : Prop :=
  exists w0, nth_error (workers c0) t = Some w0 /\ w_sort w = w_sort w0 /\
  match w_cur w with
  | None => exists ds U, w_todo w0 = ds ++ w_todo w /\
      alone (job_body pol) (w_sort w0) (sees (memory c0) w0) ds = (w_done w, Some U) /\ sim t r U (sees m w) /\
      (n + total pol (w_sort w0) U (w_todo w) = total pol (w_sort w0) (sees (memory c0) w0) (w_todo w0))%nat
  | Some p' => exists ds j U0 U p, w_todo w0 = ds ++ j :: w_todo w /\
      alone (job_body pol) (w_sort w0) (sees (memory c0) w0) ds = (w_done w, Some U0) /\
      run (job_body pol (w_sort w0) j) (set_outs U0 (job_out j)) = run p U /\
      rel t (rvrel t) r p p' /\ sim t r U (sees m w) /\
      (n + (cost p U + after (fun s => total pol (w_sort w0) s (w_todo w)) (run p U)) = total pol (w_sort w0) (sees (memory c0) w0) (w_todo w0))%nat
  end.

Definition count (sch : list nat) (t : nat) : nat := count_occ Nat.eq_dec sch t.
Lemma count_snoc sch t u : count (sch ++ [u]) t = (count sch t + (if Nat.eqb t u then 1 else 0))%nat.
Proof. unfold count. rewrite count_occ_app. cbn [count_occ]. destruct (Nat.eq_dec u t), (Nat.eqb_spec t u); subst; try congruence; lia. Qed.

Record inv (sch : list nat) (tr : trace) (c : shop) (rr : nat -> pairs) : Prop := mkI {
  i_len : length (workers c) = length (workers c0);
  i_turns : Forall (fun t => t < length (workers c0))%nat sch;
  i_grows : grows (memory c0) (memory c);
  i_track : forall t w, nth_error (workers c) t = Some w -> track t (count sch t) (rr t) (memory c) w;
  i_apart : forall t u a a' b, t <> u -> In (a, b) (rr t) -> In (a', b) (rr u) -> False;
  i_in : forall t a b, In (a, b) (rr t) -> (n0 <= b < length (memory c))%nat;
  i_trace : forall t a, In (t, a) tr ->
    (forall b i, reads a (LByte b i) -> may_use n0 (look t) (rr t) b i) /\
    (forall b i, writes a (LByte b i) -> may_change n0 (own t) (rr t) b i) }.

Lemma home_arg t w0 j d : nth_error (workers c0) t = Some w0 -> In j (w_todo w0) -> job_arg j = Some d -> forall r, arel n0 (look t) r d d.
Proof.
  intros E I A r. destruct (home t w0 E) as [_ H]. specialize (H j d I A).
  unfold opened in fresh. rewrite Forall_forall in fresh. destruct (fresh w0 (nth_error_In _ _ E)) as (_ & _ & _ & _ & F).
  rewrite Forall_forall in F. pose proof (job_arg_wf _ _ _ _ (F j I) A) as (W1 & W2 & W3 & W4). cbn [heap sees] in *.
  split; [destruct d; reflexivity|]. split; [left; auto|]. split; [lia|]. split; [lia|]. intros i X. left. auto.
Qed.

Lemma inv_start : inv [] [] c0 (fun _ => []).
Proof.
  constructor; auto; try (intros; contradiction).
  - apply grows_refl.
  - intros t w E. exists w. split; auto. split; auto.
    pose proof fresh as F. unfold opened in F. rewrite Forall_forall in F. destruct (F w (nth_error_In _ _ E)) as (W & _ & C & D & _).
    rewrite C. exists [], (sees (memory c0) w). split; auto. cbn [alone]. rewrite D. split; auto. split; [|reflexivity].
    destruct (wf_sl _ W) as (W1 & W2 & W3 & W4). destruct (home t w E) as [H _]. cbn zeta in H.
    constructor; auto.
    + constructor; auto; try (intros ? ? []; fail); try (intros ? ? ? ? []; fail).
      * intros b b' [[<- _]|[]]. reflexivity.
      * intros b b' i _ [[<- _]|[]]. reflexivity.
    + split; [now destruct (b_buf (bb (sees (memory c0) w)))|]. split; [left; auto|]. split; [lia|]. split; [lia|].
      intros i X. left. auto.
Qed.

Definition set_r (rr : nat -> pairs) (t : nat) (r : pairs) : nat -> pairs := fun u => if Nat.eqb u t then r else rr u.

Lemma turns_snoc sch c t : Forall (fun t => t < length (workers c0))%nat sch -> length (workers c) = length (workers c0) -> (t < length (workers c))%nat ->
  Forall (fun t => t < length (workers c0))%nat (sch ++ [t]).
Proof. intros F E L. apply Forall_app. split; auto. repeat constructor. lia. Qed.
Lemma track_count t n n' r m w : n = n' -> track t n r m w -> track t n' r m w.
Proof. now intros ->. Qed.

Lemma inv_still sch tr c rr t w w' : inv sch tr c rr -> nth_error (workers c) t = Some w -> track t (S (count sch t)) (rr t) (memory c) w' ->
  inv (sch ++ [t]) tr (mkShop (memory c) (set_nth (workers c) t w')) rr.
Proof.
  intros [I1 IT I2 I3 I4 I5 I6] E T. assert (L : (t < length (workers c))%nat) by (apply nth_error_Some; congruence).
  constructor; cbn [memory workers]; auto.
  - now rewrite length_set_nth.
  - eapply turns_snoc; eauto.
  - intros u v Eu. rewrite nth_error_set_nth in Eu by auto. rewrite count_snoc. destruct (Nat.eqb_spec u t) as [->|N].
    + injection Eu as <-. rewrite Nat.add_1_r. exact T.
    + rewrite Nat.add_0_r. auto.
Qed.

Lemma inv_step sch tr c rr t w m w' : inv sch tr c rr -> nth_error (workers c) t = Some w -> wstep (job_body pol) (memory c) w m w' ->
  exists rr', inv (sch ++ [t]) (tr ++ shop_access c t) (mkShop m (set_nth (workers c) t w')) rr'.
Proof.
  intros I E H. pose proof I as [I1 IT I2 I3 I4 I5 I6].
  assert (L : (t < length (workers c))%nat) by (apply nth_error_Some; congruence).
  pose proof (I3 t w E) as (w0 & E0 & K & T). unfold shop_access. rewrite E.
  inversion H; subst; cbn [w_sort w_cur w_todo w_done] in *.
  - (* a call begins *)
    rewrite app_nil_r. exists rr. eapply inv_still; eauto. exists w0. split; auto. split; auto. cbn [w_cur w_todo w_done].
    destruct T as (ds & U & T1 & T2 & T3 & T6). exists ds, j, U, (set_outs U (job_out j)), (job_body pol (w_sort w0) j).
    split; auto. split; auto. split; auto. split; [|split].
    + rewrite <- K. apply rel_job. intros d D. eapply home_arg; eauto. rewrite T1. apply in_or_app. right. now left.
    + destruct T3 as [X1 X2 X3 X4 X5]. constructor; auto.
    + rewrite <- T6. cbn [total]. lia.
  - (* a step *)
    destruct T as (ds & j & U0 & U & p0 & T1 & T2 & T3 & T4 & T5 & T6). unfold sees in T5 |- *. cbn [w_buf w_mu w_outs] in *.
    rename H0 into ST.
    destruct (step_sim n0 (own t) (look t) (rvrel t) (rr t) p0 p U _ _ _ T4 T5 ST) as (q & U' & r' & S1 & S2 & S3 & S4 & S5 & S6).
    destruct (step_effect n0 (own t) (look t) (rvrel t) (rr t) p0 p _ _ _ T4 ST) as [G EF]. cbn [heap] in *.
    assert (M : forall u, incl (rr u) (set_r rr t r' u)).
    { intro u. unfold set_r. destruct (Nat.eqb_spec u t) as [->|]; auto. apply incl_refl. }
    assert (IN : forall a b, In (a, b) r' -> (n0 <= b < length (heap s'))%nat).
    { intros a b' X. destruct G as [G _]. apply (h_in _ _ _ _ _ (s_heap _ _ _ _ _ _ S4)) in X. tauto. }
    exists (set_r rr t r'). constructor; cbn [memory workers].
    + now rewrite length_set_nth.
    + eapply turns_snoc; eauto.
    + eapply grows_trans; eauto.
    + intros u v Eu. rewrite nth_error_set_nth in Eu by auto. rewrite count_snoc. unfold set_r. destruct (Nat.eqb_spec u t) as [->|N].
      * injection Eu as <-. exists w0. split; auto. split; auto. cbn [w_cur w_todo w_done].
        exists ds, j, U0, U', q. split; auto. split; auto. split; [rewrite T3; now apply step1_run|]. split; auto. split.
        { unfold sees. cbn [w_buf w_mu w_outs]. destruct s'; exact S4. }
        { rewrite <- T6. rewrite (cost_step _ _ _ _ S1), (step1_run _ _ _ _ S1). clear. lia. }
      * pose proof (I3 u v Eu) as (v0 & F1 & F2 & F3). exists v0. split; auto. split; auto. rewrite Nat.add_0_r.
        assert (OT : forall V, sim u (rr u) V (sees (memory c) v) -> sim u (rr u) V (sees (heap s') v)).
        { intros V X. eapply sim_other; eauto. cbn [heap sees]. intros x x' i J Y.
          assert (LX : (x' < length (memory c))%nat).
          { assert (KN : known n0 (rr u) x x') by (destruct Y as [(Y1 & Y2 & _)|Y]; [left|right]; auto). destruct X as [X _ _ _ _]. cbn [heap sees] in X. destruct KN as [[<- KN]|KN]; [exact (Nat.lt_le_trans _ _ _ KN (h_lenS _ _ _ _ _ X))|]. apply (h_in _ _ _ _ _ X) in KN. tauto. }
          destruct (EF x' i J LX) as [Z|Z]; auto. exfalso.
          destruct Y as [(<- & Y1 & Y2)|Y], Z as [[Z1 Z2]|[z Z]].
          - apply Y2 in Z2. congruence.
          - apply I5 in Z. lia.
          - apply I5 in Y. lia.
          - apply (I4 t u z x x'); auto. }
        destruct (w_cur v) as [pv|].
        -- destruct F3 as (ds1 & j1 & V0 & V & p2 & F4 & F5 & F6 & F7 & F8 & F9). exists ds1, j1, V0, V, p2. auto 10.
        -- destruct F3 as (ds1 & V & F4 & F5 & F6 & F7). exists ds1, V. auto 10.
    + assert (X : forall u a a' b, u <> t -> In (a, b) r' -> In (a', b) (rr u) -> False).
      { intros u a a' b' N X Y. destruct (S5 a b' X) as [Z| ->]; [eapply (I4 t u); eauto|]. apply I5 in Y. lia. }
      intros u v a a' b' N. unfold set_r. destruct (Nat.eqb_spec u t), (Nat.eqb_spec v t); subst; eauto; congruence.
    + intros u a b' X. unfold set_r in X. destruct (Nat.eqb_spec u t); eauto. apply I5 in X. destruct G. lia.
    + intros u a X. apply in_app_or in X as [X|X].
      * destruct (I6 u a X) as [Y Z]. split; intros x i B.
        -- destruct (Y x i B) as [V|[y V]]; [left; auto|right]. exists y. now apply M.
        -- destruct (Z x i B) as [V|[y V]]; [left; auto|right]. exists y. now apply M.
      * destruct (access_of p _) as [a0|] eqn:AC; [|destruct X]. destruct X as [X|[]]. injection X as <- <-.
        destruct (step_access n0 (own t) (look t) (rvrel t) (rr t) p0 p _ _ T4 AC) as [Y Z]. split; intros x i B.
        -- destruct (Y x i B) as [V|[y V]]; [left; auto|right]. exists y. now apply M.
        -- destruct (Z x i B) as [[V|[y V]]|(-> & l0 & k0 & ->)]; [left; auto|right; exists y; now apply M|]. right.
           cbn [heap]. destruct (S6 l0 k0 eq_refl) as [y Y']. exists y. unfold set_r. now rewrite Nat.eqb_refl.
  - rewrite app_nil_r. exists rr. eapply inv_still; eauto. exists w0. split; auto. split; auto. cbn [w_cur w_todo w_done].
    destruct T as (ds & j & U0 & U & p0 & T1 & T2 & T3 & T4 & T5 & T6). inversion T4; subst. exists (ds ++ [j]), U.
    split; [rewrite <- app_assoc; exact T1|]. split; [|split; [exact T5|rewrite <- T6; cbn [cost run after]; clear; lia]]. rewrite (alone_app _ _ _ _ _ _ _ T2). cbn [alone]. rewrite T3. cbn [run fst snd].
    match goal with X : rvrel t _ _ _ |- _ => rewrite (view_same _ _ _ _ _ _ _ _ T5 X) end. now rewrite (s_outs _ _ _ _ _ _ T5).
  - rewrite app_nil_r. exists rr. eapply inv_still; eauto. exists w0. split; auto. split; auto. cbn [w_cur w_todo w_done].
    destruct T as (ds & j & U0 & U & p0 & T1 & T2 & T3 & T4 & T5 & T6). inversion T4; subst. exists (ds ++ [j]), U.
    split; [rewrite <- app_assoc; exact T1|]. split; [|split; [exact T5|rewrite <- T6; cbn [cost run after]; clear; lia]]. rewrite (alone_app _ _ _ _ _ _ _ T2). cbn [alone]. rewrite T3. cbn [run fst snd].
    now rewrite (s_outs _ _ _ _ _ _ T5).
Qed.

Lemma inv_all sch tr c : works (job_body pol) c0 sch tr c -> exists rr, inv sch tr c rr.
Proof.
  intro H. induction H.
  - eexists. apply inv_start.
  - destruct IHworks as [rr I]. eapply inv_step; eauto.
Qed.

(** What it did, it would have done alone. *)
Lemma alone_prefix sch tr c t w0 w : works (job_body pol) c0 sch tr c -> nth_error (workers c0) t = Some w0 -> nth_error (workers c) t = Some w ->
  exists rest, fst (alone (job_body pol) (w_sort w0) (sees (memory c0) w0) (w_todo w0)) = w_done w ++ rest.
Proof.
  intros H E0 E. destruct (inv_all _ _ _ H) as [rr I]. destruct (i_track _ _ _ _ I t w E) as (w1 & E1 & _ & T).
  assert (w1 = w0) by congruence. subst w1. destruct (w_cur w).
  - destruct T as (ds & j & U0 & U & p0 & T1 & T2 & _). rewrite T1, (alone_app _ _ _ _ _ _ _ T2). cbn [fst]. eauto.
  - destruct T as (ds & U & T1 & T2 & _). rewrite T1, (alone_app _ _ _ _ _ _ _ T2). cbn [fst]. eauto.
Qed.

Lemma alone_end sch tr c t w0 w : works (job_body pol) c0 sch tr c -> nth_error (workers c0) t = Some w0 -> nth_error (workers c) t = Some w ->
  finished w -> exists U, alone (job_body pol) (w_sort w0) (sees (memory c0) w0) (w_todo w0) = (w_done w, Some U) /\ same_buffer U (sees (memory c) w) /\
    forall b i, (b < n0)%nat -> 0 <= i -> look t b i -> byte_in (heap U) b i = byte_in (memory c) b i.
Proof.
  intros H E0 E [F1 F2]. destruct (inv_all _ _ _ H) as [rr I]. destruct (i_track _ _ _ _ I t w E) as (w1 & E1 & _ & T).
  assert (w1 = w0) by congruence. subst w1. rewrite F1, F2 in T. destruct T as (ds & U & T1 & T2 & T3 & _). rewrite app_nil_r in T1. subst ds.
  exists U. split; [exact T2|]. destruct T3 as [X1 X2 X3 X4 X5]. pose proof own_look t as OL.
  destruct X2 as (Y1 & Y2 & Y3 & Y4 & Y5). apply same_eq in Y1 as (A1 & A2 & A3). split.
  - unfold same_buffer. split; [exact X3|]. split; [auto|]. split; [auto|]. split; [|split; auto].
    intros i J. rewrite A1. apply (h_cell _ _ _ _ _ X1); [lia|]. destruct (Y5 (s_off (b_buf (bb U)) + i)) as [(Z1 & Z2 & Z3)|Z]; [lia|left; auto|right; auto].
  - intros b i B J L. apply (h_cell _ _ _ _ _ X1); auto. left. auto.
Qed.

(** Nobody writes what somebody else may read. *)
Lemma no_conflict sch tr c t u a a' b i : works (job_body pol) c0 sch tr c -> In (t, a) tr -> In (u, a') tr -> t <> u ->
  writes a (LByte b i) -> reads a' (LByte b i) \/ writes a' (LByte b i) -> False.
Proof.
  intros H A B N W R. destruct (inv_all _ _ _ H) as [rr I].
  destruct (i_trace _ _ _ _ I t a A) as [_ X]. destruct (i_trace _ _ _ _ I u a' B) as [Y Z]. apply X in W.
  assert (V : may_use n0 (look u) (rr u) b i).
  { destruct R as [R|R]; [now apply Y|]. apply Z in R as [[R1 R2]|R]; [left|right; auto]. split; auto. now apply own_look. }
  destruct W as [[W1 W2]|[x W]], V as [[V1 V2]|[y V]].
  - apply V2 in W2. congruence.
  - apply (i_in _ _ _ _ I) in V. lia.
  - apply (i_in _ _ _ _ I) in W. lia.
  - eapply (i_apart _ _ _ _ I t u); eauto.
Qed.

(** Bytes that nobody has stay as they are. *)
Lemma unowned_stays sch tr c b i : works (job_body pol) c0 sch tr c -> (b < n0)%nat -> 0 <= i -> (forall t, ~ own t b i) -> byte_in (memory c) b i = byte_in (memory c0) b i.
Proof.
  intros H B J N. induction H; auto. cbn [memory]. rewrite <- IHworks. clear IHworks.
  destruct (inv_all _ _ _ H) as [rr I]. inversion H1; subst; auto.
  destruct (i_track _ _ _ _ I t _ H0) as (w1 & E1 & _ & T). cbn [w_cur] in T. destruct T as (ds & j & U0 & U & p0 & T1 & T2 & T3 & T4 & T5 & _).
  destruct (step_effect n0 (own t) (look t) (rvrel t) (rr t) p0 p _ _ _ T4 H2) as [_ EF].
  destruct (EF b i J) as [Z|[[_ Z]|[x Z]]]; auto.
  - cbn [heap]. destruct (i_grows _ _ _ _ I) as [G _]. unfold n0 in B. lia.
  - destruct (N t Z).
  - apply (i_in _ _ _ _ I) in Z. lia.
Qed.

(** Nobody waits unless it would alone. *)
Lemma not_stuck t w0 ds j rest l U0 : nth_error (workers c0) t = Some w0 -> w_todo w0 = ds ++ j :: rest ->
  alone (job_body pol) (w_sort w0) (sees (memory c0) w0) ds = (l, Some U0) -> run (job_body pol (w_sort w0) j) (set_outs U0 (job_out j)) <> Stuck.
Proof.
  intros E T A. pose proof fresh as F. unfold opened in F. rewrite Forall_forall in F. destruct (F w0 (nth_error_In _ _ E)) as (W & _ & _ & _ & V).
  rewrite T, Forall_app in V. destruct V as [V1 V2]. inversion V2; subst.
  destruct (alone_safe _ _ _ _ _ _ W V1 A) as [W1 G]. pose proof (job_safe pol _ _ _ W1 (valid_grows _ _ _ _ G H1)) as S.
  intro X. now rewrite X in S.
Qed.

Lemma progress sch tr c t w0 w : works (job_body pol) c0 sch tr c -> nth_error (workers c0) t = Some w0 -> nth_error (workers c) t = Some w ->
  finished w \/ (exists m w', wstep (job_body pol) (memory c) w m w') \/
  (waits w /\ alone (job_body pol) (w_sort w0) (sees (memory c0) w0) (w_todo w0) = (w_done w, None)).
Proof.
  intros H E0 E. destruct (inv_all _ _ _ H) as [rr I]. destruct (i_track _ _ _ _ I t w E) as (w1 & E1 & _ & T).
  assert (w1 = w0) by congruence. subst w1. destruct w as [k b mu o js [p|] l]; cbn [w_cur w_todo w_done w_sort] in T.
  - right. destruct T as (ds & j & U0 & U & p0 & T1 & T2 & T3 & T4 & T5 & _). pose proof (not_stuck _ _ _ _ _ _ _ E0 T1 T2) as NS. rewrite T3 in NS.
    destruct (step1 p0 U) as [[q U']|] eqn:ST.
    + left. assert (X : step1 p (mkSt (memory c) b mu o) <> None). { eapply step_too; [exact T4|exact T5|congruence]. }
      destruct (step1 p _) as [[q' s']|] eqn:ST'; [|congruence]. do 2 eexists. constructor. exact ST'.
    + assert (X : (exists v, p = Ret v) \/ (exists e, p = Panic e) \/ (exists q, p = Lock q) /\ run p0 U = Deadlock U /\ mu = true).
      { inversion T4; subst; cbn [step1 run] in *; try discriminate; eauto; try congruence.
        - destruct (heap_read _ _ _ _) as [[|v [|]]|]; congruence.
        - destruct (heap_write _ _ _ _); congruence.
        - destruct (heap_read _ _ _ _); [destruct (heap_write _ _ _ _)|]; congruence.
        - pose proof (s_mu _ _ _ _ _ _ T5) as M. cbn in M. destruct (GoSem.mu U); try discriminate. eauto 10.
        - destruct (GoSem.mu U); congruence. }
      destruct X as [[v ->]|[[e ->]|([q ->] & X & ->)]].
      * left. do 2 eexists. apply w_return.
      * left. do 2 eexists. apply w_panic.
      * right. split; [exists q; auto|]. rewrite T1, (alone_app _ _ _ _ _ _ _ T2). cbn [alone]. rewrite T3, X. cbn [fst snd w_done]. now rewrite app_nil_r.
  - destruct js as [|j js]; [left; split; reflexivity|]. right. left. do 2 eexists. constructor.
Qed.

(** Every schedule comes to an end. *)
Definition all_steps : list nat := map (fun w0 => total pol (w_sort w0) (sees (memory c0) w0) (w_todo w0)) (workers c0).
Lemma steps_bound sch tr c : works (job_body pol) c0 sch tr c -> (length sch <= list_sum all_steps)%nat.
Proof.
  intro H. destruct (inv_all _ _ _ H) as [rr I]. apply (count_all (length (workers c0))).
  - unfold all_steps. now rewrite map_length.
  - exact (i_turns _ _ _ _ I).
  - intros t L. assert (L' := L). rewrite <- (i_len _ _ _ _ I) in L'. destruct (nth_error (workers c) t) as [w|] eqn:E; [|apply nth_error_None in E; lia].
    destruct (i_track _ _ _ _ I t w E) as (w0 & E0 & _ & T). unfold all_steps.
    rewrite (nth_indep _ _ ((fun w0 => total pol (w_sort w0) (sees (memory c0) w0) (w_todo w0)) w0)) by (now rewrite map_length).
    rewrite (map_nth (fun w0 => total pol (w_sort w0) (sees (memory c0) w0) (w_todo w0)) (workers c0) w0 t), (nth_error_nth _ _ w0 E0).
    fold (count sch t). destruct (w_cur w).
    + destruct T as (? & ? & ? & ? & ? & _ & _ & _ & _ & _ & <-). lia.
    + destruct T as (? & ? & _ & _ & _ & <-). lia.
Qed.
End Shop.
