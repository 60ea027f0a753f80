(** * WorkGrow: what a v1 or v2 call does to the size of the buffer. *)
From Coq Require Import ZArith List Bool Lia ZifyBool.
From Verif Require Import V1Lemmas GoSem Errors Spec GoLemmas GoEval Front Tables Typed V3ByteLemmas Calls OldCalls V1Calls Abs MiniAbs Abs2 V2Lemmas Sim2 MiniAbs2 MiniSim2 History MiniHistory AllocSpec AllocLemmas IsolateSpec Isolate Conv WorkSpec Work WorkOld.
From Verif Require GoBinary V1Buffer V2Buffer V3Buffer V1Mini V2Mini V3Mini.
Import ListNotations.
Open Scope Z_scope.
Open Scope go_scope.

(** ** Programs that leave the slice header alone *)

Fixpoint keeps {A} (p : prog A) : Prop :=
  match p with
  | Ret _ | Panic _ | OutOfFuel => True
  | GetBuf k => forall s, keeps (k s)
  | SetF _ _ k | Store _ _ _ k | Move _ _ _ _ _ k | SetOuts _ k | Lock k | Unlock k => keeps k
  | GetF _ k | Load _ _ k => forall v, keeps (k v)
  | GetOuts k => forall v, keeps (k v)
  | Alloc _ k => forall b, keeps (k b)
  | SetBuf _ _ => False
  end.
Definition same_slice (s s' : St) : Prop := b_buf (bb s') = b_buf (bb s).
Lemma keeps_sound {A} (p : prog A) : forall s, keeps p ->
  match run p s with Done _ s' | Panicked _ s' => same_slice s s' | _ => True end.
Proof.
  unfold same_slice. conv_cases p IH; cbn [keeps run]; intros s H; auto; try contradiction.
  - exact (IH _ s (H _)).
  - exact (IH _ s (H _)).
  - specialize (IH (set_bb s (upd_fld (bb s) fd v)) H). destruct (run _ _); auto; destruct fd; exact IH.
  - destruct (heap_read _ _ _ _) as [[|x [|]]|]; auto. exact (IH _ s (H _)).
  - destruct (heap_write _ _ _ _) as [h|]; auto. exact (IH (set_heap s h) H).
  - destruct (heap_read _ _ _ _) as [d|]; auto. destruct (heap_write _ _ _ _) as [h|]; auto. exact (IH (set_heap s h) H).
  - exact (IH _ (set_heap s (heap s ++ [l])) (H _)).
  - exact (IH _ s (H _)).
  - exact (IH (set_outs s l) H).
  - destruct (mu s); auto. exact (IH (set_mu s true) H).
  - destruct (mu s); auto. exact (IH (set_mu s false) H).
Qed.
Lemma keeps_bind {A B} (p : prog A) (f : A -> prog B) : keeps p -> (forall a, keeps (f a)) -> keeps (bind p f).
Proof. intros H F. revert H. conv_cases p IH; cbn [keeps bind]; intros H; auto. Qed.
Lemma keeps_finally {A} (p : prog A) c : keeps c -> keeps p -> keeps (finally p c).
Proof.
  intros C. conv_cases p IH; cbn [keeps finally]; intros H; auto; apply keeps_bind; cbn; auto.
Qed.
Lemma keeps_goto {S} n (b : Z -> S -> prog S) a : (forall i a, keeps (b i a)) -> keeps (goto_loop n b a).
Proof.
  intro H. unfold goto_loop. generalize (Datatypes.S (Z.to_nat n)), 0, a. intro f.
  induction f as [|f IH]; intros i x; cbn [dw]; [exact I|]. apply keeps_bind; auto. intro y. destruct (_ <? _); [apply IH|exact I].
Qed.
Lemma keeps_for {S} n (b : Z -> S -> prog S) a : (forall i a, keeps (b i a)) -> keeps (for_loop n b a).
Proof.
  intro H. unfold for_loop. generalize (Z.to_nat n), 0, a. intro f.
  induction f as [|f IH]; intros i x; cbn [fl]; destruct (_ <? _); try exact I. apply keeps_bind; auto.
Qed.
Lemma keeps_store_all b k l : keeps (GoBinary.store_all b k l).
Proof.
  revert k. induction l as [|x l IH]; intros k; cbn [GoBinary.store_all]; [exact I|].
  apply keeps_bind; auto. unfold slice_set. destruct (_ && _); exact I.
Qed.
Lemma keeps_copy_digits a b w i l : keeps (V1Buffer.copy_digits a b w i l).
Proof.
  induction l as [|x l IH]; cbn [V1Buffer.copy_digits]; [exact I|].
  apply keeps_bind; [unfold slice_get; destruct (_ && _); cbn; auto|intros y].
  apply keeps_bind; [unfold slice_set; destruct (_ && _); cbn; auto|auto].
Qed.

Ltac keep1 :=
  lazymatch goal with
  | |- forall _, _ => intro
  | |- True => exact I
  | |- keeps (bind _ _) => eapply keeps_bind
  | |- keeps (GoBinary.store_all _ _ _) => apply keeps_store_all
  | |- keeps (V1Buffer.copy_digits _ _ _ _ _) => apply keeps_copy_digits
  | |- keeps (finally _ _) => apply keeps_finally
  | |- keeps (goto_loop _ _ _) => apply keeps_goto
  | |- keeps (for_loop _ _ _) => apply keeps_for
  | |- keeps (if ?b then _ else _) => destruct b
  | |- keeps (match ?b with _ => _ end) => destruct b
  | |- keeps (Ret _) => exact I
  | |- keeps (Panic _) => exact I
  | |- keeps OutOfFuel => exact I
  | |- keeps (GetBuf _) => cbn [keeps]
  | |- keeps (GetF _ _) => cbn [keeps]
  | |- keeps (SetF _ _ _) => cbn [keeps]
  | |- keeps (Load _ _ _) => cbn [keeps]
  | |- keeps (Store _ _ _ _) => cbn [keeps]
  | |- keeps (Move _ _ _ _ _ _) => cbn [keeps]
  | |- keeps (Alloc _ _) => cbn [keeps]
  | |- keeps (GetOuts _) => cbn [keeps]
  | |- keeps (SetOuts _ _) => cbn [keeps]
  | |- keeps (Lock _) => cbn [keeps]
  | |- keeps (Unlock _) => cbn [keeps]
  | |- keeps ?t => progress (cbv beta iota zeta) || (let h := head_of t in unfold h; cbv beta iota zeta)
  end.

Definition sized (c : call2 slice) : bool := match c with KGrow _ | KReset => false | _ => true end.
Lemma keeps_buf2 pol c : sized c = true -> keeps (do2_call pol c).
Proof.
  intros L. destruct c as [off q|q| | | |off r|off r|off|off| | |n| | | | | | |]; try discriminate;
    try (destruct q as [|n|data|data n| |d|v|n| |t d|t n]; try destruct t); try (destruct off as [off|]);
    cbn [do2_call do2_at do2_next].
  all: repeat keep1.
Qed.
Lemma keeps_buf1 pol c p : sized c = true -> do1_call pol c = Some p -> keeps p.
Proof.
  intros L E. destruct c as [off q|q| | | |off r|off r|off|off| | |n| | | | | | |]; try discriminate;
    try (destruct q as [|n|data|data n| |d|v|n| |t d|t n]; try destruct t); try (destruct off as [off|]);
    cbn [do1_call do1_at do1_next] in *; apply some_inj in E; subst p.
  all: repeat keep1.
Qed.
Lemma keeps_mini_old v pol c : sized c = true -> keeps (old_mini v pol c).
Proof.
  intros L. destruct v; destruct c as [off q|q| | | |off r|off r|off|off| | |n| | | | | | |]; try discriminate;
    try (destruct q as [|n|data|data n| |d|v|n| |t d|t n]; try destruct t); try (destruct off as [off|]);
    cbn [old_mini mini1_call mini1_at mini1_next mini2_call mini2_at mini2_next] in *.
  all: repeat keep1.
Qed.

(** ** The length and the capacity after a call *)

Definition grow_size (pol : Z -> Z -> Z) (n : Z) (s s' : St) : Prop :=
  if (n <? 0) || (maxAlloc <? used s + n) then used s' = used s /\ room s' = room s
  else used s' = used s + n /\ room s' = if used s + n <=? room s then room s else new_cap pol (room s) (used s + n).
Definition size_step (pol : Z -> Z -> Z) (c : call2 slice) (s s' : St) : Prop :=
  match c with
  | KGrow n => grow_size pol n s s'
  | KReset => used s' <= used s /\ room s' <= room s /\ (used s' = 0 \/ used s' = used s /\ room s' = room s)
  | _ => used s' = used s /\ room s' = room s
  end.

Lemma size_abs s : WF s -> used s = zlen (a_bytes (abs s)) /\ room s = zlen (a_bytes (abs s)) + zlen (a_spare (abs s)).
Proof.
  intros W. cbn [abs a_bytes a_spare]. pose proof (spare_zlen s W). pose proof (content_zlen s W). unfold used, room. lia.
Qed.
Lemma grow_size_abs pol n s s' : WF s -> WF s' -> is_i64 n -> 
  (exists v, old_grow pol n (abs s) = Ok v (abs s')) \/ (exists e, old_grow pol n (abs s) = Fail e (abs s')) -> grow_size pol n s s'.
Proof.
  intros W W' V H. destruct (size_abs s W) as [U R], (size_abs s' W') as [U' R']. unfold grow_size. unfold old_grow in H.
  rewrite <- R, <- U in H. pose proof (room_used s W) as RU.
  destruct (_ || _) eqn:E.
  - destruct H as [[v H]|[e H]]; [discriminate|]. apply (f_equal (fun x => match x with Ok _ a | Fail _ a => a end)) in H. rewrite U', R', <- H. split; auto.
  - destruct H as [[v H]|[e H]]; [|discriminate]. apply (f_equal (fun x => match x with Ok _ a | Fail _ a => a end)) in H. rewrite U', R', <- H. cbn [a_bytes a_spare].
    assert (Z1 : zlen (a_bytes (abs s) ++ zeros n) = used s + n) by (unfold zlen in *; rewrite app_length; unfold zeros; rewrite repeat_length; lia).
    rewrite Z1. split; auto. assert (S0 : zlen (a_spare (abs s)) = room s - used s) by lia. rewrite S0.
    destruct (used s + n <=? room s) eqn:F.
    + replace (n <=? room s - used s) with true by lia. rewrite sub_length by lia. lia.
    + replace (n <=? room s - used s) with false by lia.
      assert (used s + n <= new_cap pol (room s) (used s + n)) by (unfold new_cap; lia).
      unfold zlen, zeros. rewrite repeat_length. lia.
Qed.

Lemma kept_WF s s' : kept s s' -> WF s'.
Proof. now intros []. Qed.

Lemma old_size pol k s j : WF s -> valid_job k s j ->
  match k with Buf3 | Mini3 => False | _ => True end ->
  match run (job_body pol k j) (set_outs s (job_out j)) with
  | Done _ s' | Panicked _ s' => match j with J2 c _ => size_step pol c s s' | J3 _ _ => False end
  | _ => True
  end.
Proof.
  intros W V K. set (s0 := set_outs s (job_out j)). assert (W0 : WF s0) by (now apply WF_outs).
  assert (V0 : valid_job k s0 j) by (apply (valid_grows k s); [apply grows_refl|exact V]).
  enough (E : match run (job_body pol k j) s0 with
    | Done _ s' | Panicked _ s' => match j with J2 c _ => size_step pol c s0 s' | J3 _ _ => False end | _ => True end) by exact E.
  clear V. destruct j as [c o|c o]; [destruct k; contradiction|]. subst s0. cbn [job_out] in *. set (s0 := set_outs s o) in *. clearbody s0.
  assert (Same : forall p : prog (rv slice), keeps p -> sized c = true ->
     match run p s0 with Done _ s' | Panicked _ s' => size_step pol c s0 s' | _ => True end).
  { intros p H L. pose proof (keeps_sound p s0 H) as X. unfold same_slice in X.
    assert (Y : forall s', b_buf (bb s') = b_buf (bb s0) -> size_step pol c s0 s').
    { intros s' E. unfold size_step, used, room. rewrite E. destruct c; try discriminate; auto. }
    destruct (run p s0); auto. }
  destruct (sized c) eqn:L.
  - destruct k as [| |v|v]; try contradiction; cbn [job_body].
    + destruct v; cbn [Sim2.old_do].
      * destruct (do1_call pol c) as [p|] eqn:E; [apply Same; auto; exact (keeps_buf1 pol c p L E)|]. now apply Same.
      * apply Same; auto. now apply keeps_buf2.
    + apply Same; auto. now apply keeps_mini_old.
  - clear Same. destruct c; try discriminate; cbn [size_step].
    + destruct k as [| |v|v]; try contradiction; cbn [valid_job] in V0.
      * destruct V0 as [V0 _]. cbn [valid_call2] in V0.
        assert (G : match run (ret_unit (V2Buffer.Grow pol n)) s0 with Done _ s' | Panicked _ s' => grow_size pol n s0 s' | _ => True end).
        { destruct (mu s0) eqn:M; [cbn; now rewrite M|].
          pose proof (grow_seen pol n s0 W0 M V0) as G. destruct (run _ _); cbn [seen_as] in G; auto; destruct G as [G G'];
            (apply grow_size_abs; [exact W0|exact (kept_WF _ _ G')|exact V0|eauto]). }
        destruct v; exact G.
      * destruct V0 as (_ & V0 & _). cbn [valid_call2] in V0. pose proof (mini2_grow_seen pol n s0 W0 V0) as G.
        assert (G' : match run (ret_unit (V2Mini.Grow pol n)) s0 with Done _ s' | Panicked _ s' => grow_size pol n s0 s' | _ => True end).
        { destruct (run _ _) as [v' s'|e s'|s'|]; cbn [mseen] in G; auto; destruct G as (G & _ & G'); apply (f_equal fst) in G; cbn [fst] in G;
            assert (W' : WF s') by (apply (WF_outs (set_outs s' (outs s0)) (outs s')) in G' || (apply kept_WF, (WF_outs _ (outs s')) in G'; destruct s'; exact G'));
            (apply grow_size_abs; [exact W0|exact W'|exact V0|eauto]). }
        destruct v; exact G'.
    + pose proof (room_used s0 W0).
      destruct k as [| |v|v]; try contradiction; cbn [valid_job] in V0; destruct v; cbn [job_body do1_call do2_call old_mini mini1_call mini2_call].
      * destruct V0 as [_ V0]. now destruct (V0 eq_refl).
      * cbn. destruct (mu s0); cbn; auto. split; [|split]; auto; unfold used, room in *; lia.
      * cbn. auto with zarith.
      * cbn. split; [|split]; auto; unfold used, room in *; lia.
Qed.
