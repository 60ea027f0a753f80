(** * Props_NewWork: C85 of the constructors.

    [NewBuffer] and [NewMiniBuffer] append the slices one after the other to an empty
    slice, so how often the bytes are copied is up to the growth policy of [append]. *)
From Coq Require Import String ZArith List Bool Lia ZifyBool.
From Verif Require Import GoSem Errors GoLemmas Conv GoParse GoEval Front Tables Spec FrontCalls FrontMiniCalls.
From Verif Require Import V1Lemmas Typed Calls Abs MiniAbs History MiniHistory OldCalls V1Calls Abs2 MiniAbs2 NewBuf V3BitLemmas V3ByteLemmas AllocSpec IsolateSpec Isolate IsolateText WorkSpec Work Props_Front Props_Mini Props_Abs2 Props_Mini2 Props_Work Bound NewWork.
From Verif Require V1Buffer V2Buffer V3Buffer V1Mini V2Mini V3Mini FrontV1 FrontV2 FrontV3 FrontM1 FrontM2 FrontM3.
Import ListNotations.
Open Scope Z_scope.
Open Scope list_scope.

(** The models of the six constructors. *)
Definition new_body (pol : Z -> Z -> Z) (k : sort) (slices : list slice) : prog unit :=
  match k with
  | Buf3 => V3Buffer.NewBuffer pol slices
  | Mini3 => V3Mini.NewMiniBuffer pol slices
  | BufOld v => old_NewBuffer v pol slices
  | MiniOld v => old_NewMiniBuffer v pol slices
  end.
(** Their text: the methods of the parsed sources. *)
Definition new_text (pol : Z -> Z -> Z) (n : nat) (k : sort) (slices : list slice) : prog (env * signal) :=
  match k with
  | Buf3 => den v3_program pol n (QCall "NewBuffer" [VSlices slices])
  | Mini3 => den v3_mini_program pol n (QCall "NewMiniBuffer" [VCell; VSlices slices])
  | BufOld v => den (old_program v) pol n (QCall "NewBuffer" [VSlices slices])
  | MiniOld v => den (old_mini_program v) pol n (QCall "NewMiniBuffer" [VCell; VSlices slices])
  end.

(** [NewWork.lengths]: the bytes of all slices. *)
Lemma cost_many pol c k slices s : sensible c pol -> 0 <= c -> zlen slices < 2 ^ 63 -> Forall (fun d => 0 <= s_len d) slices ->
  3 * lengths slices + c <= maxAlloc -> (2 <= length slices)%nat ->
  accesses (new_body pol k slices) s <= 20 + (6 + c) * zlen slices + 24 * lengths slices.
Proof.
  intros SP C HZ F M L.
  assert (R : forall s (f : unit -> prog unit) m, (forall s', accesses (f tt) s' <= 7) -> accesses (bind (goto_loop (zlen slices) (step_of pol slices) tt) f)
     (mkSt (heap s ++ [[]]) (mkBuf (mkSlice (length (heap s)) 0 0 0) 0 0 0 0) m (outs s)) <= 7 + (6 + c) * zlen slices + 24 * lengths slices).
  { intros s0 f m H. etransitivity; [apply (goto_work pol c SP C slices HZ F f 7 H ltac:(lia) M _ 0)|]; cbn; try lia. unfold all_work. cbn [skipn]. rewrite Nat.sub_0_r. unfold debt, zlen. cbn. lia. }
  assert (R' : forall s (f : unit -> prog unit) m, (forall s', accesses (f tt) s' <= 7) -> accesses (bind (for_loop (zlen slices) (step_of pol slices) tt) f)
     (mkSt (heap s ++ [[]]) (mkBuf (mkSlice (length (heap s)) 0 0 0) 0 0 0 0) m (outs s)) <= 7 + (6 + c) * zlen slices + 24 * lengths slices).
  { intros s0 f m H. etransitivity; [apply (for_work pol c SP C slices HZ F f 7 H ltac:(lia) M _ 0)|]; cbn; try lia. unfold all_work. cbn [skipn]. rewrite Nat.sub_0_r. unfold debt, zlen. cbn. lia. }
  destruct slices as [|x [|y r]]; cbn [length] in L; try lia. set (l := x :: y :: r) in *.
  assert (E3 : accesses (V3Buffer.NewBuffer pol l) s <= 20 + (6 + c) * zlen l + 24 * lengths l).
  { specialize (R s (fun _ => V3Buffer.Refresh) (mu s)). change (accesses (V3Buffer.NewBuffer pol l) s) with
      (1 + zlen (@nil Z) + (1 + (1 + (1 + (1 + (1 + accesses (bind (goto_loop (zlen l) (step_of pol l) tt) (fun _ => V3Buffer.Refresh))
         (mkSt (heap s ++ [[]]) (mkBuf (mkSlice (length (heap s)) 0 0 0) 0 0 0 0) (mu s) (outs s)))))))).
    change (zlen (@nil Z)) with 0. specialize (R ltac:(intro; cbn; lia)). lia. }
  assert (E2 : accesses (V2Buffer.NewBuffer pol l) s <= 20 + (6 + c) * zlen l + 24 * lengths l).
  { specialize (R' s (fun _ => V2Buffer.refresh) (mu s)). change (accesses (V2Buffer.NewBuffer pol l) s) with
      (1 + zlen (@nil Z) + (1 + (1 + (1 + (1 + (1 + accesses (bind (for_loop (zlen l) (step_of pol l) tt) (fun _ => V2Buffer.refresh))
         (mkSt (heap s ++ [[]]) (mkBuf (mkSlice (length (heap s)) 0 0 0) 0 0 0 0) (mu s) (outs s)))))))).
    change (zlen (@nil Z)) with 0. specialize (R' ltac:(intro s'; cbn; destruct (mu s'); cbn; lia)). lia. }
  assert (F2 : accesses (V2Mini.NewMiniBuffer pol l) s <= 20 + (6 + c) * zlen l + 24 * lengths l).
  { specialize (R' s (fun _ => V2Mini.refresh) (mu s)). change (accesses (V2Mini.NewMiniBuffer pol l) s) with
      (1 + zlen (@nil Z) + (1 + (1 + (1 + (1 + (1 + accesses (bind (for_loop (zlen l) (step_of pol l) tt) (fun _ => V2Mini.refresh))
         (mkSt (heap s ++ [[]]) (mkBuf (mkSlice (length (heap s)) 0 0 0) 0 0 0 0) (mu s) (outs s)))))))).
    change (zlen (@nil Z)) with 0. specialize (R' ltac:(intro; cbn; lia)). lia. }
  destruct k as [| |v|v]; cbn [new_body]; [exact E3|exact E3| |]; destruct v; assumption.
Qed.

(** C85: with no slice, or one, which is shared and not copied, a constant. *)
Theorem C85_new_shares pol k slices s : (length slices <= 1)%nat -> accesses (new_body pol k slices) s <= 20.
Proof.
  intro L. destruct slices as [|x [|y r]]; cbn [length] in L; try lia;
    destruct k as [| |v|v]; try destruct v; cbn; destruct (mu s); cbn; unfold zlen; cbn; lia.
Qed.
Print Assumptions C85_new_shares.

Lemma sizes_of h slices : Forall (wf_slice h) slices -> Forall (fun d => 0 <= s_len d) slices.
Proof. apply Forall_impl. intros d W. destruct W. lia. Qed.

(** C85: under a sensible policy the constructors do work linear in the bytes and the
    number of the slices. *)
Theorem C85_new_linear pol c k s slices : sensible c pol -> 0 <= c -> zlen slices < 2 ^ 63 -> Forall (wf_slice (heap s)) slices ->
  3 * lengths slices + c <= maxAlloc ->
  accesses (new_body pol k slices) s <= 20 + (6 + c) * zlen slices + 24 * lengths slices.
Proof.
  intros SP C HZ F M. pose proof (sizes_of _ _ F) as F'. destruct (le_lt_dec 2 (length slices)) as [L|L].
  - now apply cost_many.
  - pose proof (C85_new_shares pol k slices s ltac:(lia)). pose proof (lengths_nonneg _ F'). unfold zlen. nia.
Qed.
Print Assumptions C85_new_linear.

(** And so is the memory that they take. *)
Theorem C85_new_memory pol c k s slices : sensible c pol -> 0 <= c -> zlen slices < 2 ^ 63 -> Forall (wf_slice (heap s)) slices ->
  3 * lengths slices + c <= maxAlloc ->
  match run (new_body pol k slices) s with
  | Done _ s' | Panicked _ s' => AllocSpec.memory s' - AllocSpec.memory s <= 20 + (6 + c) * zlen slices + 24 * lengths slices
  | _ => True
  end.
Proof.
  intros SP C HZ F M. pose proof (C85_new_linear pol c k s slices SP C HZ F M). pose proof (run_memory (new_body pol k slices) s) as R.
  destruct (run _ _); auto; lia.
Qed.
Print Assumptions C85_new_memory.

(** ** The text *)

Lemma below_accesses {A} (p q : prog A) : below p q -> forall s, accesses p s <= accesses q s.
Proof.
  induction 1; intros st; cbn [accesses]; try lia; try apply accesses_nonneg;
    repeat match goal with |- context [match ?x with _ => _ end] => destruct x end; try lia;
    match goal with IH : forall x s, accesses _ s <= accesses _ s |- context [accesses (?k ?x) ?s] => specialize (IH x s); lia
    | IH : forall s, accesses ?k s <= accesses _ s |- context [accesses ?k ?s] => specialize (IH s); lia end.
Qed.
Lemma new_conv pol k slices : zlen slices < 2 ^ 63 -> exists R : unit -> env * signal -> Prop, conv R (new_body pol k slices) (fun n => new_text pol n k slices).
Proof.
  intro HZ. assert (I : is_i64 (zlen slices)) by (unfold is_i64, zlen in *; lia).
  exists (returns self_). destruct k as [| |v|v]; cbn [new_body new_text].
  - rewrite v3_program_text. exact (FrontV3.NewBuffer_text pol slices I).
  - rewrite v3_mini_program_text. exact (FrontM3.NewMiniBuffer_text pol slices I).
  - rewrite old_program_text. destruct v; [exact (FrontV1.NewBuffer_text pol slices I)|exact (FrontV2.NewBuffer_text pol slices I)].
  - rewrite old_mini_program_text. destruct v; [exact (FrontM1.NewMiniBuffer_text pol slices I)|exact (FrontM2.NewMiniBuffer_text pol slices I)].
Qed.
Lemma new_mono pol n m k slices : (n <= m)%nat -> below (new_text pol n k slices) (new_text pol m k slices).
Proof. intro L. destruct k; cbn [new_text]; now apply den_mono. Qed.
Lemma new_is pol k slices s : zlen slices < 2 ^ 63 -> mu s = false -> run (new_body pol k slices) s = run (V3Buffer.NewBuffer pol slices) s.
Proof. intros HZ M. destruct k; cbn [new_body]; [reflexivity|reflexivity|now apply old_NewBuffer_is|now apply old_NewMiniBuffer_is]. Qed.
Lemma new_ends pol k slices s : wf_heap (heap s) -> mu s = false -> zlen slices < 2 ^ 63 -> Forall (wf_slice (heap s)) slices ->
  run (new_body pol k slices) s <> Stuck.
Proof.
  intros H M HZ F. rewrite new_is by assumption. pose proof (NewBuffer_any pol s slices H HZ F) as N. destruct (_ <=? _); destruct N as (s' & -> & _); discriminate.
Qed.

(** C85, the text of the six constructors, at every bound of the interpreter. *)
Theorem C85_text_new_linear pol c k s slices n : sensible c pol -> 0 <= c -> wf_heap (heap s) -> mu s = false ->
  zlen slices < 2 ^ 63 -> Forall (wf_slice (heap s)) slices -> 3 * lengths slices + c <= maxAlloc ->
  accesses (new_text pol n k slices) s <= 20 + (6 + c) * zlen slices + 24 * lengths slices.
Proof.
  intros SP C H M HZ F B. destruct (new_conv pol k slices HZ) as [R CV].
  destruct (conv_accesses R _ _ s CV (new_ends pol k slices s H M HZ F)) as [N HN].
  transitivity (accesses (new_text pol (N + n) k slices) s); [apply below_accesses, new_mono; lia|].
  rewrite HN by lia. now apply C85_new_linear.
Qed.
Print Assumptions C85_text_new_linear.

(** ** Whole programs: a buffer is made and used *)

Lemma plain_sum pol k : forall js s, WF s -> Forall (valid_job k s) js -> 0 <= along (job_body pol) plain k s js.
Proof.
  induction js as [|j js IH]; intros s W V; cbn [along]; [lia|]. apply Forall_cons_iff in V as [V1 V2].
  assert (0 <= plain s j).
  { destruct k as [| |v|v]; [| |exact (plain_nonneg (BufOld v) s j I W V1)|exact (plain_nonneg (MiniOld v) s j I W V1)];
      match type of V1 with valid_job ?k _ _ => pose proof (volume_nonneg (fun _ _ => 0) k s j W V1) end;
      (destruct j as [d o|d o]; [|contradiction]); destruct d; cbn [plain] in *; lia. }
  pose proof (job_safe pol k s j W V1) as J. destruct (run _ _) as [v s'|e s'|s'|]; try contradiction; try lia;
    (destruct J as [J1 J2]; specialize (IH s' J1 ltac:(eapply Forall_impl; [|exact V2]; intro; now apply valid_grows)); lia).
Qed.
Lemma bytes_lengths h slices : Forall (wf_slice h) slices -> zlen (all_bytes h slices) = lengths slices.
Proof.
  induction 1 as [|d r W F IH]; [reflexivity|]. unfold all_bytes in *. cbn [map concat lengths]. rewrite zlen_app, IH, wf_slice_bytes_zlen by exact W. reflexivity.
Qed.

(** C85: making a buffer and any calls on it cost a constant for each call and each
    slice, and for each byte that a slice has or a call names. *)
Theorem C85_program_linear pol c k s slices : sensible c pol -> 0 <= c -> wf_heap (heap s) -> mu s = false ->
  zlen slices < 2 ^ 63 -> Forall (wf_slice (heap s)) slices -> lengths slices <= maxAlloc ->
  exists s', run (new_body pol k slices) s = Done tt s' /\ WF s' /\
    forall js, Forall (valid_job k s') js -> 3 * (lengths slices + along (job_body pol) plain k s' js) + c <= maxAlloc ->
    accesses (new_body pol k slices) s + total_work (job_body pol) k s' js <=
      (20 + 10 * c) * (1 + zlen js) + 310 * along (job_body pol) plain k s' js + (6 + c) * zlen slices + 54 * lengths slices.
Proof.
  intros SP C H M HZ F B. pose proof (bytes_lengths _ _ F) as BL.
  pose proof (NewBuffer_any pol s slices H HZ F) as N. rewrite BL in N. replace (_ <=? _) with true in N by lia.
  destruct N as (s' & E & FB). exists s'. rewrite new_is by assumption. split; [exact E|]. destruct FB as [W CO _ _ _ _ _]. split; [exact W|].
  intros js V Q. pose proof (plain_sum pol k js s' W V) as P.
  pose proof (C85_new_linear pol c k s slices SP C HZ F ltac:(lia)) as A.
  assert (U : used s' = lengths slices) by (rewrite <- BL, <- CO, content_zlen by exact W; reflexivity).
  assert (J : 0 <= zlen js) by (unfold zlen; lia).
  assert (L0 : 0 <= lengths slices) by (apply lengths_nonneg, (sizes_of _ _ F)).
  assert (T : total_work (job_body pol) k s' js <= (20 + 10 * c) * zlen js + 310 * along (job_body pol) plain k s' js + 30 * used s').
  { destruct k as [| |v|v].
    - pose proof (C85_amortised pol Buf3 s' js (or_introl eq_refl) W V). nia.
    - pose proof (C85_amortised pol Mini3 s' js (or_intror eq_refl) W V). nia.
    - apply C85_amortised_old; auto; [exact I|]. lia.
    - apply C85_amortised_old; auto; [exact I|]. lia. }
  rewrite U in T. nia.
Qed.
Print Assumptions C85_program_linear.

(** The same of the Go text, constructor and calls. *)
Theorem C85_text_program_linear pol c k s slices : sensible c pol -> 0 <= c -> wf_heap (heap s) -> mu s = false ->
  zlen slices < 2 ^ 63 -> Forall (wf_slice (heap s)) slices -> lengths slices <= maxAlloc ->
  exists s', WF s' /\ (exists N, forall n, (N <= n)%nat -> exists r, run (new_text pol n k slices) s = Done r s') /\
    forall js, Forall (valid_job k s') js -> 3 * (lengths slices + along (job_body pol) plain k s' js) + c <= maxAlloc ->
    exists N, forall n, (N <= n)%nat ->
    accesses (new_text pol n k slices) s + total_work (job_text pol n) k s' js <=
      (20 + 10 * c) * (1 + zlen js) + 310 * along (job_text pol n) plain k s' js + (6 + c) * zlen slices + 54 * lengths slices.
Proof.
  intros SP C H M HZ F B. destruct (C85_program_linear pol c k s slices SP C H M HZ F B) as (s' & E & W & T).
  destruct (new_conv pol k slices HZ) as [R CV]. pose proof (new_ends pol k slices s H M HZ F) as NE.
  exists s'. split; [exact W|split].
  - destruct (conv_run R _ _ s CV NE) as [N HN]. exists N. intros n Hn. specialize (HN n Hn). rewrite E in HN. inversion HN; subst. eauto.
  - intros js V Q. specialize (T js V Q). destruct (conv_accesses R _ _ s CV NE) as [N1 H1]. destruct (total_text pol k js s' W V) as [N2 H2].
    exists (N1 + N2)%nat. intros n Hn. destruct (H2 n ltac:(lia)) as [-> ->]. rewrite H1 by lia. exact T.
Qed.
Print Assumptions C85_text_program_linear.

(** ** The supposition about the policy is needed *)

Lemma accesses_bind {A B} (p : prog A) (f : A -> prog B) : forall s a s', run p s = Done a s' ->
  accesses (bind p f) s = accesses p s + accesses (f a) s'.
Proof.
  conv_cases p IH; intros st y st' E; cbn [bind accesses run] in *; try discriminate; try (injection E as -> ->; lia);
    repeat match goal with |- context [match ?x with _ => _ end] => destruct x; try discriminate end;
    rewrite (IH _ _ _ _ E) || rewrite (IH _ _ _ E); lia.
Qed.
Section Exact.
Variables (s0 : St) (slices : list slice) (fin : unit -> prog unit).
Hypothesis in_memory : Forall (wf_slice (heap s0)) slices.
Hypothesis ones : Forall (fun d => s_len d = 1) slices.
Hypothesis few : zlen slices <= maxAlloc.

Lemma exact_append s done d : BuildInv s0 done s -> wf_slice (heap s0) d -> s_len d = 1 -> zlen done + 1 <= maxAlloc -> s_cap (b_buf (bb s)) = zlen done ->
  exists s' done', BuildInv s0 done' s' /\ zlen done' = zlen done + 1 /\ s_cap (b_buf (bb s')) = zlen done' /\
    forall g : unit -> prog unit, zlen done + 1 + accesses (g tt) s' <= accesses (bind (bind (append exact (b_buf (bb s)) d) (fun y => set_buf y)) g) s.
Proof.
  intros I W L M C. destruct (append_step exact s0 s done d I W ltac:(lia)) as (s' & E & I').
  assert (LD : s_len (b_buf (bb s)) = zlen done). { pose proof (wf_slice_bytes_zlen _ _ (bi_sl _ _ _ I)) as Q. pose proof (bi_content _ _ _ I) as Q'. unfold content in Q'. rewrite Q' in Q. lia. }
  assert (Z0 : 0 <= zlen done) by (unfold zlen; lia).
  exists s', (done ++ slice_bytes (heap s0) d).
  assert (LN : zlen (done ++ slice_bytes (heap s0) d) = zlen done + 1). { rewrite zlen_app, wf_slice_bytes_zlen by auto. lia. }
  rewrite LN. split; [exact I'|split; [reflexivity|split]].
  - clear I'. revert E. unfold append. rewrite LD, L, C. replace (zlen done + 1 <=? zlen done) with false by lia. replace (zlen done + 1 <=? maxAlloc) with true by lia.
    cbn [bind run set_buf]. replace (new_cap exact (zlen done) (zlen done + 1)) with (zlen done + 1) by (unfold new_cap, exact; lia).
    repeat match goal with |- context [match ?x with _ => _ end] => destruct x; try discriminate end. intro E. injection E as <-. reflexivity.
  - intro g. rewrite (accesses_bind _ g _ _ _ E). apply Z.add_le_mono_r.
    unfold append. rewrite LD, L, C. replace (zlen done + 1 <=? zlen done) with false by lia. replace (zlen done + 1 <=? maxAlloc) with true by lia.
    replace (new_cap exact (zlen done) (zlen done + 1)) with (zlen done + 1) by (unfold new_cap, exact; lia).
    cbn [bind]. etransitivity; [|apply alloc_costs]. unfold zlen, zeros. rewrite repeat_length. lia.
Qed.
Lemma exact_step m s done : (m < length slices)%nat -> BuildInv s0 done s -> zlen done = Z.of_nat m -> s_cap (b_buf (bb s)) = zlen done ->
  exists s' done', BuildInv s0 done' s' /\ zlen done' = Z.of_nat (S m) /\ s_cap (b_buf (bb s')) = zlen done' /\
    forall g : unit -> prog unit, Z.of_nat (S m) + accesses (g tt) s' <= accesses (bind (step_of exact slices (Z.of_nat m) tt) g) s.
Proof.
  intros L I D C. unfold step_of. rewrite Nat2Z.id.
  assert (W : wf_slice (heap s0) (nth m slices (b_buf (bb s)))) by (rewrite Forall_forall in in_memory; now apply in_memory, nth_In).
  assert (O : s_len (nth m slices (b_buf (bb s))) = 1) by (rewrite Forall_forall in ones; now apply ones, nth_In).
  destruct (exact_append s done _ I W O ltac:(unfold zlen in *; lia) C) as (s' & done' & I' & D' & C' & A).
  exists s', done'. split; [exact I'|split; [lia|split; [exact C'|]]].
  intro g. specialize (A g). cbn [bind get_buf accesses] in *. pose proof (accesses_nonneg (g tt) s').
  match type of A with _ <= ?x => change (Z.of_nat (S m) + accesses (g tt) s' <= 1 + x) end. lia.
Qed.
Lemma next_index m : (m < length slices)%nat -> Z.of_nat m +! 1 = Z.of_nat (S m).
Proof. intro L. unfold add64. rewrite wrap64_id; [lia|]. pose proof max_alloc_val. unfold is_i64, zlen in *. lia. Qed.
Definition left (m : nat) : Z := Z.of_nat (length slices - m).
Lemma exact_goto f : forall m s done, (m < length slices)%nat -> (length slices - m <= f)%nat -> BuildInv s0 done s -> zlen done = Z.of_nat m -> s_cap (b_buf (bb s)) = zlen done ->
  left m * (left m + 1) + 2 * left m * Z.of_nat m <= 2 * accesses (bind (dw f (zlen slices) (step_of exact slices) (Z.of_nat m) tt) fin) s.
Proof.
  induction f as [|f IH]; intros m s done L F I D C; [lia|]. cbn [dw]. rewrite accesses_assoc.
  destruct (exact_step m s done L I D C) as (s' & done' & I' & D' & C' & A).
  etransitivity; [|apply Z.mul_le_mono_nonneg_l; [lia|apply A]]. rewrite (next_index m L).
  destruct (Z.ltb_spec (Z.of_nat (S m)) (zlen slices)) as [Q|Q].
  - specialize (IH (S m) s' done' ltac:(unfold zlen in Q; lia) ltac:(lia) I' D' C').
    replace (left m) with (left (S m) + 1) by (unfold left; lia). nia.
  - cbn [bind]. pose proof (accesses_nonneg (fin tt) s'). assert (left m = 1) as -> by (unfold left, zlen in *; lia). lia.
Qed.
Lemma exact_for f : forall m s done, (m <= length slices)%nat -> (length slices - m <= f)%nat -> BuildInv s0 done s -> zlen done = Z.of_nat m -> s_cap (b_buf (bb s)) = zlen done ->
  left m * (left m + 1) + 2 * left m * Z.of_nat m <= 2 * accesses (bind (fl f (zlen slices) (step_of exact slices) (Z.of_nat m) tt) fin) s.
Proof.
  induction f as [|f IH]; intros m s done L F I D C; cbn [fl]; destruct (Z.ltb_spec (Z.of_nat m) (zlen slices)) as [Q|Q].
  1: unfold zlen in Q; lia.
  1, 3: cbn [bind]; pose proof (accesses_nonneg (fin tt) s); assert (left m = 0) as -> by (unfold left, zlen in *; lia); lia.
  assert (L' : (m < length slices)%nat) by (unfold zlen in Q; lia). rewrite accesses_assoc.
  destruct (exact_step m s done L' I D C) as (s' & done' & I' & D' & C' & A).
  etransitivity; [|apply Z.mul_le_mono_nonneg_l; [lia|apply A]]. rewrite (next_index m L').
  specialize (IH (S m) s' done' ltac:(lia) ltac:(lia) I' D' C').
  replace (left m) with (left (S m) + 1) by (unfold left; lia). nia.
Qed.
End Exact.

(** C85: a policy that gives exactly what is needed makes the constructors of m slices
    of one byte do at least m(m+1)/2 accesses. *)
Theorem C85_new_exact_policy_refuted k s slices : wf_heap (heap s) -> Forall (wf_slice (heap s)) slices ->
  Forall (fun d => s_len d = 1) slices -> (2 <= length slices)%nat -> zlen slices <= maxAlloc ->
  lengths slices = zlen slices /\ zlen slices * (zlen slices + 1) <= 2 * accesses (new_body exact k slices) s.
Proof.
  intros H F O L B. split.
  { clear - O. induction O as [|d r E O IH]; [reflexivity|]. cbn [lengths]. rewrite E, IH. unfold zlen. cbn [length]. lia. }
  set (s1 := mkSt (heap s ++ [[]]) (mkBuf (mkSlice (length (heap s)) 0 0 0) 0 0 0 0) (mu s) (outs s)).
  assert (I : BuildInv s [] s1).
  { constructor; simpl; auto.
    - apply wf_heap_alloc; auto. unfold zlen; simpl. rewrite max_alloc_val. lia.
    - unfold wf_slice; simpl. rewrite nth_alloc_new, app_length. simpl. unfold zlen; simpl. repeat split; lia.
    - exists [[]]. reflexivity. }
  assert (R : forall f : unit -> prog unit, zlen slices * (zlen slices + 1) <= 2 * accesses (bind (goto_loop (zlen slices) (step_of exact slices) tt) f) s1).
  { intro f. pose proof (exact_goto s slices f F O B (S (Z.to_nat (zlen slices))) 0 s1 [] ltac:(lia) ltac:(unfold zlen; lia) I eq_refl eq_refl) as X.
    unfold left in X. rewrite Nat.sub_0_r in X. fold (zlen slices) in X. change (Z.of_nat 0) with 0 in X. unfold goto_loop. lia. }
  assert (R' : forall f : unit -> prog unit, zlen slices * (zlen slices + 1) <= 2 * accesses (bind (for_loop (zlen slices) (step_of exact slices) tt) f) s1).
  { intro f. pose proof (exact_for s slices f F O B (Z.to_nat (zlen slices)) 0 s1 [] ltac:(lia) ltac:(unfold zlen; lia) I eq_refl eq_refl) as X.
    unfold left in X. rewrite Nat.sub_0_r in X. fold (zlen slices) in X. change (Z.of_nat 0) with 0 in X. unfold for_loop. lia. }
  destruct slices as [|x [|y r]]; cbn [length] in L; try lia. set (l := x :: y :: r) in *.
  assert (E3 : zlen l * (zlen l + 1) <= 2 * accesses (V3Buffer.NewBuffer exact l) s).
  { specialize (R (fun _ => V3Buffer.Refresh)). change (accesses (V3Buffer.NewBuffer exact l) s) with
      (1 + zlen (@nil Z) + (1 + (1 + (1 + (1 + (1 + accesses (bind (goto_loop (zlen l) (step_of exact l) tt) (fun _ => V3Buffer.Refresh)) s1)))))).
    change (zlen (@nil Z)) with 0. lia. }
  assert (E2 : zlen l * (zlen l + 1) <= 2 * accesses (V2Buffer.NewBuffer exact l) s).
  { specialize (R' (fun _ => V2Buffer.refresh)). change (accesses (V2Buffer.NewBuffer exact l) s) with
      (1 + zlen (@nil Z) + (1 + (1 + (1 + (1 + (1 + accesses (bind (for_loop (zlen l) (step_of exact l) tt) (fun _ => V2Buffer.refresh)) s1)))))).
    change (zlen (@nil Z)) with 0. lia. }
  assert (F2 : zlen l * (zlen l + 1) <= 2 * accesses (V2Mini.NewMiniBuffer exact l) s).
  { specialize (R' (fun _ => V2Mini.refresh)). change (accesses (V2Mini.NewMiniBuffer exact l) s) with
      (1 + zlen (@nil Z) + (1 + (1 + (1 + (1 + (1 + accesses (bind (for_loop (zlen l) (step_of exact l) tt) (fun _ => V2Mini.refresh)) s1)))))).
    change (zlen (@nil Z)) with 0. lia. }
  destruct k as [| |v|v]; cbn [new_body]; [exact E3|exact E3| |]; destruct v; assumption.
Qed.
Print Assumptions C85_new_exact_policy_refuted.

(** The same of the Go text. *)
Theorem C85_text_new_exact_policy_refuted k s slices : wf_heap (heap s) -> mu s = false -> Forall (wf_slice (heap s)) slices ->
  Forall (fun d => s_len d = 1) slices -> (2 <= length slices)%nat -> zlen slices <= maxAlloc ->
  exists N, forall n, (N <= n)%nat -> zlen slices * (zlen slices + 1) <= 2 * accesses (new_text exact n k slices) s.
Proof.
  intros H M F O L B. assert (HZ : zlen slices < 2 ^ 63) by (rewrite max_alloc_val in B; lia).
  destruct (new_conv exact k slices HZ) as [R CV]. destruct (conv_accesses R _ _ s CV (new_ends exact k slices s H M HZ F)) as [N HN].
  exists N. intros n Hn. rewrite HN by exact Hn. now apply C85_new_exact_policy_refuted.
Qed.
Print Assumptions C85_text_new_exact_policy_refuted.

(** ** Cases *)

(** Three slices of a memory, under Go's policy as of 1.18 with no rounding. *)
Definition parts : St := mkSt [[1; 2; 3; 4; 5]; [6; 7]] (mkBuf (mkSlice 0 0 0 0) 0 0 0 0) false [].
Definition three : list slice := [mkSlice 0 0 3 5; mkSlice 1 0 2 2; mkSlice 0 3 2 2].
Example C85_new_case : sensible 9000 (fun old need => growslice old need) /\ wf_heap (heap parts) /\ Forall (wf_slice (heap parts)) three /\
  3 * lengths three + 9000 <= maxAlloc /\
  (forall k, accesses (new_body (fun old need => growslice old need) k three) parts = if match k with BufOld _ => true | _ => false end then 63 else 61).
Proof.
  split; [apply (C85_growslice_sensible (fun x => x)); intros x; Z.to_euclidean_division_equations; lia|].
  split; [repeat constructor; vm_compute; try discriminate; auto|].
  split; [repeat constructor; vm_compute; try discriminate; auto|].
  split; [vm_compute; discriminate|]. intros [| |v|v]; try destruct v; vm_compute; reflexivity.
Qed.
(** Ten slices of one byte each. *)
Example C85_new_exact_case : let slices := repeat (mkSlice 0 1 1 4) 10 in
  Forall (wf_slice (heap parts)) slices /\ Forall (fun d => s_len d = 1) slices /\ (2 <= length slices)%nat /\ zlen slices <= maxAlloc.
Proof. vm_compute. repeat split; try discriminate; repeat constructor; discriminate. Qed.
(** A program: a v3 Buffer of the three slices, a [Grow] and two reads. *)
Example C85_program_case :
  match run (new_body (fun old need => growslice old need) Buf3 three) parts with
  | Done _ s' =>
      let js := [J3 (CGrow 1) []; J3 (At 2 (OReadBits 5)) []; J3 (At 4 (OReadBytes 3)) []] in
      Forall (valid_job Buf3 s') js /\ 3 * (lengths three + along (job_body (fun old need => growslice old need)) plain Buf3 s' js) + 9000 <= maxAlloc /\
      0 < total_work (job_body (fun old need => growslice old need)) Buf3 s' js
  | _ => False
  end.
Proof.
  match goal with |- match ?e with _ => _ end => let r := eval vm_compute in e in replace e with r by (vm_compute; reflexivity) end.
  cbv beta iota zeta. split; [repeat (apply Forall_cons || apply Forall_nil); cbn; unfold is_i64; lia|]. split; [vm_compute; discriminate|vm_compute; reflexivity].
Qed.
