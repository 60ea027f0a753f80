(** * Props_RaceMini: data races on a v3 [MiniBuffer] shared by goroutines (C82).

    Any number of goroutines make any calls on one MiniBuffer, in any schedule.
    Every call has a variable of its own behind its [out] pointer ([mini_body]).
    RaceMiniSpec.v says which parts of the buffer each call reads and writes;
    [traced] and [race_free] are in Race.v. *)
From Coq Require Import ZArith List Bool String Lia Arith ZifyBool.
From Verif Require Import GoSem Errors GoParse Conv GoEval Front Tables FrontCalls FrontMiniCalls.
From Verif Require Import Spec GoLemmas Typed Calls Abs MiniAbs History Witness Conc ConcSpec ConcSched.
From Verif Require Import Race RaceLemmas RaceOld FrontOldCalls Enough FrontConc RaceSpec3 Race3 RaceMiniSpec RaceMini Props_Front Props_Race3.
Import ListNotations.
Open Scope Z_scope.
Open Scope list_scope.

(** ** The variable behind the out pointer *)

(** A call with a variable of its own returns, or panics, as the call of C66 does
    with the variable [outs], and leaves the same buffer and memory. *)
Theorem C82_own_variable c out s :
  run (mini_body (c, out)) s =
  match run (mini_call c) (set_outs s out) with
  | Done a s' => Done a (set_outs s' (outs s))
  | Panicked e s' => Panicked e (set_outs s' (outs s))
  | Deadlock s' => Deadlock (set_outs s' (outs s))
  | Stuck => Stuck
  end.
Proof. pose proof (own_out_run (mini_call c) out s) as H. unfold mini_body. cbn [fst snd]. destruct (run (mini_call c) (set_outs s out)); exact H. Qed.
Print Assumptions C82_own_variable.

(** ** Compatible calls do not race *)

(** A call that a Go program can make; its slice argument is not the buffer itself. *)
Definition mini_fits (s : St) (u : mini_use) : Prop := valid_mini s (fst u) (snd u) /\ separate s (fst u).

Theorem C82_race_free s programs tr c :
  WF s -> Forall (Forall (mini_fits s)) programs -> compatible_mini programs ->
  traced mini_body (start s programs) tr c -> race_free tr.
Proof.
  intros W V C. apply compatible_mini_race_free; auto.
  - apply wf_blk; exact W.
  - pose proof (wf_cap_max s W). pose proof (wf_lencap s W). change maxAlloc with (2 ^ 48) in *. lia.
  - revert V. apply Forall_impl. intro cs. apply Forall_impl. intros u [(V1 & V2 & _) V3]. auto.
Qed.
Print Assumptions C82_race_free.

(** Goroutines that only read need no mutex. *)
Lemma mini_reader_writes c x : reader c -> writes_mini c x = false.
Proof. destruct c as [? []| | | | | | | | | | | | | | | | | | | |], x; cbn; tauto. Qed.
Theorem C82_readers s programs tr c :
  WF s -> Forall (Forall (fun u : mini_use => valid_mini s (fst u) (snd u) /\ reader (fst u))) programs ->
  traced mini_body (start s programs) tr c -> race_free tr.
Proof.
  intros W V. apply C82_race_free; auto.
  - revert V. apply Forall_impl. intro cs. apply Forall_impl. intros u [V R]. split; auto. now apply reader_separate.
  - intros t u cs ds d e N E1 E2 I1 I2 (x & X & _). apply nth_error_In in E1.
    rewrite Forall_forall in V. specialize (V cs E1). rewrite Forall_forall in V. destruct (V d I1) as [_ R]. now rewrite mini_reader_writes in X by auto.
Qed.
Print Assumptions C82_readers.

(** Goroutines that keep to disjoint ranges of bytes need no mutex. *)
Lemma mini_within_bytes lo hi c i : 0 <= lo -> mini_method c = true -> within lo hi c -> reads_mini c (Byte i) = true \/ writes_mini c (Byte i) = true -> lo <= i < hi.
Proof.
  intros L MM H X. destruct c as [off o|o| | | |off r|off r|[off|]|[off|]| | |n|n|n| | | | | | |]; cbn in H; try contradiction;
    try (cbn in X; intuition congruence).
  assert (S : mini_span off o i = true) by (cbn in X; destruct X as [X|X]; [auto|now apply andb_true_iff in X]). clear X.
  apply (within_bytes lo hi (At off o) i H). left. cbn [reads3]. unfold mini_span in S. apply andb_true_iff in S as [_ S].
  destruct o; cbn [within span mini_method mini_opn] in *; try discriminate; auto;
    rewrite !Z.quot_div_nonneg in S by lia; exact S.
Qed.
Lemma mini_within_others lo hi c x : within lo hi c -> writes_mini c x = true -> exists i, x = Byte i.
Proof.
  intros H X. destruct x as [|f|i]; [| |eauto]; exfalso;
  destruct c as [off o|o| | | |off r|off r|[off|]|[off|]| | |n|n|n| | | | | | |]; cbn in H, X; try contradiction; discriminate.
Qed.
Definition apart (lo hi : nat -> Z) (s : St) (programs : list (list mini_use)) : Prop :=
  (forall t, 0 <= lo t) /\ (forall t u, t <> u -> hi t <= lo u \/ hi u <= lo t) /\
  forall t cs u, nth_error programs t = Some cs -> In u cs -> mini_fits s u /\ within (lo t) (hi t) (fst u).
Lemma apart_fits lo hi s programs : apart lo hi s programs -> Forall (Forall (mini_fits s)) programs /\ compatible_mini programs.
Proof.
  intros (L & D & H). split.
  - apply Forall_forall. intros cs I. apply Forall_forall. intros u J. apply In_nth_error in I as [t E]. now apply (H t cs u).
  - intros t u cs ds d e N E1 E2 I1 I2 (x & X & Y).
    destruct (H t cs d E1 I1) as [[[M1 _] _] F1]. destruct (H u ds e E2 I2) as [[[M2 _] _] F2].
    destruct (mini_within_others _ _ _ _ F1 X) as [i ->].
    pose proof (mini_within_bytes _ _ _ i (L t) M1 F1 (or_intror X)). pose proof (mini_within_bytes _ _ _ i (L u) M2 F2 Y).
    specialize (D t u N). lia.
Qed.
Theorem C82_disjoint_ranges s programs (lo hi : nat -> Z) tr c :
  WF s -> apart lo hi s programs -> traced mini_body (start s programs) tr c -> race_free tr.
Proof. intros W A. destruct (apart_fits _ _ _ _ A). now apply C82_race_free. Qed.
Print Assumptions C82_disjoint_ranges.

(** ** Calls that are not compatible race *)

(** The typical calls of C74, without ReadByte and WriteByte. *)
Definition mini_typical_op (o : opn slice) : opn slice :=
  match o with OWriteByte _ => OSetBit | OReadByte => OReadBit | o => typical_op o end.
Definition mini_typical (c : call slice) : mini_use :=
  (match c with At _ o => At 0 (mini_typical_op o) | Next o => Next (mini_typical_op o) | c => typical c end, [0]).
Definition mini_typical_ops : list (opn slice) := filter mini_opn typical_ops.
Definition mini_typical_calls : list mini_use := map (fun c => (c, [0])) (filter mini_method typical_calls).
Lemma mini_op_listed o : In (mini_typical_op o) typical_ops /\ mini_opn (mini_typical_op o) = true.
Proof. destruct o; (split; [|reflexivity]); try (apply (typical_op_listed _)); cbn [mini_typical_op]; [apply (typical_op_listed OSetBit)|apply (typical_op_listed OReadBit)]. Qed.
Lemma mini_typical_listed c : In (mini_typical c) mini_typical_calls.
Proof.
  unfold mini_typical_calls, mini_typical. apply (in_map (fun c => (c, [0]))). apply filter_In.
  destruct c as [? o|o| | | |? ?|? ?|x|x| | |?|?|?| | | | | | |]; try (split; [apply typical_listed|reflexivity]).
  - destruct (mini_op_listed o) as [A B]. split; [|exact B]. unfold typical_calls. apply in_or_app. left. now apply in_map.
  - destruct (mini_op_listed o) as [A B]. split; [|exact B]. unfold typical_calls. apply in_or_app. right. apply in_or_app. left. now apply in_map.
  - split; [|destruct x; reflexivity]. apply typical_listed.
  - split; [|destruct x; reflexivity]. apply typical_listed.
Qed.
Definition mconflictb (c d : mini_use) : bool :=
  existsb (fun x => if writes_mini (fst c) x then reads_mini (fst d) x || writes_mini (fst d) x else false) pieces.
Lemma mini_first_byte c : In c mini_typical_calls -> forall i,
  (reads_mini (fst c) (Byte i) = true -> reads_mini (fst c) (Byte 0) = true) /\ (writes_mini (fst c) (Byte i) = true -> writes_mini (fst c) (Byte 0) = true).
Proof.
  assert (F : Forall (fun c : mini_use => (reads_mini (fst c) (Byte 0) = true \/ forall i, reads_mini (fst c) (Byte i) = false) /\
                               (writes_mini (fst c) (Byte 0) = true \/ forall i, writes_mini (fst c) (Byte i) = false)) mini_typical_calls).
  { unfold mini_typical_calls, typical_calls, typical_ops, formats. cbn [map app filter mini_method mini_opn].
    repeat (apply Forall_cons; [split; first [left; vm_compute; reflexivity|right; intros; cbn; unfold mini_span; rewrite ?andb_false_r; reflexivity]|]). apply Forall_nil. }
  intros I i. rewrite Forall_forall in F. destruct (F c I) as [[A|A] [B|B]]; split; auto; intro X; rewrite ?A, ?B in X; discriminate.
Qed.
Lemma mconflictb_true c d : In c mini_typical_calls -> In d mini_typical_calls -> conflicting_mini (fst c) (fst d) -> mconflictb c d = true.
Proof.
  intros C D (x & W & B). apply existsb_exists.
  assert (H : exists y, In y pieces /\ writes_mini (fst c) y = true /\ (reads_mini (fst d) y = true \/ writes_mini (fst d) y = true)).
  { destruct x as [|f|i].
    - exists Slice. cbn. auto.
    - exists (Fields f). split; [destruct f; cbn; auto 10|auto].
    - exists (Byte 0). split; [cbn; auto 10|]. split; [now apply (mini_first_byte c C i)|].
      destruct B as [B|B]; [left|right]; now apply (mini_first_byte d D i). }
  destruct H as (y & I & W' & B'). exists y. split; auto. rewrite W'. now apply orb_true_iff.
Qed.
Definition mini_all_race (l : list mini_use) : bool :=
  forallb (fun c => let x := accesses 99 (mini_body c) shared3 in
    forallb (fun d => if mconflictb c d then second_races x (mini_body d) else true) l) l.
Lemma mini_all_race_in l c d : mini_all_race l = true -> In c l -> In d l -> mconflictb c d = true ->
  second_races (accesses 99 (mini_body c) shared3) (mini_body d) = true.
Proof.
  intros H C D X. unfold mini_all_race in H. rewrite forallb_forall in H. specialize (H c C). cbv beta zeta in H.
  rewrite forallb_forall in H. specialize (H d D). cbv beta in H. now rewrite X in H.
Qed.
Lemma all_race_mini : mini_all_race mini_typical_calls = true.
Proof. vm_cast_no_check (eq_refl true). Qed.

(** For every two methods whose calls at the first byte are in conflict there is a
    schedule in which these calls race. *)
Theorem C82_conflicting_calls_race c d : conflicting_mini (fst (mini_typical c)) (fst (mini_typical d)) ->
  exists tr cfg, traced mini_body (start shared3 [[mini_typical c]; [mini_typical d]]) tr cfg /\ ~ race_free tr.
Proof.
  intro X. apply in_turn_sound. apply (mini_all_race_in _ _ _ all_race_mini); auto using mini_typical_listed, mconflictb_true.
Qed.
Print Assumptions C82_conflicting_calls_race.

(** Two reads race if they store through the same pointer. *)
Theorem C82_one_variable_races :
  exists tr cfg, traced mini_call (start shared3 [[At 0 (OReadBits 3)]; [At 8 (OReadBits 3)]]) tr cfg /\ ~ race_free tr.
Proof.
  destruct (accesses 99 (mini_call (At 0 (OReadBits 3))) shared3) as [la [p1 s1]] eqn:E1.
  destruct (accesses 99 (mini_call (At 8 (OReadBits 3))) s1) as [lb [p2 s2]] eqn:E2.
  eapply (in_turn (f := 99) (g := 99) mini_call _ _ shared3 la p1 s1 lb p2 s2 (Wr LOut) (Wr LOut)); auto.
  5: { exists LOut. left. split; [reflexivity|right; reflexivity]. }
  all: vm_compute in E1; injection E1 as <- <- <-; vm_compute in E2; injection E2 as <- <- <-; try reflexivity; cbn [In]; auto 10.
Qed.
Print Assumptions C82_one_variable_races.

(** ** The Go text *)

(** The call in v3/minibuf.generated.go; the caller then looks at its variable. *)
Definition mini_text (pol : Z -> Z -> Z) (n : nat) (u : mini_use) : prog (rv slice) :=
  own_out (snd u) (a <- go_body v3_mini_program pol n (mini_go_call (fst u)) ;; GetOuts (fun o => Ret (mini_answer (fst u) a o))).

Lemma conv_own_look (g : rv slice -> list Z -> rv slice) (T : prog (rv slice)) : (forall a o, g a o = a) -> forall P out,
  conv eq T P -> conv eq (own_out out T) (fun n => own_out out (bind (P n) (fun a => GetOuts (fun o => Ret (g a o))))).
Proof.
  intro G. conv_cases T IH; intros P out; cbn [conv own_out]; auto.
  - intros (N & b & <- & H). exists N, a. split; auto. intros n Hn. rewrite (H n Hn). cbn. now rewrite G.
  - intros (N & H). exists N. intros n Hn. now rewrite (H n Hn).
  - intros (N & K & HK & H). exists N, (fun n x => own_out out (bind (K n x) (fun a => GetOuts (fun o => Ret (g a o))))). split; [intros n Hn; now rewrite (HK n Hn)|]. intro x. now apply (IH x (fun n => K n x)).
  - intros (N & K & HK & H). exists N, (fun n => own_out out (bind (K n) (fun a => GetOuts (fun o => Ret (g a o))))). split; [intros n Hn; now rewrite (HK n Hn)|]. now apply IH.
  - intros (N & K & HK & H). exists N, (fun n x => own_out out (bind (K n x) (fun a => GetOuts (fun o => Ret (g a o))))). split; [intros n Hn; now rewrite (HK n Hn)|]. intro x. now apply (IH x (fun n => K n x)).
  - intros (N & K & HK & H). exists N, (fun n => own_out out (bind (K n) (fun a => GetOuts (fun o => Ret (g a o))))). split; [intros n Hn; now rewrite (HK n Hn)|]. now apply IH.
  - intros (N & K & HK & H). exists N, (fun n x => own_out out (bind (K n x) (fun a => GetOuts (fun o => Ret (g a o))))). split; [intros n Hn; now rewrite (HK n Hn)|]. intro x. now apply (IH x (fun n => K n x)).
  - intros (N & K & HK & H). exists N, (fun n => own_out out (bind (K n) (fun a => GetOuts (fun o => Ret (g a o))))). split; [intros n Hn; now rewrite (HK n Hn)|]. now apply IH.
  - intros (N & K & HK & H). exists N, (fun n => own_out out (bind (K n) (fun a => GetOuts (fun o => Ret (g a o))))). split; [intros n Hn; now rewrite (HK n Hn)|]. now apply IH.
  - intros (N & K & HK & H). exists N, (fun n x => own_out out (bind (K n x) (fun a => GetOuts (fun o => Ret (g a o))))). split; [intros n Hn; now rewrite (HK n Hn)|]. intro x. now apply (IH x (fun n => K n x)).
  - intros (N & K & HK & H). specialize (IH out _ out (H out)). revert IH. apply conv_ext with (N := N). intros n Hn. now rewrite (HK n Hn).
  - intros (N & K & HK & H). specialize (IH _ l H). revert IH. apply conv_ext with (N := N). intros n Hn. now rewrite (HK n Hn).
  - intros (N & K & HK & H). exists N, (fun n => own_out out (bind (K n) (fun a => GetOuts (fun o => Ret (g a o))))). split; [intros n Hn; now rewrite (HK n Hn)|]. now apply IH.
  - intros (N & K & HK & H). exists N, (fun n => own_out out (bind (K n) (fun a => GetOuts (fun o => Ret (g a o))))). split; [intros n Hn; now rewrite (HK n Hn)|]. now apply IH.
Qed.
Lemma conv_own_out (g : list Z -> rv slice) (T : prog unit) : forall P out,
  conv eq (ret_unit T) P -> conv eq (own_out out (bind T (fun _ => GetOuts (fun o => Ret (g o))))) (fun n => own_out out (bind (P n) (fun _ => GetOuts (fun o => Ret (g o))))).
Proof.
  unfold ret_unit. conv_cases T IH; intros P out; cbn [conv own_out bind]; auto.
  - intros (N & b & <- & H). exists N, (g out). split; auto. intros n Hn. now rewrite (H n Hn).
  - intros (N & H). exists N. intros n Hn. now rewrite (H n Hn).
  - intros (N & K & HK & H). exists N, (fun n x => own_out out (bind (K n x) (fun _ => GetOuts (fun o => Ret (g o))))). split; [intros n Hn; now rewrite (HK n Hn)|]. intro x. now apply (IH x (fun n => K n x)).
  - intros (N & K & HK & H). exists N, (fun n => own_out out (bind (K n) (fun _ => GetOuts (fun o => Ret (g o))))). split; [intros n Hn; now rewrite (HK n Hn)|]. now apply IH.
  - intros (N & K & HK & H). exists N, (fun n x => own_out out (bind (K n x) (fun _ => GetOuts (fun o => Ret (g o))))). split; [intros n Hn; now rewrite (HK n Hn)|]. intro x. now apply (IH x (fun n => K n x)).
  - intros (N & K & HK & H). exists N, (fun n => own_out out (bind (K n) (fun _ => GetOuts (fun o => Ret (g o))))). split; [intros n Hn; now rewrite (HK n Hn)|]. now apply IH.
  - intros (N & K & HK & H). exists N, (fun n x => own_out out (bind (K n x) (fun _ => GetOuts (fun o => Ret (g o))))). split; [intros n Hn; now rewrite (HK n Hn)|]. intro x. now apply (IH x (fun n => K n x)).
  - intros (N & K & HK & H). exists N, (fun n => own_out out (bind (K n) (fun _ => GetOuts (fun o => Ret (g o))))). split; [intros n Hn; now rewrite (HK n Hn)|]. now apply IH.
  - intros (N & K & HK & H). exists N, (fun n => own_out out (bind (K n) (fun _ => GetOuts (fun o => Ret (g o))))). split; [intros n Hn; now rewrite (HK n Hn)|]. now apply IH.
  - intros (N & K & HK & H). exists N, (fun n x => own_out out (bind (K n x) (fun _ => GetOuts (fun o => Ret (g o))))). split; [intros n Hn; now rewrite (HK n Hn)|]. intro x. now apply (IH x (fun n => K n x)).
  - intros (N & K & HK & H). specialize (IH out _ out (H out)). revert IH. apply conv_ext with (N := N). intros n Hn. now rewrite (HK n Hn).
  - intros (N & K & HK & H). specialize (IH _ l H). revert IH. apply conv_ext with (N := N). intros n Hn. now rewrite (HK n Hn).
  - intros (N & K & HK & H). exists N, (fun n => own_out out (bind (K n) (fun _ => GetOuts (fun o => Ret (g o))))). split; [intros n Hn; now rewrite (HK n Hn)|]. now apply IH.
  - intros (N & K & HK & H). exists N, (fun n => own_out out (bind (K n) (fun _ => GetOuts (fun o => Ret (g o))))). split; [intros n Hn; now rewrite (HK n Hn)|]. now apply IH.
Qed.
Lemma mini_text_conv pol u : mini_method (fst u) = true -> conv eq (mini_body u) (fun n => mini_text pol n u).
Proof.
  destruct u as [c out]. cbn [fst]. intro MM. unfold mini_text, mini_body. cbn [fst snd]. rewrite v3_mini_program_text.
  pose proof (body_conv _ _ _ _ (mini_call_text pol c MM)) as H. 
  set (P := fun n => go_body (sources M3) pol n (mini_go_call c)) in H.
  change (conv eq (own_out out (mini_call c)) (fun n => own_out out (bind (P n) (fun a => GetOuts (fun o => Ret (mini_answer c a o)))))).
  clearbody P.
  assert (L : (forall a o, mini_answer c a o = a) -> mini_raw c = mini_call c ->
    conv eq (own_out out (mini_call c)) (fun n => own_out out (bind (P n) (fun a => GetOuts (fun o => Ret (mini_answer c a o)))))).
  { intros E1 E2. rewrite E2 in H. now apply conv_own_look. }
  destruct c as [off o|o| | | |off r|off r|off|off| | |n|n|n| | | | | | |]; [destruct o|destruct o|..]; try (apply L; reflexivity).
  - exact (conv_own_out (fun o => RInt (hd 0 o)) _ P out H).
  - exact (conv_own_out (fun o => RNums o) _ P out H).
  - exact (conv_own_out (fun o => RInt (hd 0 o)) _ P out H).
  - exact (conv_own_out (fun o => RNums o) _ P out H).
Qed.

Lemma enough_own {A} (p : prog A) : forall out, enough any p -> enough any (own_out out p).
Proof. induction p; intros out; cbn; auto; try tauto; intros; auto; try (split; [tauto|]; apply IHp; tauto). Qed.
Lemma mini_call_enough c : mini_method c = true -> Forall exists_in_go (snd (go_call c)) -> enough any (mini_call c).
Proof.
  destruct c as [off o|o| | | |off r|off r|off|off| | |n|n|n| | | | | | |]; cbn [mini_method go_call mini_call snd];
    try destruct o; intro MM; try discriminate MM; cbn [go_opn snd mini_at mini_next]; try match goal with t : numty |- _ => destruct t end;
    cbn [MiniWriteT MiniWriteTNext MiniReadT MiniReadTNext]; intros H; args_tac H; unfold out_int, out_nums; enough_tac.
Qed.
Lemma mini_text_same pol s programs : WF s -> Forall (Forall (mini_fits s)) programs ->
  exists N, forall n, (N <= n)%nat -> matched mini_body (mini_text pol n) (start s programs) (start s programs).
Proof.
  intros W F. apply (matched_start mini_body (mini_text pol) (mini_fits s)).
  - intros u [[V _] _]. now apply mini_text_conv.
  - intros u [(V1 & V2 & _) _]. apply enough_own. apply mini_call_enough; auto. eapply valid_exists; [|exact V2]. apply W.
  - apply (wf_slice_short (heap s)); apply W.
  - exact F.
Qed.

Theorem C82_text_race_free pol s programs :
  WF s -> Forall (Forall (mini_fits s)) programs -> compatible_mini programs ->
  exists N, forall n, (N <= n)%nat -> forall tr cfg, traced (mini_text pol n) (start s programs) tr cfg -> race_free tr.
Proof.
  intros W V C. destruct (mini_text_same pol s programs W V) as [N HN]. exists N. intros n Hn tr cfg T.
  destruct (matched_traced' _ _ _ _ _ _ (HN n Hn) T) as (c2 & T2 & _). eapply C82_race_free; eauto.
Qed.
Print Assumptions C82_text_race_free.

Lemma mini_typical_fits c : mini_fits shared3 (mini_typical c).
Proof.
  destruct C74_shared as [_ V]. unfold mini_fits, mini_typical, valid_mini.
  destruct c as [off o|o| | | |off r|off r|x|x| | |n|n|n| | | | | | |]; cbn [fst snd];
    try (destruct (V CAlignBit) as [_ _]; match goal with |- context [typical ?c] => destruct (V c) as [V1 V2] end; split; [split; [try destruct x; reflexivity|split; [exact V1|try destruct x; exact I]]|exact V2]);
    destruct o; match goal with
    | |- context [At 0 (mini_typical_op (OWriteByte _))] => destruct (V (At 0 OSetBit)) as [V1 V2]
    | |- context [At 0 (mini_typical_op OReadByte)] => destruct (V (At 0 OReadBit)) as [V1 V2]
    | |- context [Next (mini_typical_op (OWriteByte _))] => destruct (V (Next OSetBit)) as [V1 V2]
    | |- context [Next (mini_typical_op OReadByte)] => destruct (V (Next OReadBit)) as [V1 V2]
    | |- context [At 0 (mini_typical_op ?o)] => destruct (V (At 0 o)) as [V1 V2]
    | |- context [Next (mini_typical_op ?o)] => destruct (V (Next o)) as [V1 V2]
    end; (split; [split; [reflexivity|split; [exact V1|]]|exact V2]); cbn; try exact I; unfold is_u64; lia.
Qed.
Theorem C82_text_conflicting_calls_race pol c d : conflicting_mini (fst (mini_typical c)) (fst (mini_typical d)) ->
  exists N, forall n, (N <= n)%nat -> exists tr cfg,
    traced (mini_text pol n) (start shared3 [[mini_typical c]; [mini_typical d]]) tr cfg /\ ~ race_free tr.
Proof.
  intro X. destruct C74_shared as [W _].
  destruct (mini_text_same pol shared3 [[mini_typical c]; [mini_typical d]] W) as [N HN].
  { repeat (apply Forall_cons || apply Forall_nil); apply mini_typical_fits. }
  exists N. intros n Hn. destruct (C82_conflicting_calls_race c d X) as (tr & cfg & T & F).
  destruct (matched_traced _ _ _ _ _ _ (HN n Hn) T) as (c2 & T2 & _). eauto.
Qed.
Print Assumptions C82_text_conflicting_calls_race.

(** ** Concrete cases *)

(** Three goroutines that keep to the bytes 0-1, 2-5 and 6-7. *)
Definition mini_ranges : list (list mini_use) :=
  [[(At 8 OSetBit, []); (At 4 (OReadBits 12), [0]); (CByteOffset, [])];
   [(At 2 (OWrite F32BE [1065353216]), []); (At 2 (ORead U16LE 2), [7; 7]); (At 40 (OSetBits 5 8), [])];
   [(At 6 (OWriteBytes (mkSlice 1 0 1 1)), []); (CBytes, [])]].
Example C82_case :
  WF shared3 /\ apart range_lo range_hi shared3 mini_ranges /\ Forall (Forall (mini_fits shared3)) mini_ranges /\ compatible_mini mini_ranges /\
  exists tr cfg, traced mini_body (start shared3 mini_ranges) tr cfg /\ finished cfg /\
    content (sh cfg) = [1; 130; 63; 128; 0; 5; 9; 8].
Proof.
  split; [apply C74_shared|].
  assert (A : apart range_lo range_hi shared3 mini_ranges).
  { split; [|split].
    - intros [|[|[|t]]]; cbn [range_lo]; lia.
    - intros [|[|[|t]]] [|[|[|u]]] N; cbn [range_lo range_hi]; try lia; try congruence.
    - assert (F : forall t cs, nth_error mini_ranges t = Some cs -> Forall (fun u => mini_fits shared3 u /\ within (range_lo t) (range_hi t) (fst u)) cs).
      { intros [|[|[|t]]] cs E; [..|destruct t; discriminate E]; injection E as <-;
        (repeat (apply Forall_cons; [unfold mini_fits, valid_mini; cbn [fst snd within reader range_lo range_hi s_len mini_method mini_opn valid_call valid_opn valid_out separate bb b_buf s_blk shared3];
          change (tsize U16LE) with 2; change (tsize F32BE) with 4; change (zlen [1065353216]) with 1;
          repeat split; try exact I; try reflexivity; try lia; try discriminate; try hyp|])); apply Forall_nil. }
      intros t cs u E J. specialize (F t cs E). rewrite Forall_forall in F. now apply F. }
  split; [exact A|]. destruct (apart_fits _ _ _ _ A) as [A1 A2]. split; [exact A1|]. split; [exact A2|].
  destruct (tsched mini_body [(0, 3); (1, 5); (2, 3); (1, 9); (0, 99); (2, 99); (1, 99)]%nat (start shared3 mini_ranges)) as [tr cfg] eqn:E.
  exists tr, cfg. split; [eapply tsched_sound; exact E|].
  vm_compute in E. injection E as <- <-. split; [repeat constructor|]. vm_compute. reflexivity.
Qed.

(** A bit just before the buffer is looked for in its first byte. *)
Example C82_conflicts :
  conflicting_mini (CGrow 4) (At 0 OReadBit) /\ conflicting_mini (Next OReadBit) (Next OReadBit) /\
  conflicting_mini (At 4 (OWrite U16LE [1])) (At 40 OFlipBit) /\ conflicting_mini (At 5 OSetBit) (At (-3) OReadBit) /\
  ~ conflicting_mini (At 4 (OWrite U16LE [1])) (At 48 OFlipBit) /\ ~ conflicting_mini CRefresh (At 0 OReadBit) /\ conflicting3 CRefresh (At 0 OReadBit).
Proof.
  repeat split.
  - exists Slice. cbn; auto.
  - exists (Fields FBoff). cbn; auto.
  - exists (Byte 5). cbn; auto.
  - exists (Byte 0). cbn; auto.
  - intros ([|[]|i] & X & Y); cbn in X, Y; try discriminate. unfold mini_span in *. change (tsize U16LE) with 2 in *. change (zlen [1]) with 1 in *.
    change (Z.quot 48 8) with 6 in *. change (Z.quot (48 + Z.max 1 1 - 1) 8) with 6 in *. lia.
  - intros ([|[]|i] & X & Y); cbn in X, Y; try discriminate; destruct Y; discriminate.
  - exists (Fields FBcap). cbn; auto.
Qed.
