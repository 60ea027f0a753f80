(** * Props_RaceMini2: data races on a v1 or v2 [MiniBuffer] shared by goroutines (C86).

    Any number of goroutines make any calls on one MiniBuffer, in any schedule.
    Every call has a variable of its own behind its [out] pointer
    ([old_use_body]).  RaceMiniSpec2.v says which parts of the buffer each call
    reads and writes; [traced] and [race_free] are in Race.v. *)
From Coq Require Import ZArith List Bool String Lia Arith ZifyBool.
From Verif Require Import GoSem Errors GoParse Conv GoEval Front Tables FrontCalls FrontMiniCalls.
From Verif Require Import Spec GoLemmas Typed Calls Abs MiniAbs OldCalls V1Calls Abs2 MiniAbs2 History Witness Conc ConcSpec ConcSched.
From Verif Require Import Race RaceLemmas RaceOld FrontOldCalls FrontOldMini Enough FrontConc RaceSpec3 Race3 RaceMiniSpec RaceMini RaceSpec RaceMiniSpec2 RaceMini2.
From Verif Require Import Props_Front Props_Mini2 Props_Race3 Props_RaceMini IsolateText Props_Race.
Import ListNotations.
Open Scope Z_scope.
Open Scope list_scope.

(** ** The variable behind the out pointer *)

(** A call with a variable of its own returns, or panics, as the call of C70 does
    with the variable [outs], and leaves the same buffer and memory. *)
Theorem C86_own_variable v pol c out s :
  run (old_use_body v pol (c, out)) s =
  match run (old_mini v pol c) (set_outs s out) with
  | Done a s' => Done a (set_outs s' (outs s))
  | Panicked e s' => Panicked e (set_outs s' (outs s))
  | Deadlock s' => Deadlock (set_outs s' (outs s))
  | Stuck => Stuck
  end.
Proof. pose proof (own_out_run (old_mini v pol c) out s) as H. unfold old_use_body. cbn [fst snd]. destruct (run (old_mini v pol c) (set_outs s out)); exact H. Qed.
Print Assumptions C86_own_variable.

(** ** Compatible calls do not race *)

(** A call that a Go program can make; its slice argument is not the buffer itself. *)
Definition old_fits (v : version) (s : St) (u : old_use) : Prop := valid_old_mini v s (fst u) (snd u) /\ separate_old s (fst u).

Theorem C86_race_free v pol s programs tr c :
  WF s -> Forall (Forall (old_fits v s)) programs -> compatible_old v programs ->
  traced (old_use_body v pol) (start s programs) tr c -> race_free tr.
Proof.
  intros W V C. apply compatible_old_race_free; auto.
  - apply W.
  - apply wf_blk; exact W.
  - pose proof (wf_cap_max s W). pose proof (wf_lencap s W). change maxAlloc with (2 ^ 48) in *. lia.
  - revert V. apply Forall_impl. intro cs. apply Forall_impl. intros u [(V1 & V2 & _) V3]. auto.
Qed.
Print Assumptions C86_race_free.

(** Goroutines that only read need no mutex. *)
Lemma old_reader_writes v c x : old_reader c -> writes_old v c x = false.
Proof. destruct c as [? o| | | | | | | | | | | | | | | | | |], x; cbn; try tauto. intro H. now rewrite H. Qed.
Lemma old_reader_separate s c : old_reader c -> separate_old s c.
Proof. destruct c as [? []| | | | | | | | | | | | | | | | | |]; cbn; tauto || discriminate. Qed.
Theorem C86_readers v pol s programs tr c :
  WF s -> Forall (Forall (fun u : old_use => valid_old_mini v s (fst u) (snd u) /\ old_reader (fst u))) programs ->
  traced (old_use_body v pol) (start s programs) tr c -> race_free tr.
Proof.
  intros W V. apply C86_race_free; auto.
  - revert V. apply Forall_impl. intro cs. apply Forall_impl. intros u [V R]. split; auto. now apply old_reader_separate.
  - intros t u cs ds d e N E1 E2 I1 I2 (x & X & _). apply nth_error_In in E1.
    rewrite Forall_forall in V. specialize (V cs E1). rewrite Forall_forall in V. destruct (V d I1) as [_ R]. now rewrite old_reader_writes in X by auto.
Qed.
Print Assumptions C86_readers.

(** Goroutines that keep to disjoint ranges of bytes need no mutex. *)
Lemma old_within_bytes v lo hi c i : 0 <= lo -> old_within lo hi c -> reads_old v c (Byte i) = true \/ writes_old v c (Byte i) = true -> lo <= i < hi.
Proof.
  intros L H X. destruct c as [off o|o| | | |off r|off r|[off|]|[off|]| | |n| | | | | | |]; cbn in H; try contradiction;
    try (cbn in X; intuition congruence).
  assert (S : old_span v off o i = true) by (cbn in X; destruct X as [X|X]; [auto|now apply andb_true_iff in X]). clear X.
  unfold old_span in S. apply andb_true_iff in S as [_ S].
  destruct o as [|n|?|? n| |?|n|?| |t d|t n]; cbn in H; try discriminate; try contradiction;
    try (rewrite !Z.quot_div_nonneg in S by (try destruct v; lia); try destruct v; Z.div_mod_to_equations; lia); try lia.
  destruct t, v; cbn [fmt] in *; match goal with |- context [tsize ?x] => let y := eval cbv in (tsize x) in change (tsize x) with y in * | _ => idtac end;
  match goal with _ : context [tsize ?x] |- _ => let y := eval cbv in (tsize x) in change (tsize x) with y in * end; lia.
Qed.
Lemma old_within_others v lo hi c x : old_within lo hi c -> writes_old v c x = true -> exists i, x = Byte i.
Proof.
  intros H X. destruct x as [|f|i]; [| |eauto]; exfalso;
  destruct c as [off o|o| | | |off r|off r|[off|]|[off|]| | |n| | | | | | |]; cbn in H, X; try contradiction; discriminate.
Qed.
Definition old_apart (v : version) (lo hi : nat -> Z) (s : St) (programs : list (list old_use)) : Prop :=
  (forall t, 0 <= lo t) /\ (forall t u, t <> u -> hi t <= lo u \/ hi u <= lo t) /\
  forall t cs u, nth_error programs t = Some cs -> In u cs -> old_fits v s u /\ old_within (lo t) (hi t) (fst u).
Lemma old_apart_fits v lo hi s programs : old_apart v lo hi s programs -> Forall (Forall (old_fits v s)) programs /\ compatible_old v programs.
Proof.
  intros (L & D & H). split.
  - apply Forall_forall. intros cs I. apply Forall_forall. intros u J. apply In_nth_error in I as [t E]. now apply (H t cs u).
  - intros t u cs ds d e N E1 E2 I1 I2 (x & X & Y).
    destruct (H t cs d E1 I1) as [_ F1]. destruct (H u ds e E2 I2) as [_ F2].
    destruct (old_within_others _ _ _ _ _ F1 X) as [i ->].
    pose proof (old_within_bytes _ _ _ _ i (L t) F1 (or_intror X)). pose proof (old_within_bytes _ _ _ _ i (L u) F2 Y).
    specialize (D t u N). lia.
Qed.
Theorem C86_disjoint_ranges v pol s programs (lo hi : nat -> Z) tr c :
  WF s -> old_apart v lo hi s programs -> traced (old_use_body v pol) (start s programs) tr c -> race_free tr.
Proof. intros W A. destruct (old_apart_fits _ _ _ _ _ A). now apply C86_race_free. Qed.
Print Assumptions C86_disjoint_ranges.

(** ** Calls that are not compatible race *)

(** The typical calls of C72. *)
Definition old_typical (c : call2 slice) : old_use := (typical c, [0]).
Definition old_typical_calls (v : version) : list old_use := map (fun c => (c, [0])) (filter (old_mini_method v) typical_calls).
Lemma typical_method v c : old_mini_method v (typical c) = old_mini_method v c.
Proof. destruct c as [? []|[]| | | |? ?|? ?|[]|[]| | |?| | | | | | |]; reflexivity. Qed.
Lemma old_typical_listed v c : old_mini_method v c = true -> In (old_typical c) (old_typical_calls v).
Proof.
  intro MM. unfold old_typical_calls, old_typical. apply (in_map (fun c => (c, [0]))). apply filter_In.
  split; [apply typical_listed|now rewrite typical_method].
Qed.
Definition oconflictb (v : version) (c d : old_use) : bool :=
  existsb (fun x => if writes_old v (fst c) x then reads_old v (fst d) x || writes_old v (fst d) x else false) pieces.
Lemma old_first_byte v c : In c (old_typical_calls v) -> forall i,
  (reads_old v (fst c) (Byte i) = true -> reads_old v (fst c) (Byte 0) = true) /\ (writes_old v (fst c) (Byte i) = true -> writes_old v (fst c) (Byte 0) = true).
Proof.
  assert (F : Forall (fun c : old_use => (reads_old v (fst c) (Byte 0) = true \/ forall i, reads_old v (fst c) (Byte i) = false) /\
                               (writes_old v (fst c) (Byte 0) = true \/ forall i, writes_old v (fst c) (Byte i) = false)) (old_typical_calls v)).
  { destruct v; unfold old_typical_calls, typical_calls, typical_ops, Props_Race.formats; cbn [map app filter old_mini_method old_mini_op];
    (repeat (apply Forall_cons; [split; first [left; vm_compute; reflexivity|right; intros; cbn; unfold old_span; rewrite ?andb_false_r; reflexivity]|])); apply Forall_nil. }
  intros I i. rewrite Forall_forall in F. destruct (F c I) as [[A|A] [B|B]]; split; auto; intro X; rewrite ?A, ?B in X; discriminate.
Qed.
Lemma oconflictb_true v c d : In c (old_typical_calls v) -> In d (old_typical_calls v) -> conflicting_old v (fst c) (fst d) -> oconflictb v c d = true.
Proof.
  intros C D (x & W & B). apply existsb_exists.
  assert (H : exists y, In y pieces /\ writes_old v (fst c) y = true /\ (reads_old v (fst d) y = true \/ writes_old v (fst d) y = true)).
  { destruct x as [|f|i].
    - exists Slice. cbn. auto.
    - exists (Fields f). split; [destruct f; cbn; auto 10|auto].
    - exists (Byte 0). split; [cbn; auto 10|]. split; [now apply (old_first_byte v c C i)|].
      destruct B as [B|B]; [left|right]; now apply (old_first_byte v d D i). }
  destruct H as (y & I & W' & B'). exists y. split; auto. rewrite W'. now apply orb_true_iff.
Qed.
(** How much memory [Grow] takes after [Reset] is up to the runtime; this pair comes
    below. *)
Definition reset_grow (c d : old_use) : bool := match fst c, fst d with KReset, KGrow _ => true | _, _ => false end.
Definition old_all_race (v : version) (pol : Z -> Z -> Z) (l : list old_use) : bool :=
  forallb (fun c => let x := accesses 99 (old_use_body v pol c) shared in
    forallb (fun d => if reset_grow c d then true else if oconflictb v c d then second_races x (old_use_body v pol d) else true) l) l.
Lemma old_all_race_in v pol l c d : old_all_race v pol l = true -> In c l -> In d l -> reset_grow c d = false -> oconflictb v c d = true ->
  second_races (accesses 99 (old_use_body v pol c) shared) (old_use_body v pol d) = true.
Proof.
  intros H C D R X. unfold old_all_race in H. rewrite forallb_forall in H. specialize (H c C). cbv beta zeta in H.
  rewrite forallb_forall in H. specialize (H d D). cbv beta in H. now rewrite R, X in H.
Qed.
Lemma all_race_mini1 pol : old_all_race V1 pol (old_typical_calls V1) = true.
Proof. vm_cast_no_check (eq_refl true). Qed.
Lemma all_race_mini2 pol : old_all_race V2 pol (old_typical_calls V2) = true.
Proof. vm_cast_no_check (eq_refl true). Qed.
Lemma reset_grow_race v pol c d : old_mini_method v (fst c) = true -> reset_grow c d = true ->
  exists tr cfg, traced (old_use_body v pol) (start shared [[c]; [d]]) tr cfg /\ ~ race_free tr.
Proof.
  destruct c as [c o], d as [d o']. cbn. destruct c; try discriminate. destruct d; try discriminate. destruct v; intros MM _; [discriminate MM|].
  assert (P : forall x : list access * (prog (rv slice) * St), x = (fst x, (fst (snd x), snd (snd x)))) by (intros [? [? ?]]; reflexivity).
  eapply (in_turn (f := 99) (g := 1) (old_use_body V2 pol) _ _ shared _ _ _ _ _ _ (Wr LHeader) (Rd LHeader)); [apply P|apply P|..].
  - vm_cast_no_check (eq_refl true).
  - vm_cast_no_check (eq_refl true).
  - assert (E : fst (accesses 99 (old_use_body V2 pol (KReset, o)) shared) = New 2 :: map Wr [LHeader; LField FOff; LField FBoff; LField FCap; LField FBcap]) by (vm_compute; reflexivity).
    rewrite E. cbn. auto.
  - assert (E : fst (accesses 1 (old_use_body V2 pol (KGrow n, o')) (snd (snd (accesses 99 (old_use_body V2 pol (KReset, o)) shared)))) = [Rd LHeader]) by (vm_cast_no_check (eq_refl [Rd LHeader])).
    rewrite E. cbn. auto.
  - exists LHeader. left. split; [reflexivity|left; reflexivity].
Qed.

(** For every two methods whose calls at the first byte are in conflict there is a
    schedule in which these calls race. *)
Theorem C86_conflicting_calls_race v pol c d :
  old_mini_method v c = true -> old_mini_method v d = true -> conflicting_old v (typical c) (typical d) ->
  exists tr cfg, traced (old_use_body v pol) (start shared [[old_typical c]; [old_typical d]]) tr cfg /\ ~ race_free tr.
Proof.
  intros M1 M2 X. destruct (reset_grow (old_typical c) (old_typical d)) eqn:R.
  - apply reset_grow_race; auto. cbn [old_typical fst]. now rewrite typical_method.
  - apply in_turn_sound. apply (old_all_race_in v pol (old_typical_calls v)); auto using old_typical_listed, oconflictb_true.
    destruct v; [apply all_race_mini1|apply all_race_mini2].
Qed.
Print Assumptions C86_conflicting_calls_race.

(** Two reads race if they store through the same pointer. *)
Theorem C86_one_variable_races v pol :
  exists tr cfg, traced (old_mini v pol) (start shared [[At2 0 (PReadBits 3)]; [At2 8 (PReadBits 3)]]) tr cfg /\ ~ race_free tr.
Proof.
  destruct (accesses 99 (old_mini v pol (At2 0 (PReadBits 3))) shared) as [la [p1 s1]] eqn:E1.
  destruct (accesses 99 (old_mini v pol (At2 8 (PReadBits 3))) s1) as [lb [p2 s2]] eqn:E2.
  eapply (in_turn (f := 99) (g := 99) (old_mini v pol) _ _ shared la p1 s1 lb p2 s2 (Wr LOut) (Wr LOut)); auto.
  5: { exists LOut. left. split; [reflexivity|right; reflexivity]. }
  all: destruct v; vm_compute in E1; injection E1 as <- <- <-; vm_compute in E2; injection E2 as <- <- <-; try reflexivity; cbn [In]; auto 10.
Qed.
Print Assumptions C86_one_variable_races.

(** ** The Go text *)

(** The call in v1/minibuf.go or v2/minibuf.go; the caller then looks at its variable. *)
Definition old_use_text (v : version) (pol : Z -> Z -> Z) (n : nat) (u : old_use) : prog (rv slice) :=
  own_out (snd u) (then_find (finds_old v (fst u)) (go_body (old_mini_program v) pol n (old_mini_go_call v (fst u)))).

Lemma conv_own (T : prog (rv slice)) : forall P out,
  conv eq T P -> conv eq (own_out out T) (fun n => own_out out (P n)).
Proof.
  conv_cases T IH; intros P out; cbn [conv own_out]; auto.
  - intros (N & b & <- & H). exists N, a. split; auto. intros n Hn. now rewrite (H n Hn).
  - intros (N & H). exists N. intros n Hn. now rewrite (H n Hn).
  - intros (N & K & HK & H). exists N, (fun n x => own_out out (K n x)). split; [intros n Hn; now rewrite (HK n Hn)|]. intro x. now apply (IH x (fun n => K n x)).
  - intros (N & K & HK & H). exists N, (fun n => own_out out (K n)). split; [intros n Hn; now rewrite (HK n Hn)|]. now apply IH.
  - intros (N & K & HK & H). exists N, (fun n x => own_out out (K n x)). split; [intros n Hn; now rewrite (HK n Hn)|]. intro x. now apply (IH x (fun n => K n x)).
  - intros (N & K & HK & H). exists N, (fun n => own_out out (K n)). split; [intros n Hn; now rewrite (HK n Hn)|]. now apply IH.
  - intros (N & K & HK & H). exists N, (fun n x => own_out out (K n x)). split; [intros n Hn; now rewrite (HK n Hn)|]. intro x. now apply (IH x (fun n => K n x)).
  - intros (N & K & HK & H). exists N, (fun n => own_out out (K n)). split; [intros n Hn; now rewrite (HK n Hn)|]. now apply IH.
  - intros (N & K & HK & H). exists N, (fun n => own_out out (K n)). split; [intros n Hn; now rewrite (HK n Hn)|]. now apply IH.
  - intros (N & K & HK & H). exists N, (fun n x => own_out out (K n x)). split; [intros n Hn; now rewrite (HK n Hn)|]. intro x. now apply (IH x (fun n => K n x)).
  - intros (N & K & HK & H). specialize (IH out _ out (H out)). revert IH. apply conv_ext with (N := N). intros n Hn. now rewrite (HK n Hn).
  - intros (N & K & HK & H). specialize (IH _ l H). revert IH. apply conv_ext with (N := N). intros n Hn. now rewrite (HK n Hn).
  - intros (N & K & HK & H). exists N, (fun n => own_out out (K n)). split; [intros n Hn; now rewrite (HK n Hn)|]. now apply IH.
  - intros (N & K & HK & H). exists N, (fun n => own_out out (K n)). split; [intros n Hn; now rewrite (HK n Hn)|]. now apply IH.
Qed.
Lemma old_use_text_conv v pol u : old_mini_method v (fst u) = true -> conv eq (old_use_body v pol u) (fun n => old_use_text v pol n u).
Proof.
  destruct u as [c out]. cbn [fst]. intro MM. unfold old_use_text, old_use_body. cbn [fst snd]. rewrite old_mini_program_text.
  pose proof (body_conv _ _ _ _ (old_mini_text v pol c MM)) as H.
  set (P := fun n => go_body (sources (old_mini_package v)) pol n (old_mini_go_call v c)) in H.
  change (conv eq (own_out out (old_mini v pol c)) (fun n => own_out out (then_find (finds_old v c) (P n)))). clearbody P.
  destruct v, c as [off q|q| | | |off r|off r|off|off| | |n| | | | | | |]; try destruct q; try (exact (conv_own _ P out H));
    cbn [old_mini mini1_call mini2_call mini1_at mini1_next mini2_at mini2_next finds_old then_find]; unfold out_int, out_nums;
    first [exact (conv_own_out (fun o => RInt (hd 0 o)) _ P out H)|exact (conv_own_out (fun o => RNums o) _ P out H)].
Qed.
Lemma old_text_same v pol s programs : WF s -> Forall (Forall (old_fits v s)) programs ->
  exists N, forall n, (N <= n)%nat -> matched (old_use_body v pol) (old_use_text v pol n) (start s programs) (start s programs).
Proof.
  intros W F. apply (matched_start (old_use_body v pol) (old_use_text v pol) (old_fits v s)).
  - intros u [[V _] _]. now apply old_use_text_conv.
  - intros u [(V1 & V2 & _) _]. apply enough_own. apply old_mini_enough; auto. eapply valid2_exists; [|exact V2]. apply W.
  - apply (wf_slice_short (heap s)); apply W.
  - exact F.
Qed.

Theorem C86_text_race_free v pol s programs :
  WF s -> Forall (Forall (old_fits v s)) programs -> compatible_old v programs ->
  exists N, forall n, (N <= n)%nat -> forall tr cfg, traced (old_use_text v pol n) (start s programs) tr cfg -> race_free tr.
Proof.
  intros W V C. destruct (old_text_same v pol s programs W V) as [N HN]. exists N. intros n Hn tr cfg T.
  destruct (matched_traced' _ _ _ _ _ _ (HN n Hn) T) as (c2 & T2 & _). eapply C86_race_free; eauto.
Qed.
Print Assumptions C86_text_race_free.

Lemma old_typical_fits v c : old_mini_method v c = true -> old_fits v shared (old_typical c).
Proof.
  intro MM. destruct C72_shared as (_ & _ & V). specialize (V c). unfold old_fits, old_typical, valid_old_mini. cbn [fst snd]. rewrite typical_method.
  split; [split; [exact MM|split; [exact V|]]|]; destruct c as [? []|[]| | | |? ?|? ?|[]|[]| | |?| | | | | | |]; cbn; try exact I; try discriminate; unfold is_u64; lia.
Qed.
Theorem C86_text_conflicting_calls_race v pol c d :
  old_mini_method v c = true -> old_mini_method v d = true -> conflicting_old v (typical c) (typical d) ->
  exists N, forall n, (N <= n)%nat -> exists tr cfg,
    traced (old_use_text v pol n) (start shared [[old_typical c]; [old_typical d]]) tr cfg /\ ~ race_free tr.
Proof.
  intros M1 M2 X. destruct C72_shared as [W _].
  destruct (old_text_same v pol shared [[old_typical c]; [old_typical d]] W) as [N HN].
  { repeat (apply Forall_cons || apply Forall_nil); now apply old_typical_fits. }
  exists N. intros n Hn. destruct (C86_conflicting_calls_race v pol c d M1 M2 X) as (tr & cfg & T & F).
  destruct (matched_traced _ _ _ _ _ _ (HN n Hn) T) as (c2 & T2 & _). eauto.
Qed.
Print Assumptions C86_text_conflicting_calls_race.

(** ** Concrete cases *)

(** Three goroutines that keep to the bytes 0-1, 2-5 and 6-7. *)
Definition old_ranges : list (list old_use) :=
  [[(At2 8 (PSetBit 1), []); (At2 4 (PReadBits 12), [0]); (KOffset, [])];
   [(At2 2 (PWrite NU32BE [1065353216]), []); (At2 2 (PRead NU16LE 2), [7; 7]); (At2 40 (PSetBits 5 8), [])];
   [(At2 6 (PWriteBytes (mkSlice 1 0 1 1)), []); (KBytes, [])]].
Example C86_case v pol :
  WF shared /\ old_apart v range_lo range_hi shared old_ranges /\ Forall (Forall (old_fits v shared)) old_ranges /\ compatible_old v old_ranges /\
  exists tr cfg, traced (old_use_body v pol) (start shared old_ranges) tr cfg /\ finished cfg /\
    firstn 8 (content (sh cfg)) = [1; 130; 63; 128; 0; 5; 9; 8].
Proof.
  split; [apply C72_shared|].
  assert (A : old_apart v range_lo range_hi shared old_ranges).
  { split; [|split].
    - intros [|[|[|t]]]; cbn [range_lo]; lia.
    - intros [|[|[|t]]] [|[|[|u]]] N; cbn [range_lo range_hi]; try lia; try congruence.
    - assert (F : forall t cs, nth_error old_ranges t = Some cs -> Forall (fun u => old_fits v shared u /\ old_within (range_lo t) (range_hi t) (fst u)) cs).
      { intros [|[|[|t]]] cs E; [..|destruct t; discriminate E]; injection E as <-;
        (repeat (apply Forall_cons; [unfold old_fits, valid_old_mini; cbn [fst snd old_within range_lo range_hi s_len old_mini_method old_mini_op valid_call2 valid_op2 valid_old_out separate_old bb b_buf s_blk shared fmt];
          change (tsize U16LE) with 2; change (tsize U32BE) with 4; change (zlen [1065353216]) with 1;
          repeat split; try exact I; try reflexivity; try lia; try discriminate; try hyp|])); apply Forall_nil. }
      intros t cs u E J. specialize (F t cs E). rewrite Forall_forall in F. now apply F. }
  split; [exact A|]. destruct (old_apart_fits _ _ _ _ _ A) as [A1 A2]. split; [exact A1|]. split; [exact A2|].
  destruct (tsched (old_use_body v pol) [(0, 3); (1, 5); (2, 3); (1, 9); (0, 99); (2, 99); (1, 99)]%nat (start shared old_ranges)) as [tr cfg] eqn:E.
  exists tr, cfg. split; [eapply tsched_sound; exact E|].
  destruct v; vm_compute in E; injection E as <- <-; (split; [repeat constructor|]); vm_compute; reflexivity.
Qed.

(** A v2 call that sets no bits still looks at one; a v1 call does not. *)
Example C86_conflicts :
  conflicting_old V1 (KGrow 4) (At2 0 PReadBit) /\ conflicting_old V2 (Next2 PReadBit) (Next2 PReadBit) /\
  conflicting_old V2 (At2 5 (PSetBits 1 0)) (At2 0 PReadBit) /\ ~ conflicting_old V1 (At2 5 (PSetBits 1 0)) (At2 0 PReadBit) /\
  conflicting_old V1 (At2 4 (PWrite NU16LE [1])) (At2 40 PFlipBit) /\ conflicting_old V2 (At2 5 (PSetBit 1)) (At2 (-3) PReadBit) /\
  ~ conflicting_old V2 (At2 4 (PWrite NU16LE [1])) (At2 48 PFlipBit) /\ ~ conflicting_old V1 KRefresh (At2 0 PReadBit).
Proof.
  repeat split.
  - exists Slice. cbn; auto.
  - exists (Fields FBoff). cbn; auto.
  - exists (Byte 0). cbn; auto.
  - intros ([|[]|i] & X & Y); cbn in X, Y; try discriminate. unfold old_span in X. now rewrite andb_false_r in X.
  - exists (Byte 5). cbn; auto.
  - exists (Byte 0). cbn; auto.
  - intros ([|[]|i] & X & Y); cbn in X, Y; try discriminate. unfold old_span in *. change (tsize (fmt NU16LE)) with 2 in *. change (zlen [1]) with 1 in *.
    change (Z.quot 48 8) with 6 in *. change (Z.quot (48 + 1 - 1) 8) with 6 in *. lia.
  - intros ([|[]|i] & X & Y); cbn in X, Y; try discriminate; destruct Y; discriminate.
Qed.
