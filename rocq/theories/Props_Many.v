(** * Props_Many: programs with any number of buffers, of any version (C80).

    The program is the Go text of all three versions (Many.v).  The specification
    is a list of abstract machines in which a call on one of them touches no other. *)
From Coq Require Import ZArith List Bool String Lia ZifyBool.
From Verif Require Import GoSem Errors GoParse Conv GoEval Front Tables FrontCalls.
From Verif Require Import Spec GoLemmas V3BitLemmas V3ByteLemmas Typed Calls Abs Frame Sim History NewBuf MiniAbs MiniHistory
  TypedReadLemmas MiniLemmas MiniSim OldCalls V2Lemmas V2Agree V1Calls ConcSpec Abs2 Sim2 Hist2 MiniAbs2 MiniSim2 MiniHist2
  FrontOldCalls FrontOldMini Many.
From Verif Require V3Buffer Props_Front Props_Old Props_Abs2 Props_Mini2.
Import ListNotations.
Open Scope Z_scope.
Open Scope list_scope.

Import Props_Front Props_Abs2 Props_Mini2.

(** C80: a program starts without buffers, in any memory.  It makes buffers of any
    of the six types, calls any methods of any of them in any order, passes slices
    of one to another, and writes bytes of memory itself.  Then the caller sees what
    the list of abstract machines answers, and the buffers end in its states. *)
Theorem C80_histories pol m es vs os w :
  wf_heap m -> whistory pol es (mkWorld m []) vs os w ->
  separate w /\ arun pol vs [] = Some (os, abs_world w).
Proof.
  intros Hm H. destruct (whistory_refines pol es (mkWorld m []) vs os w) as (_ & S & R); auto.
  - split; [exact Hm|constructor].
  - intros i j x y _ E. destruct i; discriminate E.
Qed.
Print Assumptions C80_histories.

(** C80: the same from any world in which no two buffers share memory. *)
Theorem C80_histories_from pol es w vs os w' :
  wf_world w -> separate w -> whistory pol es w vs os w' ->
  wf_world w' /\ separate w' /\ arun pol vs (abs_world w) = Some (os, abs_world w').
Proof. apply whistory_refines. Qed.
Print Assumptions C80_histories_from.

(** C80: every event has exactly one outcome, whether or not buffers share memory. *)
Theorem C80_every_event_ends pol w e : wf_world w -> valid_w w e ->
  exists a w', wstep pol e w a w' /\ wf_world w' /\ forall b w'', wstep pol e w b w'' -> b = a /\ w'' = w'.
Proof.
  intros W V. destruct (wstep_exists pol w e W V) as (a & w' & H & U). exists a, w'. split; [exact H|]. split; [|exact U].
  eapply wstep_WF; eauto.
Qed.
Print Assumptions C80_every_event_ends.

(** ** Alone *)

(** What happens to buffer [i], and what the caller sees of it. *)
Fixpoint events_of (i : nat) (vs : list awevent) : list awevent :=
  match vs with
  | [] => []
  | AWCall j q :: r => if (j =? i)%nat then AWCall 0 q :: events_of i r else events_of i r
  | AWPoke j k x :: r => if (j =? i)%nat then AWPoke 0 k x :: events_of i r else events_of i r
  | AWNew _ _ _ :: r => events_of i r
  end.
Fixpoint answers_of (i : nat) (os : list wanswer) : list wanswer :=
  match os with
  | [] => []
  | Called j a :: r => if (j =? i)%nat then Called 0 a :: answers_of i r else answers_of i r
  | NotMade _ :: r => answers_of i r
  end.

Lemma events_of_app i a b : events_of i (a ++ b) = events_of i a ++ events_of i b.
Proof. induction a as [|[] a IH]; cbn; auto; destruct (_ =? _)%nat; cbn; now rewrite IH. Qed.
Lemma answers_of_app i a b : answers_of i (a ++ b) = answers_of i a ++ answers_of i b.
Proof. induction a as [|[] a IH]; cbn; auto; destruct (_ =? _)%nat; cbn; now rewrite IH. Qed.

Lemma arun1_alone pol e l o l' i x : arun1 pol e l = Some (o, l') -> nth_error l i = Some x ->
  exists x', nth_error l' i = Some x' /\ arun pol (events_of i [e]) [x] = Some (answers_of i o, [x']).
Proof.
  intros E Ex. destruct e as [k bytes spare|j q|j k y]; cbn [arun1 events_of] in *.
  - destruct (_ <=? _); injection E as <- <-; exists x; split; try reflexivity; [|exact Ex].
    rewrite nth_error_app1; [exact Ex|]. apply nth_error_Some. congruence.
  - destruct (nth_error l j) as [z|] eqn:Ez; [|discriminate]. destruct (astep pol q z) as [[a z']|] eqn:Ea; [|discriminate].
    injection E as <- <-. rewrite nth_replace by (apply nth_error_Some; congruence). cbn [answers_of].
    destruct (Nat.eqb_spec j i) as [->|N].
    + rewrite Nat.eqb_refl. exists z'. split; [reflexivity|]. assert (z = x) by congruence. subst z.
      cbn [arun arun1 nth_error]. rewrite Ea. cbn [replace app]. destruct (stops _); reflexivity.
    + destruct (Nat.eqb_spec i j); [congruence|]. exists x. split; [exact Ex|reflexivity].
  - destruct (nth_error l j) as [z|] eqn:Ez; [|discriminate]. injection E as <- <-.
    rewrite nth_replace by (apply nth_error_Some; congruence). cbn [answers_of].
    destruct (Nat.eqb_spec j i) as [->|N].
    + rewrite Nat.eqb_refl. eexists. split; [reflexivity|]. assert (z = x) by congruence. subst z. reflexivity.
    + destruct (Nat.eqb_spec i j); [congruence|]. exists x. split; [exact Ex|reflexivity].
Qed.

Lemma stops_answers_of i o : existsb (fun a => stops [a]) o = false -> existsb (fun a => stops [a]) (answers_of i o) = false.
Proof.
  induction o as [|[j a|e] o IH]; intros H; auto.
  cbn [existsb] in H. apply orb_false_iff in H as [H1 H2]. cbn [answers_of]. destruct (_ =? _)%nat; [|auto].
  cbn [existsb]. rewrite IH by exact H2. now rewrite orb_false_r.
Qed.

Lemma arun_alone pol es : forall l o l' i x, arun pol es l = Some (o, l') -> existsb (fun a => stops [a]) o = false ->
  nth_error l i = Some x ->
  exists x', nth_error l' i = Some x' /\ arun pol (events_of i es) [x] = Some (answers_of i o, [x']).
Proof.
  induction es as [|e r IH]; intros l o l' i x E NB Ex; cbn [arun] in E.
  - injection E as <- <-. exists x. auto.
  - destruct (arun1 pol e l) as [[o1 l1]|] eqn:E1; [|discriminate].
    destruct (arun1_alone pol e l o1 l1 i x E1 Ex) as (x1 & Ex1 & R1).
    assert (N1 : stops o1 = false /\ existsb (fun a => stops [a]) o1 = false /\
      exists o2, arun pol r l1 = Some (o2, l') /\ o = o1 ++ o2 /\ existsb (fun a => stops [a]) o2 = false).
    { assert (S1 : stops o1 = true -> existsb (fun a => stops [a]) o1 = true).
      { intro S1. destruct o1 as [|[j [| |[]]|] []]; cbn in *; congruence. }
      destruct (stops o1). { injection E as <- <-. rewrite S1 in NB by reflexivity. discriminate. }
      destruct (arun pol r l1) as [[o2 l2]|] eqn:E2; [|discriminate]. injection E as <- <-.
      rewrite existsb_app in NB. apply orb_false_iff in NB as [N1 N2]. eauto 8. }
    destruct N1 as (_ & N1 & o2 & E2 & -> & N2). clear E NB.
    destruct (IH l1 o2 l' i x1 E2 N2 Ex1) as (x' & Ex' & R').
    exists x'. split; [exact Ex'|]. change (e :: r) with ([e] ++ r).
    rewrite events_of_app, arun_app, R1, (stops_answers_of i o1 N1), R', answers_of_app. reflexivity.
Qed.

(** C80: in such a program each buffer behaves as if it were alone: its answers and
    its final state are those of its own machine, given its own calls with the bytes
    passed to them and the caller's own writes to its bytes.  What the program does
    with the other buffers makes no difference. *)
Theorem C80_alone pol es w vs os w' i o :
  wf_world w -> separate w -> whistory pol es w vs os w' -> nth_error (objects w) i = Some o ->
  exists o', nth_error (objects w') i = Some o' /\
    arun pol (events_of i vs) [abs_object (memory w) o] = Some (answers_of i os, [abs_object (memory w') o']).
Proof.
  intros W Sp H. revert W Sp o. induction H as [w|e es w a w1 vs os w2 V O St NB Hh IH|e es w a w1 V O St NB]; intros W Sp o Eo.
  - exists o. auto.
  - pose proof (wstep_WF _ _ _ _ _ W V St) as W1. pose proof (wstep_separate _ _ _ _ _ W Sp V O St) as S1.
    pose proof (wstep_refines _ _ _ _ _ W Sp V St) as R. rewrite (wstep_stops _ _ _ _ _ St) in NB.
    destruct (arun_alone pol _ _ _ _ i (abs_object (memory w) o) R NB) as (x1 & Ex1 & R1).
    { unfold abs_world. now rewrite nth_error_map, Eo. }
    unfold abs_world in Ex1. rewrite nth_error_map in Ex1. destruct (nth_error (objects w1) i) as [o1|] eqn:Eo1; [|discriminate].
    cbn [option_map] in Ex1. injection Ex1 as <-.
    destruct (IH W1 S1 o1 eq_refl) as (o' & Eo' & R').
    exists o'. split; [exact Eo'|]. rewrite events_of_app, arun_app, R1, (stops_answers_of i a NB), R', answers_of_app. reflexivity.
  - pose proof (wstep_refines _ _ _ _ _ W Sp V St) as R.
    destruct St as [k slices w b0 s1 Q|k slices w b0 e s1 Q|j q w y a s' E C|b j x w h E|l w]; try discriminate NB.
    cbn [view_w] in *. rewrite E in *.
    assert (R1 : arun1 pol (AWCall j (view_request (state_of (memory w) y) q)) (abs_world w) =
      Some ([Called j a], abs_world (mkWorld (heap s') (replace j (mkObject (o_kind y) (bb s') (mu s')) (objects w))))).
    { cbn [arun] in R. destruct (arun1 _ _ _) as [[o1 l1]|]; [|discriminate].
      rewrite app_nil_r in R. destruct (stops o1); exact R. }
    destruct (arun1_alone pol _ _ _ _ i (abs_object (memory w) o) R1) as (x1 & Ex1 & R2).
    { unfold abs_world. now rewrite nth_error_map, Eo. }
    unfold abs_world in Ex1. rewrite nth_error_map in Ex1.
    destruct (nth_error (objects (mkWorld (heap s') (replace j (mkObject (o_kind y) (bb s') (mu s')) (objects w)))) i) as [o1|] eqn:Eo1; [|discriminate].
    cbn [option_map] in Ex1. injection Ex1 as <-. exists o1. auto.
Qed.
Print Assumptions C80_alone.

(** ** Shared memory *)

(** All the bytes behind a buffer: its content, then its spare capacity. *)
Definition reach (m : heap_t) (o : object) : list Z :=
  a_bytes (ao_buf (abs_object m o)) ++ a_spare (ao_buf (abs_object m o)).

Lemma reach_mem m o b k : WF (state_of m o) -> behind (b_buf (o_buf o)) b k ->
  byte_at (reach m o) (k - s_off (b_buf (o_buf o))) = mem m b k.
Proof.
  intros W [-> Hk]. unfold reach. cbn [abs_object ao_buf abs a_bytes a_spare].
  pose proof (array_split _ W) as A. cbn [state_of heap bb] in A. rewrite <- A.
  pose proof (wf_off0 _ W). pose proof (wf_in _ W). cbn [state_of heap bb] in *.
  rewrite byte_at_sub by lia. unfold mem. f_equal. lia.
Qed.

(** C80: if buffers do share memory, a call on one of them leaves the fields of
    the others alone and all their bytes that are not behind it; and a byte
    that is behind both afterwards is the same through both. *)
Theorem C80_shared pol w i q a w' j x x' y :
  wf_world w -> valid_w w (WCall i q) -> wstep pol (WCall i q) w a w' -> i <> j ->
  nth_error (objects w) i = Some x -> nth_error (objects w') i = Some x' -> nth_error (objects w) j = Some y ->
  nth_error (objects w') j = Some y /\
  forall b k, behind (b_buf (o_buf y)) b k ->
    (~ behind (b_buf (o_buf x)) b k ->
     byte_at (reach (memory w') y) (k - s_off (b_buf (o_buf y))) = byte_at (reach (memory w) y) (k - s_off (b_buf (o_buf y)))) /\
    (behind (b_buf (o_buf x')) b k ->
     byte_at (reach (memory w') y) (k - s_off (b_buf (o_buf y))) = byte_at (reach (memory w') x') (k - s_off (b_buf (o_buf x')))).
Proof.
  intros W V St N Ex Ex' Ey. pose proof (wstep_WF _ _ _ _ _ W V St) as [Wh' W'].
  destruct W as [Wh W]. rewrite Forall_nth_error in W, W'.
  inversion St as [| |? ? ? o a' s' E C| |]; subst. assert (o = x) by congruence. subst o.
  destruct V as (o & E2 & V). assert (o = x) by congruence. subst o.
  destruct (one_call_ok pol _ q _ (W _ _ Ex) V) as (a2 & s2 & C2 & (W2 & [L F] & _) & _).
  destruct (one_call_unique _ _ _ _ _ _ _ _ C C2) as [<- <-]. cbn [memory objects] in *.
  assert (Ey' : nth_error (replace i (mkObject (o_kind x) (bb s') (mu s')) (objects w)) j = Some y).
  { rewrite nth_replace by (apply nth_error_Some; congruence). destruct (Nat.eqb_spec j i); [congruence|exact Ey]. }
  split; [exact Ey'|]. intros b k B. pose proof (W _ _ Ey) as Wy. pose proof (W' _ _ Ey') as Wy'.
  rewrite (reach_mem (heap s') y b k Wy' B), (reach_mem (memory w) y b k Wy B). split.
  - intros NB. destruct (F b (WF_in _ _ Wy _ _ B)) as [_ G]. apply G.
    + destruct B as [-> B]. pose proof (wf_off0 _ Wy). cbn [state_of bb] in *. lia.
    + unfold behind in NB. cbn [state_of bb]. destruct (Nat.eq_dec b (s_blk (b_buf (o_buf x)))); [right|left; assumption].
      assert (~ (s_off (b_buf (o_buf x)) <= k < s_off (b_buf (o_buf x)) + s_cap (b_buf (o_buf x)))) by (intro; apply NB; auto).
      lia.
  - intros B'. symmetry. apply reach_mem; [exact (W' _ _ Ex')|exact B'].
Qed.
Print Assumptions C80_shared.

(** ** Examples *)

(** The same run computed by the models. *)
Definition model_call (pol : Z -> Z -> Z) (k : kind) (q : request (call slice) (call2 slice)) (s : St) : option (seen * St) :=
  match k, q with
  | Buffer3, Q3 c => match exec1 (ECall c) s with Some ([a], s') => Some (See3 a, s') | _ => None end
  | Mini3, Q3m c out => match mexec1 (MCall c out) s with Some ([a], s') => Some (SeeM a, s') | _ => None end
  | BufferOld v, Qo c => match play1 v pol (OCall c) s with Some ([a], s') => Some (SeeO a, s') | _ => None end
  | MiniOld v, Qom c out => match omexec1 v pol (OMCall c out) s with Some ([a], s') => Some (SeeM a, s') | _ => None end
  | _, _ => None
  end.

Lemma model_call_text pol k q s a s' : WF s -> valid_request k s q -> model_call pol k q s = Some (a, s') -> one_call pol k q s a s'.
Proof.
  intros W V E. destruct k as [| |v|v], q as [c|c out|c|c out]; try contradiction V; cbn [valid_request model_call] in *.
  - destruct (text_step_exec1 pol _ s W V) as (b & s1 & T & E1). rewrite E1 in E.
    destruct b as [|b []]; try discriminate. injection E as <- <-. now constructor.
  - destruct (mini_step_mexec1 pol _ s W V) as (b & s1 & T & E1). rewrite E1 in E.
    destruct b as [|b []]; try discriminate. injection E as <- <-. now constructor.
  - destruct (old_text_step_play1 v pol _ s W V) as (b & s1 & T & E1). rewrite E1 in E.
    destruct b as [|b []]; try discriminate. injection E as <- <-. now constructor.
  - destruct (om_step_omexec1 v pol _ s W V) as (b & s1 & T & E1). rewrite E1 in E.
    destruct b as [|b []]; try discriminate. injection E as <- <-. now constructor.
Qed.

Definition model_step (pol : Z -> Z -> Z) (e : wevent) (w : world) : option (list wanswer * world) :=
  match e with
  | WNew k slices =>
      match run (V3Buffer.NewBuffer pol slices) (mkSt (memory w) (mkBuf nowhere 0 0 0 0) false []) with
      | Done _ s1 => Some ([], mkWorld (heap s1) (objects w ++ [mkObject k (bb s1) (mu s1)]))
      | Panicked e s1 => Some ([NotMade e], mkWorld (heap s1) (objects w))
      | _ => None
      end
  | WCall i q =>
      match nth_error (objects w) i with
      | Some o => match model_call pol (o_kind o) q (state_of (memory w) o) with
                  | Some (a, s') => Some ([Called i a], mkWorld (heap s') (replace i (mkObject (o_kind o) (bb s') (mu s')) (objects w)))
                  | None => None end
      | None => None
      end
  | WStore b j x => match heap_write (memory w) b j [x] with Some h => Some ([], mkWorld h (objects w)) | None => None end
  | WAlloc l => Some ([], mkWorld (memory w ++ [l]) (objects w))
  end.

Lemma model_step_text pol e w a w' : wf_world w -> valid_w w e -> model_step pol e w = Some (a, w') -> wstep pol e w a w'.
Proof.
  intros [Wh Wo] V E. destruct e as [k slices|i q|b j x|l]; cbn [valid_w model_step] in *.
  - destruct V as [V1 V2]. set (s0 := mkSt (memory w) (mkBuf nowhere 0 0 0 0) false []) in *.
    pose proof (constructor_outcome k pol s0 slices eq_refl V1) as O.
    destruct (run (V3Buffer.NewBuffer pol slices) s0); try discriminate; specialize (O ltac:(discriminate)); injection E as <- <-.
    + eapply w_new. exact O.
    + eapply w_not_made. exact O.
  - destruct V as (o & Eo & V). rewrite Eo in E.
    destruct (model_call pol (o_kind o) q (state_of (memory w) o)) as [[b s']|] eqn:Ec; [|discriminate]. injection E as <- <-.
    econstructor; [exact Eo|]. apply model_call_text; auto. rewrite Forall_nth_error in Wo. eapply Wo; exact Eo.
  - destruct (heap_write (memory w) b j [x]) as [h|] eqn:Eh; [|discriminate]. injection E as <- <-. now constructor.
  - injection E as <- <-. constructor.
Qed.

Definition apart (x y : slice) : bool :=
  negb (s_blk x =? s_blk y)%nat || (s_off x + s_cap x <=? s_off y) || (s_off y + s_cap y <=? s_off x).
Lemma apart_disjoint x y : apart x y = true -> disjoint x y.
Proof. unfold apart, disjoint, behind. intros H b j [[-> H1] [H2 H3]]. lia. Qed.
Definition own_b (w : world) (e : wevent) : bool :=
  match e with WNew k [d] => forallb (fun o => apart d (b_buf (o_buf o))) (objects w) | _ => true end.
Lemma own_b_memory w e : own_b w e = true -> own_memory w e.
Proof.
  destruct e as [k [|d [|]]| | |]; cbn; auto. intros H. apply Forall_forall. intros o I.
  rewrite forallb_forall in H. now apply apart_disjoint, H.
Qed.
Definition valid_here (w : world) (e : wevent) : Prop :=
  match e with
  | WCall i q => match nth_error (objects w) i with Some o => valid_request (o_kind o) (state_of (memory w) o) q | None => False end
  | _ => valid_w w e
  end.
Lemma valid_here_w w e : valid_here w e -> valid_w w e.
Proof. destruct e; auto. cbn. destruct (nth_error _ _); [eauto|contradiction]. Qed.

Fixpoint plays_well (pol : Z -> Z -> Z) (es : list wevent) (w : world) : Prop :=
  match es with
  | [] => True
  | e :: r => valid_here w e /\ own_b w e = true /\ match model_step pol e w with Some (a, w') => if stops a then True else plays_well pol r w' | None => False end
  end.
Fixpoint model_run (pol : Z -> Z -> Z) (es : list wevent) (w : world) : list wanswer * world :=
  match es with
  | [] => ([], w)
  | e :: r =>
      match model_step pol e w with
      | Some (a, w') => if stops a then (a, w') else let (a', w'') := model_run pol r w' in (a ++ a', w'')
      | None => ([], w)
      end
  end.
Lemma model_run_text pol es : forall w, wf_world w -> plays_well pol es w ->
  exists vs, whistory pol es w vs (fst (model_run pol es w)) (snd (model_run pol es w)).
Proof.
  induction es as [|e r IH]; intros w W P; cbn [model_run plays_well] in *; [eexists; constructor|].
  destruct P as (P1 & P2 & P3). destruct (model_step pol e w) as [[a w']|] eqn:E; [|contradiction].
  apply valid_here_w in P1. apply own_b_memory in P2. pose proof (model_step_text _ _ _ _ _ W P1 E) as St.
  destruct (stops a) eqn:Es.
  - eexists. eapply whistory_ends; eauto.
  - destruct (IH w' (wstep_WF _ _ _ _ _ W P1 St) P3) as [vs H]. destruct (model_run pol r w') as [a' w'']. cbn [fst snd] in *.
    eexists. eapply whistory_cons; eauto.
Qed.

(** A v3 Buffer over bytes 1 to 4 of array 0, a v1 Buffer over the rest of it, a v2
    MiniBuffer made of two slices; bytes go from one to the next; the v1 Buffer dies
    of an empty integer write, which the others do not notice, and blocks the program
    when it is called again. *)
Definition ex_memory : heap_t := [[1; 2; 3; 4; 5; 6; 7; 8]; [9; 10]].
Definition ex_events : list wevent :=
  [WNew Buffer3 [mkSlice 0 0 4 4]; WNew (BufferOld V1) [mkSlice 0 4 4 4]; WNew (MiniOld V2) [mkSlice 0 0 2 4; mkSlice 1 0 2 2];
   WCall 0 (Q3 (At 1 (OWriteBytes (mkSlice 0 5 2 2))));
   WCall 1 (Qo (At2 0 (PWriteBytes (mkSlice 0 1 2 3))));
   WCall 0 (Q3 (CGrow 2));
   WCall 0 (Q3 (At 4 (OWrite U16BE [0x1122])));
   WStore 0 7 99;
   WCall 2 (Qom (At2 2 (PWriteBytes (mkSlice 0 6 2 2))) []);
   WCall 1 (Qo (At2 0 (PWrite NU32LE [])));
   WCall 0 (Q3 CBytes);
   WCall 2 (Qom KBytes []);
   WCall 1 (Qo KCapacity);
   WCall 1 (Qo KAlignBit)].

Lemma ex_memory_wf : wf_heap ex_memory.
Proof.
  repeat (constructor; [split; [repeat (constructor; [unfold is_byte; lia|]); constructor | vm_compute; discriminate]|]).
  constructor.
Qed.
Example C80_case : exists vs w,
  whistory Props_Old.pol_twice ex_events (mkWorld ex_memory []) vs
    [Called 0 (See3 (Returned RUnit)); Called 1 (SeeO (Replied RUnit)); Called 0 (See3 (Returned RUnit)); Called 0 (See3 (Returned RUnit));
     Called 2 (SeeM (MReturned RUnit [])); Called 1 (SeeO (Threw index_error));
     Called 0 (See3 (Returned (RBytes [1; 6; 7; 4; 0x11; 0x22]))); Called 2 (SeeM (MReturned (RBytes [1; 2; 7; 99]) []));
     Called 1 (SeeO (Replied (RInt 4))); Called 1 (SeeO Blocked)] w.
Proof.
  destruct (model_run_text Props_Old.pol_twice ex_events (mkWorld ex_memory [])) as [vs H].
  - split; [exact ex_memory_wf|constructor].
  - vm_compute. repeat split; try discriminate; repeat constructor; discriminate.
  - exists vs. eexists. replace (fst _) with (fst (model_run Props_Old.pol_twice ex_events (mkWorld ex_memory []))) in H by reflexivity.
    match type of H with whistory _ _ _ _ ?l _ => let r := eval vm_compute in l in change l with r in H end. exact H.
Qed.

(** Without memory of its own a buffer is not alone: two buffers made of the same
    slice. *)
Theorem C80_alone_refuted : exists pol w i q a w' y,
  wf_world w /\ ~ separate w /\ valid_w w (WCall i q) /\ wstep pol (WCall i q) w a w' /\
  i <> 1%nat /\ nth_error (objects w) 1 = Some y /\ nth_error (objects w') 1 = Some y /\
  a_bytes (ao_buf (abs_object (memory w) y)) = [1; 2; 3; 4] /\
  a_bytes (ao_buf (abs_object (memory w') y)) = [1; 2; 77; 4].
Proof.
  set (o := mkObject Buffer3 (mkBuf (mkSlice 0 0 4 4) 0 4 0 32) false).
  set (w := mkWorld ex_memory [o; o]). exists Props_Old.pol_twice, w, 0%nat, (Q3 (At 2 (OWriteByte 77))).
  assert (W : wf_world w).
  { split; [exact ex_memory_wf|]. assert (WF (state_of ex_memory o)).
    { constructor; try exact ex_memory_wf; cbn; try reflexivity; try (unfold is_i64; lia).
      unfold wf_slice; cbn. unfold zlen; cbn. repeat split; lia. }
    repeat constructor; apply H. }
  assert (V : valid_w w (WCall 0 (Q3 (At 2 (OWriteByte 77))))).
  { exists o. split; [reflexivity|]. vm_compute. repeat split; discriminate. }
  destruct (model_step Props_Old.pol_twice (WCall 0 (Q3 (At 2 (OWriteByte 77)))) w) as [[a w']|] eqn:E; [|vm_compute in E; discriminate E].
  exists a, w', o. pose proof (model_step_text _ _ _ _ _ W V E) as St. vm_compute in E. injection E as <- <-.
  split; [exact W|]. split.
  { intro S. apply (S 0%nat 1%nat o o ltac:(discriminate) eq_refl eq_refl 0%nat 0). unfold behind; cbn. lia. }
  split; [exact V|]. split; [exact St|]. split; [discriminate|]. repeat split.
Qed.
Print Assumptions C80_alone_refuted.
