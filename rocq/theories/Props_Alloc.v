(** * Props_Alloc: how much memory a v3 [Buffer] or [MiniBuffer] takes.

    Stated about the Go text of v3/buffer.generated.go and v3/minibuf.generated.go.
    The counting is in AllocSpec.v. *)
From Coq Require Import ZArith List Bool Lia.
From Verif Require Import GoEval Front FrontCalls GoSem Errors Spec GoLemmas Calls Abs History MiniAbs MiniHistory V3ByteLemmas NewBuf Witness AllocSpec AllocLemmas Props_Front.
From Verif Require Props_State Props_Mini.
Import ListNotations.
Open Scope Z_scope.
Open Scope list_scope.

Lemma text_history_exec pol es s vs os s' :
  WF s -> text_history pol es s vs os s' -> valid_events es s /\ exec es s = Some (os, s').
Proof.
  intros W H. revert W. induction H as [s|e es s a s1 vs os s2 V St Hh IH]; intros W; [split; reflexivity|].
  destruct (text_step_exec1 pol e s W V) as (b & s3 & St' & E).
  destruct (text_step_unique _ _ _ _ _ _ _ St St') as [<- <-].
  destruct (exec1_refines e s W V) as (b & s3 & E' & W' & _). rewrite E in E'. inversion E'; subst b s3.
  destruct (IH W') as [V2 E2]. cbn [valid_events exec]. rewrite E, E2. auto.
Qed.
Lemma mini_history_exec pol es s vs os s' :
  WF s -> mini_history pol es s vs os s' -> valid_mevents es s /\ mexec es s = Some (os, s').
Proof.
  intros W H. revert W. induction H as [s|e es s a s1 vs os s2 V St Hh IH]; intros W; [split; reflexivity|].
  destruct (mini_step_mexec1 pol e s W V) as (b & s3 & St' & E).
  destruct (mini_step_unique _ _ _ _ _ _ _ St St') as [<- <-].
  destruct (mexec1_refines e s W V) as (b & s3 & E' & W' & _). rewrite E in E'. inversion E'; subst b s3.
  destruct (IH W') as [V2 E2]. cbn [valid_mevents mexec]. rewrite E, E2. auto.
Qed.
Lemma text_new_WF pol s0 slices s1 : text_new pol s0 slices s1 -> WF s1.
Proof. intro N. apply text_new_model, Props_State.new_buffer_fresh in N. apply N. Qed.
Lemma mini_new_WF pol s0 slices s1 : mini_new pol s0 slices s1 -> WF s1.
Proof. intro N. apply mini_new_fresh in N. apply N. Qed.

(** C77: at any point of any history the next event, whether the call returns or
    panics, adds exactly these arrays: those of [makes], and for a [Grow] call that
    does not find enough spare capacity one of twice (the capacity plus the bytes
    asked for).  No array ever changes its size. *)
Theorem C77_each_call pol s0 slices s1 es vs os s e a s' :
  text_new pol s0 slices s1 -> text_history pol es s1 vs os s ->
  valid_event s e -> text_step pol e s a s' ->
  blocks s' = blocks s ++ grows s e ++ makes e.
Proof.
  intros N H V St. pose proof (text_new_WF _ _ _ _ N) as W. destruct (text_history_refines _ _ _ _ _ _ W H) as [W' _].
  destruct (text_step_exec1 pol e s W' V) as (b & s3 & St' & E).
  destruct (text_step_unique _ _ _ _ _ _ _ St St') as [<- <-]. apply (event_room e s a s' W' V E).
Qed.
Print Assumptions C77_each_call.

(** C77: over any history the arrays made by [Grow] have at most twice the bytes
    the buffer had at the beginning and six times the bytes [Grow] was asked for. *)
Theorem C77_total pol s0 slices s1 es vs os s :
  text_new pol s0 slices s1 -> text_history pol es s1 vs os s ->
  memory s <= memory s1 + total (made es) + 2 * zlen (all_bytes (heap s0) slices) + 6 * asked es.
Proof.
  intros N H. pose proof (text_new_WF _ _ _ _ N) as W. destruct (text_history_exec _ _ _ _ _ _ W H) as [V E].
  pose proof (history_paid es s1 os s W V E) as P. pose proof (room_used s1 W) as U.
  apply text_new_model, Props_State.new_buffer_fresh in N. pose proof (fb_content _ _ _ N) as C.
  pose proof (content_zlen s1 W) as CZ. rewrite C in CZ. fold (used s1) in CZ. rewrite CZ.
  unfold owed in P. lia.
Qed.
Print Assumptions C77_total.

(** C77: as long as nothing is cut off at the left, [k] arrays made by [Grow] mean
    that the capacity has doubled [k] times. *)
Theorem C77_doubling pol s0 slices s1 es vs os s :
  text_new pol s0 slices s1 -> text_history pol es s1 vs os s -> Forall keeps_left es ->
  exists k, (length (blocks s) = length (blocks s1) + length (made es) + k)%nat
            /\ 2 ^ Z.of_nat k * (room s1 + 1) <= room s + 1.
Proof.
  intros N H K. pose proof (text_new_WF _ _ _ _ N) as W. destruct (text_history_exec _ _ _ _ _ _ W H) as [V E].
  exact (history_doubles es s1 os s W V K E).
Qed.
Print Assumptions C77_doubling.

Lemma done_inj {A} (a b : A) s t : Done a s = Done b t -> s = t.
Proof. congruence. Qed.
Lemma some_inj {A} (a b : A) : Some a = Some b -> a = b.
Proof. congruence. Qed.
Lemma pair_inj {A B} (a c : A) (b d : B) : (a, b) = (c, d) -> a = c /\ b = d.
Proof. intro H. split; congruence. Qed.

(** Non-vacuity: the history of C65 makes two arrays, one of them with [Grow]. *)
Example C77_case :
  exists s1 vs os s,
    text_new Props_State.pol0 Props_State.ex0 [mkSlice 0 0 3 3; mkSlice 1 0 2 2] s1
    /\ text_history Props_State.pol0 Props_State.ex_history s1 vs os s
    /\ blocks s = blocks s1 ++ [18; 2] /\ asked Props_State.ex_history = 5 /\ made Props_State.ex_history = [2].
Proof.
  destruct C65_case as (s1 & vs & s & N & H & _). do 4 eexists. split; [exact N|]. split; [exact H|].
  pose proof (text_new_WF _ _ _ _ N) as W. destruct (text_history_exec _ _ _ _ _ _ W H) as [_ E].
  apply text_new_model in N. destruct N as (_ & _ & _ & N). destruct Props_State.ex_new_new as (_ & _ & _ & N').
  rewrite N' in N. apply done_inj in N. subst s1.
  assert (X : option_map (fun r => blocks (snd r)) (exec Props_State.ex_history Props_State.ex_new) = Some (blocks Props_State.ex_new ++ [18; 2])) by (vm_compute; reflexivity).
  rewrite E in X. cbn [option_map snd] in X. apply some_inj in X. split; [exact X|]. split; reflexivity.
Qed.

(** C77: if bytes are cut off at the left the capacity need not double: here two
    arrays are made by [Grow] and the capacity is 0 at the end. *)
Definition ex_left : list event :=
  [ECall (CGrow 9); ECall (CTruncateLeft 14); ECall (CGrow 16); ECall (CTruncateLeft 16);
   ECall (CGrow 1); ECall (CTruncateLeft 1); ECall (CGrow 1); ECall (CTruncateLeft 1)].
Theorem C77_doubling_cut_refuted :
  ~ forall pol s0 slices s1 es vs os s,
      text_new pol s0 slices s1 -> text_history pol es s1 vs os s ->
      exists k, (length (blocks s) = length (blocks s1) + length (made es) + k)%nat
                /\ 2 ^ Z.of_nat k * (room s1 + 1) <= room s + 1.
Proof.
  intro H. destruct C65_case as (s1 & vs & s & N & _). pose proof (text_new_WF _ _ _ _ N) as W.
  pose proof (text_new_model _ _ _ _ N) as N1. destruct N1 as (_ & _ & _ & N1). destruct Props_State.ex_new_new as (_ & _ & _ & N2).
  rewrite N2 in N1. apply done_inj in N1. subst s1.
  assert (V : valid_events ex_left Props_State.ex_new) by (vm_compute; repeat split; discriminate).
  destruct (text_history_of_exec Props_State.pol0 _ _ W V) as (os' & s' & E & Hh).
  specialize (H _ _ _ _ _ _ _ _ N Hh). destruct H as (k & L & P).
  assert (X : option_map (fun r => (length (blocks (snd r)), room (snd r))) (exec ex_left Props_State.ex_new)
              = Some ((length (blocks Props_State.ex_new) + 2)%nat, 0)) by (vm_compute; reflexivity).
  rewrite E in X. cbn [option_map snd] in X. apply some_inj, pair_inj in X. destruct X as [X1 X2]. rewrite X1 in L. rewrite X2 in P.
  assert (K : k = 2%nat) by (change (length (made ex_left)) with 0%nat in L; lia). subst k.
  pose proof (room_used _ W). change (2 ^ Z.of_nat 2) with 4 in P. lia.
Qed.
Print Assumptions C77_doubling_cut_refuted.

(** ** The same for the MiniBuffer *)

Theorem C77_mini_each_call pol s0 slices s1 es vs os s e a s' :
  mini_new pol s0 slices s1 -> mini_history pol es s1 vs os s ->
  valid_mevent s e -> mini_step pol e s a s' ->
  blocks s' = blocks s ++ mini_grows s e ++ mini_makes e.
Proof.
  intros N H V St. pose proof (mini_new_WF _ _ _ _ N) as W. destruct (mini_history_refines _ _ _ _ _ _ W H) as [W' _].
  destruct (mini_step_mexec1 pol e s W' V) as (b & s3 & St' & E).
  destruct (mini_step_unique _ _ _ _ _ _ _ St St') as [<- <-]. apply (mini_event_room e s a s' W' V E).
Qed.
Print Assumptions C77_mini_each_call.

Theorem C77_mini_total pol s0 slices s1 es vs os s :
  mini_new pol s0 slices s1 -> mini_history pol es s1 vs os s ->
  memory s <= memory s1 + total (mini_made es) + 2 * zlen (all_bytes (heap s0) slices) + 6 * mini_asked es.
Proof.
  intros N H. pose proof (mini_new_WF _ _ _ _ N) as W. destruct (mini_history_exec _ _ _ _ _ _ W H) as [V E].
  pose proof (mini_history_paid es s1 os s W V E) as P. pose proof (room_used s1 W) as U.
  apply mini_new_fresh in N. pose proof (fb_content _ _ _ N) as C.
  pose proof (content_zlen s1 W) as CZ. rewrite C in CZ. fold (used s1) in CZ. rewrite CZ.
  unfold owed in P. lia.
Qed.
Print Assumptions C77_mini_total.

Theorem C77_mini_doubling pol s0 slices s1 es vs os s :
  mini_new pol s0 slices s1 -> mini_history pol es s1 vs os s -> Forall mini_keeps_left es ->
  exists k, (length (blocks s) = length (blocks s1) + length (mini_made es) + k)%nat
            /\ 2 ^ Z.of_nat k * (room s1 + 1) <= room s + 1.
Proof.
  intros N H K. pose proof (mini_new_WF _ _ _ _ N) as W. destruct (mini_history_exec _ _ _ _ _ _ W H) as [V E].
  exact (mini_history_doubles es s1 os s W V K E).
Qed.
Print Assumptions C77_mini_doubling.

(** Non-vacuity: four events on a MiniBuffer of five bytes, one array. *)
Example C77_mini_case :
  exists s1 vs os s,
    mini_new Props_State.pol0 Props_State.ex0 [mkSlice 0 0 3 3; mkSlice 1 0 2 2] s1
    /\ mini_history Props_State.pol0
         [MCall (CGrow 4) []; MCall (CTruncateRight (-3)) []; MCall (CGrow (-2)) []; MCall (CTruncateRight 99) []] s1 vs os s
    /\ blocks s = blocks s1 ++ [20] /\ used s = 10.
Proof.
  destruct Props_State.ex_new_new as (H1 & H2 & H3 & E).
  pose proof (NewMiniBuffer_outcome Props_State.pol0 Props_State.ex0 _ H2) as O.
  rewrite Props_Mini.C35_same_constructor, E in O. specialize (O ltac:(discriminate)).
  assert (N : mini_new Props_State.pol0 Props_State.ex0 [mkSlice 0 0 3 3; mkSlice 1 0 2 2] Props_State.ex_new) by (repeat split; assumption).
  pose proof (mini_new_WF _ _ _ _ N) as W.
  match goal with |- context [mini_history _ ?l _ _ _ _] => set (es := l) end.
  assert (V : valid_mevents es Props_State.ex_new) by (vm_compute; repeat split; discriminate).
  destruct (mini_history_of_exec Props_State.pol0 _ _ W V) as (os & s & Em & Hm).
  exists Props_State.ex_new, (view_mevents es Props_State.ex_new), os, s. split; [exact N|]. split; [exact Hm|].
  assert (X : option_map (fun r => (blocks (snd r), used (snd r))) (mexec es Props_State.ex_new)
              = Some (blocks Props_State.ex_new ++ [20], 10)) by (vm_compute; reflexivity).
  rewrite Em in X. cbn [option_map snd] in X. apply some_inj, pair_inj in X. destruct X as [X1 X2]. auto.
Qed.
