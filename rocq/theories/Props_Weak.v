(** * Props_Weak: goroutines that keep to different parts of a buffer behave as if each
    were alone with it, whatever the memory model (C89).

    C75 and C87 let all accesses to memory take effect in one global order.  Here there
    is no such order (WeakSpec.v): every goroutine has a view of the memory of its own,
    which may change at any moment and in any way at the places where another goroutine
    is at liberty to write.  For the v3 [Buffer] and the [MiniBuffer]s of v3, v1 and v2. *)
From Coq Require Import ZArith List Bool String Lia Arith ZifyBool.
From Verif Require Import GoSem Errors Spec GoLemmas Typed Calls Abs MiniAbs OldCalls V1Calls Abs2 MiniAbs2 History Witness Conc ConcSpec ConcLemmas ConcSched.
From Verif Require Import Race RaceLemmas RaceOld RaceSpec3 Race3 RaceMiniSpec RaceMini RaceSpec RaceMiniSpec2 RaceMini2.
From Verif Require Props_Race.
From Verif Require Import Props_Race3 Props_Alone Props_RaceMini Props_RaceMini2 Props_AloneMini.
From Verif Require Import AloneSpec AloneMiniSpec Alone AloneGen AloneMini WeakSpec Weak.
Import ListNotations.
Open Scope Z_scope.
Open Scope list_scope.

(** ** The v3 [Buffer] *)

Definition buffer_weak : St -> list (list (call slice)) -> list (Conc.event (call slice)) -> wconfig (call slice) -> Prop :=
  fun s programs h w => wexec do_call writes3 s programs (wstart s programs) h w.
Definition buffer_writer (s : St) (programs : list (list (call slice))) : wconfig (call slice) -> nat -> location -> Prop :=
  at_liberty writes3 s programs.
Definition buffer_joined (s : St) (programs : list (list (call slice))) : wconfig (call slice) -> St -> Prop :=
  joined writes3 s programs.

Ltac weak_buffer L :=
  eapply (L (call slice) do_call writes3 sees
    buffer_one ok_buffer buffer_args buffer_run buffer_disc buffer_slice); eauto.
Lemma shareable_ok s programs : shareable s programs -> Forall (Forall (ok_buffer s)) programs.
Proof.
  intros (_ & V & X & P & _). rewrite Forall_forall in *. intros cs Ic. specialize (V cs Ic). specialize (X cs Ic). specialize (P cs Ic).
  rewrite Forall_forall in *. intros c I. unfold ok_buffer. auto.
Qed.
Lemma shareable_indep s programs : shareable s programs -> WF s /\ unrelated sees writes3 programs.
Proof. intros (W & _ & _ & _ & I). split; [exact W|exact I]. Qed.

(** At every moment the calls of goroutine [t] that have returned are its first ones,
    and their answers are those of the goroutine alone. *)
Theorem C89_answers s programs h w t cs :
  shareable s programs -> buffer_weak s programs h w -> nth_error programs t = Some cs ->
  prefix (map fst (returns_of t h)) cs /\
  map snd (returns_of t h) = fst (alone s (map fst (returns_of t h))).
Proof.
  intros S E N. pose proof (shareable_ok _ _ S) as O. pose proof (shareable_indep _ _ S) as (W & I). unfold alone. rewrite alone_one_by_one. weak_buffer @w_as_alone.
Qed.
Print Assumptions C89_answers.

(** In the end all calls have had these answers. *)
Theorem C89_finished s programs h w t cs :
  shareable s programs -> buffer_weak s programs h w -> wfinished w -> nth_error programs t = Some cs ->
  map fst (returns_of t h) = cs /\ map snd (returns_of t h) = fst (alone s cs).
Proof.
  intros S E F Et. pose proof (shareable_ok _ _ S) as O. pose proof (shareable_indep _ _ S) as (W & I).
  assert (A : map fst (returns_of t h) = cs) by weak_buffer @w_all_returned.
  split; auto. destruct (C89_answers s programs h w t cs S E Et) as [_ B]. now rewrite A in B.
Qed.
Print Assumptions C89_finished.

(** Once the goroutines have been waited for and no one is inside a call, the buffer is
    in order, each goroutine has left the parts it writes as if alone, and the parts
    that nobody writes are as before. *)
Theorem C89_memory s programs h w m :
  shareable s programs -> buffer_weak s programs h w -> wresting w -> buffer_joined s programs w m ->
  WF m /\ b_buf (bb m) = b_buf (bb s) /\
  (forall t cs d x, nth_error programs t = Some cs -> In d cs -> writes3 d x = true ->
     part x (abs m) = part x (snd (alone s (map fst (returns_of t h))))) /\
  (forall x, (forall cs d, In cs programs -> In d cs -> writes3 d x = false) -> part x (abs m) = part x (abs s)).
Proof.
  intros S E R J. pose proof (shareable_ok _ _ S) as O. pose proof (shareable_indep _ _ S) as (W & I).
  assert (X : WF m /\ b_buf (bb m) = b_buf (bb s)) by weak_buffer @w_rest_WF.
  destruct X as [X1 X2]. split; [exact X1|]. split; [exact X2|]. split.
  - intros t cs d x Et Id Wx. unfold alone. rewrite alone_one_by_one. weak_buffer @w_rest_own.
  - intros x N. weak_buffer @w_rest_frozen.
Qed.
Print Assumptions C89_memory.

(** There always is such a memory. *)
Theorem C89_joins s programs h w :
  shareable s programs -> buffer_weak s programs h w -> exists m, buffer_joined s programs w m.
Proof.
  intros S E. pose proof (shareable_ok _ _ S) as O. pose proof (shareable_indep _ _ S) as (W & I). unfold buffer_joined. weak_buffer @w_joins.
Qed.
Print Assumptions C89_joins.

(** Nobody waits. *)
Theorem C89_never_waits s programs h w t g :
  shareable s programs -> buffer_weak s programs h w -> nth_error (wgs w) t = Some g -> g <> mkG [] None ->
  exists e w', own_wstep do_call t w e w'.
Proof.
  intros S E N G. pose proof (shareable_ok _ _ S) as O. pose proof (shareable_indep _ _ S) as (W & I). weak_buffer @w_never_stuck.
Qed.
Print Assumptions C89_never_waits.
Theorem C89_all_return s programs h w :
  shareable s programs -> buffer_weak s programs h w ->
  exists h' w', buffer_weak s programs (h ++ h') w' /\ wfinished w'.
Proof.
  intros S E. pose proof (shareable_ok _ _ S) as O. pose proof (shareable_indep _ _ S) as (W & I). weak_buffer @w_all_return.
Qed.
Print Assumptions C89_all_return.

(** The model takes liberties only with places that do belong to others: a goroutine
    changes its view only where it is at liberty to write, and no two goroutines are at
    liberty to write at one place. *)
Theorem C89_stays_inside s programs h w t e w' V V' :
  shareable s programs -> buffer_weak s programs h w -> own_wstep do_call t w e w' ->
  nth_error (views w) t = Some V -> nth_error (views w') t = Some V' ->
  forall l, same_at l V V' \/ buffer_writer s programs w' t l.
Proof.
  intros S E St X Y. pose proof (shareable_ok _ _ S) as O. pose proof (shareable_indep _ _ S) as (W & I). unfold buffer_writer. weak_buffer @w_stays_inside.
Qed.
Print Assumptions C89_stays_inside.
(** Not only does its view stay the same elsewhere: it makes no write there at all (an
    allocation fills the new array), not even of the value that is there already, and
    it reads nothing that another goroutine is at liberty to write. *)
Theorem C89_writes_inside s programs h w t o os p V a l :
  shareable s programs -> buffer_weak s programs h w -> nth_error (wgs w) t = Some (mkG os (Some (o, p))) -> nth_error (views w) t = Some V ->
  access_of p V = Some a -> writes a l -> buffer_writer s programs w t l \/ (exists d k, p = Alloc d k).
Proof.
  intros S E Eg Ev Ea X. pose proof (shareable_ok _ _ S) as O. pose proof (shareable_indep _ _ S) as (W & I). unfold buffer_writer. weak_buffer @w_writes_inside.
Qed.
Print Assumptions C89_writes_inside.
Theorem C89_reads_apart s programs h w t o os p V a l u :
  shareable s programs -> buffer_weak s programs h w -> nth_error (wgs w) t = Some (mkG os (Some (o, p))) -> nth_error (views w) t = Some V ->
  access_of p V = Some a -> reads a l -> u <> t -> ~ buffer_writer s programs w u l.
Proof.
  intros S E Eg Ev Ea X N. pose proof (shareable_ok _ _ S) as O. pose proof (shareable_indep _ _ S) as (W & I). unfold buffer_writer. weak_buffer @w_reads_apart.
Qed.
Print Assumptions C89_reads_apart.
Theorem C89_one_writer s programs h w t u l :
  shareable s programs -> buffer_weak s programs h w ->
  buffer_writer s programs w t l -> buffer_writer s programs w u l -> t = u.
Proof.
  intros S E X Y. pose proof (shareable_ok _ _ S) as O. pose proof (shareable_indep _ _ S) as (W & I). weak_buffer @w_liberty_apart.
Qed.
Print Assumptions C89_one_writer.

(** A global order of all accesses is a special case: the executions of Conc.v are among
    these, and the shared buffer is what one sees once all have been waited for. *)
Theorem C89_interleavings s programs h c :
  shareable s programs -> exec do_call (start s programs) h c ->
  exists w, buffer_weak s programs h w /\ wgs w = gs c /\ buffer_joined s programs w (sh c).
Proof.
  intros S E. pose proof (shareable_ok _ _ S) as O. pose proof (shareable_indep _ _ S) as (W & I). weak_buffer @w_interleavings.
Qed.
Print Assumptions C89_interleavings.

(** ** The v3 [MiniBuffer] *)

Definition mini_weak : St -> list (list mini_use) -> list (Conc.event mini_use) -> wconfig mini_use -> Prop :=
  fun s programs h w => wexec mini_body (fun u : mini_use => writes_mini (fst u)) s programs (wstart s programs) h w.
Definition mini_writer (s : St) (programs : list (list mini_use)) : wconfig mini_use -> nat -> location -> Prop :=
  at_liberty (fun u : mini_use => writes_mini (fst u)) s programs.
Definition mini_joined (s : St) (programs : list (list mini_use)) : wconfig mini_use -> St -> Prop :=
  joined (fun u : mini_use => writes_mini (fst u)) s programs.

Ltac weak_mini L :=
  eapply (L mini_use mini_body (fun u : mini_use => writes_mini (fst u)) (fun u : mini_use => sees_mini (fst u))
    mini_one ok_mini mini_args mini_run mini_disc mini_slice); eauto.
Lemma shareable_mini_indep s programs : shareable_mini s programs -> WF s /\ independent_mini programs.
Proof. intros (W & _ & I). auto. Qed.

(** At every moment the calls of goroutine [t] that have returned are its first ones,
    and their answers are those of the goroutine alone. *)
Theorem C89_mini_answers s programs h w t cs :
  shareable_mini s programs -> mini_weak s programs h w -> nth_error programs t = Some cs ->
  prefix (map fst (returns_of t h)) cs /\
  map snd (returns_of t h) = fst (mini_alone s (map fst (returns_of t h))).
Proof.
  intros S E N. pose proof (shareable_mini_ok _ _ S) as O. pose proof (shareable_mini_indep _ _ S) as (W & I). weak_mini @w_as_alone.
Qed.
Print Assumptions C89_mini_answers.

(** In the end all calls have had these answers. *)
Theorem C89_mini_finished s programs h w t cs :
  shareable_mini s programs -> mini_weak s programs h w -> wfinished w -> nth_error programs t = Some cs ->
  map fst (returns_of t h) = cs /\ map snd (returns_of t h) = fst (mini_alone s cs).
Proof.
  intros S E F Et. pose proof (shareable_mini_ok _ _ S) as O. pose proof (shareable_mini_indep _ _ S) as (W & I).
  assert (A : map fst (returns_of t h) = cs) by weak_mini @w_all_returned.
  split; auto. destruct (C89_mini_answers s programs h w t cs S E Et) as [_ B]. now rewrite A in B.
Qed.
Print Assumptions C89_mini_finished.

(** Once the goroutines have been waited for and no one is inside a call, the buffer is
    in order, each goroutine has left the parts it writes as if alone, and the parts
    that nobody writes are as before. *)
Theorem C89_mini_memory s programs h w m :
  shareable_mini s programs -> mini_weak s programs h w -> wresting w -> mini_joined s programs w m ->
  WF m /\ b_buf (bb m) = b_buf (bb s) /\
  (forall t cs d x, nth_error programs t = Some cs -> In d cs -> writes_mini (fst d) x = true ->
     part x (abs m) = part x (snd (mini_alone s (map fst (returns_of t h))))) /\
  (forall x, (forall cs d, In cs programs -> In d cs -> writes_mini (fst d) x = false) -> part x (abs m) = part x (abs s)).
Proof.
  intros S E R J. pose proof (shareable_mini_ok _ _ S) as O. pose proof (shareable_mini_indep _ _ S) as (W & I).
  assert (X : WF m /\ b_buf (bb m) = b_buf (bb s)) by weak_mini @w_rest_WF.
  destruct X as [X1 X2]. split; [exact X1|]. split; [exact X2|]. split.
  - intros t cs d x Et Id Wx. weak_mini @w_rest_own.
  - intros x N. weak_mini @w_rest_frozen.
Qed.
Print Assumptions C89_mini_memory.

(** There always is such a memory. *)
Theorem C89_mini_joins s programs h w :
  shareable_mini s programs -> mini_weak s programs h w -> exists m, mini_joined s programs w m.
Proof.
  intros S E. pose proof (shareable_mini_ok _ _ S) as O. pose proof (shareable_mini_indep _ _ S) as (W & I). unfold mini_joined. weak_mini @w_joins.
Qed.
Print Assumptions C89_mini_joins.

(** Nobody waits. *)
Theorem C89_mini_never_waits s programs h w t g :
  shareable_mini s programs -> mini_weak s programs h w -> nth_error (wgs w) t = Some g -> g <> mkG [] None ->
  exists e w', own_wstep mini_body t w e w'.
Proof.
  intros S E N G. pose proof (shareable_mini_ok _ _ S) as O. pose proof (shareable_mini_indep _ _ S) as (W & I). weak_mini @w_never_stuck.
Qed.
Print Assumptions C89_mini_never_waits.
Theorem C89_mini_all_return s programs h w :
  shareable_mini s programs -> mini_weak s programs h w ->
  exists h' w', mini_weak s programs (h ++ h') w' /\ wfinished w'.
Proof.
  intros S E. pose proof (shareable_mini_ok _ _ S) as O. pose proof (shareable_mini_indep _ _ S) as (W & I). weak_mini @w_all_return.
Qed.
Print Assumptions C89_mini_all_return.

(** The model takes liberties only with places that do belong to others: a goroutine
    changes its view only where it is at liberty to write, and no two goroutines are at
    liberty to write at one place. *)
Theorem C89_mini_stays_inside s programs h w t e w' V V' :
  shareable_mini s programs -> mini_weak s programs h w -> own_wstep mini_body t w e w' ->
  nth_error (views w) t = Some V -> nth_error (views w') t = Some V' ->
  forall l, same_at l V V' \/ mini_writer s programs w' t l.
Proof.
  intros S E St X Y. pose proof (shareable_mini_ok _ _ S) as O. pose proof (shareable_mini_indep _ _ S) as (W & I). unfold mini_writer. weak_mini @w_stays_inside.
Qed.
Print Assumptions C89_mini_stays_inside.
(** Not only does its view stay the same elsewhere: it makes no write there at all (an
    allocation fills the new array), not even of the value that is there already, and
    it reads nothing that another goroutine is at liberty to write. *)
Theorem C89_mini_writes_inside s programs h w t o os p V a l :
  shareable_mini s programs -> mini_weak s programs h w -> nth_error (wgs w) t = Some (mkG os (Some (o, p))) -> nth_error (views w) t = Some V ->
  access_of p V = Some a -> writes a l -> mini_writer s programs w t l \/ (exists d k, p = Alloc d k).
Proof.
  intros S E Eg Ev Ea X. pose proof (shareable_mini_ok _ _ S) as O. pose proof (shareable_mini_indep _ _ S) as (W & I). unfold mini_writer. weak_mini @w_writes_inside.
Qed.
Print Assumptions C89_mini_writes_inside.
Theorem C89_mini_reads_apart s programs h w t o os p V a l u :
  shareable_mini s programs -> mini_weak s programs h w -> nth_error (wgs w) t = Some (mkG os (Some (o, p))) -> nth_error (views w) t = Some V ->
  access_of p V = Some a -> reads a l -> u <> t -> ~ mini_writer s programs w u l.
Proof.
  intros S E Eg Ev Ea X N. pose proof (shareable_mini_ok _ _ S) as O. pose proof (shareable_mini_indep _ _ S) as (W & I). unfold mini_writer. weak_mini @w_reads_apart.
Qed.
Print Assumptions C89_mini_reads_apart.
Theorem C89_mini_one_writer s programs h w t u l :
  shareable_mini s programs -> mini_weak s programs h w ->
  mini_writer s programs w t l -> mini_writer s programs w u l -> t = u.
Proof.
  intros S E X Y. pose proof (shareable_mini_ok _ _ S) as O. pose proof (shareable_mini_indep _ _ S) as (W & I). weak_mini @w_liberty_apart.
Qed.
Print Assumptions C89_mini_one_writer.

(** A global order of all accesses is a special case: the executions of Conc.v are among
    these, and the shared buffer is what one sees once all have been waited for. *)
Theorem C89_mini_interleavings s programs h c :
  shareable_mini s programs -> exec mini_body (start s programs) h c ->
  exists w, mini_weak s programs h w /\ wgs w = gs c /\ mini_joined s programs w (sh c).
Proof.
  intros S E. pose proof (shareable_mini_ok _ _ S) as O. pose proof (shareable_mini_indep _ _ S) as (W & I). weak_mini @w_interleavings.
Qed.
Print Assumptions C89_mini_interleavings.

(** ** The [MiniBuffer]s of v1 and v2 *)

Definition old_weak (v : version) (pol : Z -> Z -> Z) : St -> list (list old_use) -> list (Conc.event old_use) -> wconfig old_use -> Prop :=
  fun s programs h w => wexec (old_use_body v pol) (fun u : old_use => writes_old v (fst u)) s programs (wstart s programs) h w.
Definition old_writer (v : version) (s : St) (programs : list (list old_use)) : wconfig old_use -> nat -> location -> Prop :=
  at_liberty (fun u : old_use => writes_old v (fst u)) s programs.
Definition old_joined (v : version) (s : St) (programs : list (list old_use)) : wconfig old_use -> St -> Prop :=
  joined (fun u : old_use => writes_old v (fst u)) s programs.

Ltac weak_old v pol L :=
  eapply (L old_use (old_use_body v pol) (fun u : old_use => writes_old v (fst u)) (fun u : old_use => sees_old v (fst u))
    (old_one v pol) (ok_old v) (old_args v pol) (old_run v pol) (old_disc v pol) (old_slice v)); eauto.
Lemma shareable_old_indep v s programs : shareable_old v s programs -> WF s /\ independent_old v programs.
Proof. intros (W & _ & I). auto. Qed.

(** At every moment the calls of goroutine [t] that have returned are its first ones,
    and their answers are those of the goroutine alone. *)
Theorem C89_old_answers v pol s programs h w t cs :
  shareable_old v s programs -> old_weak v pol s programs h w -> nth_error programs t = Some cs ->
  prefix (map fst (returns_of t h)) cs /\
  map snd (returns_of t h) = fst (old_alone v pol s (map fst (returns_of t h))).
Proof.
  intros S E N. pose proof (shareable_old_ok v _ _ S) as O. pose proof (shareable_old_indep v _ _ S) as (W & I). weak_old v pol @w_as_alone.
Qed.
Print Assumptions C89_old_answers.

(** In the end all calls have had these answers. *)
Theorem C89_old_finished v pol s programs h w t cs :
  shareable_old v s programs -> old_weak v pol s programs h w -> wfinished w -> nth_error programs t = Some cs ->
  map fst (returns_of t h) = cs /\ map snd (returns_of t h) = fst (old_alone v pol s cs).
Proof.
  intros S E F Et. pose proof (shareable_old_ok v _ _ S) as O. pose proof (shareable_old_indep v _ _ S) as (W & I).
  assert (A : map fst (returns_of t h) = cs) by weak_old v pol @w_all_returned.
  split; auto. destruct (C89_old_answers v pol s programs h w t cs S E Et) as [_ B]. now rewrite A in B.
Qed.
Print Assumptions C89_old_finished.

(** Once the goroutines have been waited for and no one is inside a call, the buffer is
    in order, each goroutine has left the parts it writes as if alone, and the parts
    that nobody writes are as before. *)
Theorem C89_old_memory v pol s programs h w m :
  shareable_old v s programs -> old_weak v pol s programs h w -> wresting w -> old_joined v s programs w m ->
  WF m /\ b_buf (bb m) = b_buf (bb s) /\
  (forall t cs d x, nth_error programs t = Some cs -> In d cs -> writes_old v (fst d) x = true ->
     part x (abs m) = part x (snd (old_alone v pol s (map fst (returns_of t h))))) /\
  (forall x, (forall cs d, In cs programs -> In d cs -> writes_old v (fst d) x = false) -> part x (abs m) = part x (abs s)).
Proof.
  intros S E R J. pose proof (shareable_old_ok v _ _ S) as O. pose proof (shareable_old_indep v _ _ S) as (W & I).
  assert (X : WF m /\ b_buf (bb m) = b_buf (bb s)) by weak_old v pol @w_rest_WF.
  destruct X as [X1 X2]. split; [exact X1|]. split; [exact X2|]. split.
  - intros t cs d x Et Id Wx. weak_old v pol @w_rest_own.
  - intros x N. weak_old v pol @w_rest_frozen.
Qed.
Print Assumptions C89_old_memory.

(** There always is such a memory. *)
Theorem C89_old_joins v pol s programs h w :
  shareable_old v s programs -> old_weak v pol s programs h w -> exists m, old_joined v s programs w m.
Proof.
  intros S E. pose proof (shareable_old_ok v _ _ S) as O. pose proof (shareable_old_indep v _ _ S) as (W & I). unfold old_joined. weak_old v pol @w_joins.
Qed.
Print Assumptions C89_old_joins.

(** Nobody waits. *)
Theorem C89_old_never_waits v pol s programs h w t g :
  shareable_old v s programs -> old_weak v pol s programs h w -> nth_error (wgs w) t = Some g -> g <> mkG [] None ->
  exists e w', own_wstep (old_use_body v pol) t w e w'.
Proof.
  intros S E N G. pose proof (shareable_old_ok v _ _ S) as O. pose proof (shareable_old_indep v _ _ S) as (W & I). weak_old v pol @w_never_stuck.
Qed.
Print Assumptions C89_old_never_waits.
Theorem C89_old_all_return v pol s programs h w :
  shareable_old v s programs -> old_weak v pol s programs h w ->
  exists h' w', old_weak v pol s programs (h ++ h') w' /\ wfinished w'.
Proof.
  intros S E. pose proof (shareable_old_ok v _ _ S) as O. pose proof (shareable_old_indep v _ _ S) as (W & I). weak_old v pol @w_all_return.
Qed.
Print Assumptions C89_old_all_return.

(** The model takes liberties only with places that do belong to others: a goroutine
    changes its view only where it is at liberty to write, and no two goroutines are at
    liberty to write at one place. *)
Theorem C89_old_stays_inside v pol s programs h w t e w' V V' :
  shareable_old v s programs -> old_weak v pol s programs h w -> own_wstep (old_use_body v pol) t w e w' ->
  nth_error (views w) t = Some V -> nth_error (views w') t = Some V' ->
  forall l, same_at l V V' \/ old_writer v s programs w' t l.
Proof.
  intros S E St X Y. pose proof (shareable_old_ok v _ _ S) as O. pose proof (shareable_old_indep v _ _ S) as (W & I). unfold old_writer. weak_old v pol @w_stays_inside.
Qed.
Print Assumptions C89_old_stays_inside.
(** Not only does its view stay the same elsewhere: it makes no write there at all (an
    allocation fills the new array), not even of the value that is there already, and
    it reads nothing that another goroutine is at liberty to write. *)
Theorem C89_old_writes_inside v pol s programs h w t o os p V a l :
  shareable_old v s programs -> old_weak v pol s programs h w -> nth_error (wgs w) t = Some (mkG os (Some (o, p))) -> nth_error (views w) t = Some V ->
  access_of p V = Some a -> writes a l -> old_writer v s programs w t l \/ (exists d k, p = Alloc d k).
Proof.
  intros S E Eg Ev Ea X. pose proof (shareable_old_ok v _ _ S) as O. pose proof (shareable_old_indep v _ _ S) as (W & I). unfold old_writer. weak_old v pol @w_writes_inside.
Qed.
Print Assumptions C89_old_writes_inside.
Theorem C89_old_reads_apart v pol s programs h w t o os p V a l u :
  shareable_old v s programs -> old_weak v pol s programs h w -> nth_error (wgs w) t = Some (mkG os (Some (o, p))) -> nth_error (views w) t = Some V ->
  access_of p V = Some a -> reads a l -> u <> t -> ~ old_writer v s programs w u l.
Proof.
  intros S E Eg Ev Ea X N. pose proof (shareable_old_ok v _ _ S) as O. pose proof (shareable_old_indep v _ _ S) as (W & I). unfold old_writer. weak_old v pol @w_reads_apart.
Qed.
Print Assumptions C89_old_reads_apart.
Theorem C89_old_one_writer v pol s programs h w t u l :
  shareable_old v s programs -> old_weak v pol s programs h w ->
  old_writer v s programs w t l -> old_writer v s programs w u l -> t = u.
Proof.
  intros S E X Y. pose proof (shareable_old_ok v _ _ S) as O. pose proof (shareable_old_indep v _ _ S) as (W & I). weak_old v pol @w_liberty_apart.
Qed.
Print Assumptions C89_old_one_writer.

(** A global order of all accesses is a special case: the executions of Conc.v are among
    these, and the shared buffer is what one sees once all have been waited for. *)
Theorem C89_old_interleavings v pol s programs h c :
  shareable_old v s programs -> exec (old_use_body v pol) (start s programs) h c ->
  exists w, old_weak v pol s programs h w /\ wgs w = gs c /\ old_joined v s programs w (sh c).
Proof.
  intros S E. pose proof (shareable_old_ok v _ _ S) as O. pose proof (shareable_old_indep v _ _ S) as (W & I). weak_old v pol @w_interleavings.
Qed.
Print Assumptions C89_old_interleavings.

(** ** A concrete case *)

(** Goroutine [t] makes up to [n] steps, but stops when a call returns. *)
Fixpoint go_on {C} (body : C -> prog (rv slice)) (t n : nat) (w : wconfig C) : option (list (Conc.event C) * wconfig C) :=
  match n with
  | O => Some ([], w)
  | S n =>
      match nth_error (wgs w) t, nth_error (views w) t with
      | Some g, Some V =>
          match cur g with
          | None =>
              match todo g with
              | o :: os =>
                  match go_on body t n (set_view w t V (mkG os (Some (o, body o)))) with
                  | Some (h, w') => Some (ECall t o :: h, w')
                  | None => None
                  end
              | [] => None
              end
          | Some (o, Ret v) => Some ([ERet t o (Returned (view_rv V v))], set_view w t V (mkG (todo g) None))
          | Some (o, Panic e) => Some ([ERet t o (Raised e)], set_view w t V (mkG (todo g) None))
          | Some (o, Alloc l k) =>
              go_on body t n (mkW (map (fun W => set_heap W (heap W ++ [l])) (views w))
                (set_nth (wgs w) t (mkG (todo g) (Some (o, k (List.length (heap V)))))) (owners w ++ [t]))
          | Some (o, p) =>
              match step1 p V with
              | Some (p', V') => go_on body t n (set_view w t V' (mkG (todo g) (Some (o, p'))))
              | None => None
              end
          end
      | _, _ => None
      end
  end.
Lemma go_on_sound {C} body (wr : C -> piece -> bool) s0 programs t n : forall w h w' w0 h0,
  wexec body wr s0 programs w0 h0 w -> go_on body t n w = Some (h, w') -> wexec body wr s0 programs w0 (h0 ++ h) w'.
Proof.
  induction n as [|n IH]; intros w h w' w0 h0 X; cbn [go_on].
  - intro E. injection E as <- <-. now rewrite app_nil_r.
  - destruct (nth_error (wgs w) t) as [[td cu]|] eqn:Eg; [|discriminate]. destruct (nth_error (views w) t) as [V|] eqn:Ev; [|discriminate].
    cbn [cur todo]. destruct cu as [[o p]|].
    + assert (K : match p with Ret _ | Panic _ | Alloc _ _ => False | _ => True end ->
        match step1 p V with Some (p', V') => go_on body t n (set_view w t V' (mkG td (Some (o, p')))) | None => None end = Some (h, w') ->
        wexec body wr s0 programs w0 (h0 ++ h) w').
      { intros NA. destruct (step1 p V) as [[p' V']|] eqn:St; [|discriminate]. intro E. eapply IH; [|exact E].
        rewrite <- (app_nil_r h0). eapply wx_step; [exact X|]. eapply w_access; eauto. destruct p; auto. }
      destruct p; try (apply K; exact I).
      * intro E. injection E as <- <-. eapply wx_step; [exact X|]. eapply w_return; eauto.
      * intro E. injection E as <- <-. eapply wx_step; [exact X|]. eapply w_panic; eauto.
      * intro E. eapply IH; [|exact E]. rewrite <- (app_nil_r h0). eapply wx_step; [exact X|]. eapply w_alloc; eauto.
    + destruct td as [|o os]; [discriminate|]. destruct (go_on body t n _) as [[h1 w1]|] eqn:E; [|discriminate]. intro Y. injection Y as <- <-.
      replace (h0 ++ ECall t o :: h1) with ((h0 ++ [ECall t o]) ++ h1) by now rewrite <- app_assoc.
      eapply IH; [|exact E]. eapply wx_step; [exact X|]. eapply w_call; eauto.
Qed.
(** The view of goroutine [t] comes to hold [v] at byte [i] of the buffer. *)
Definition poke {C} (t : nat) (i : nat) (v : Z) (w : wconfig C) : wconfig C :=
  match nth_error (views w) t, nth_error (wgs w) t with
  | Some V, Some g => set_view w t (set_heap V (set_nth (heap V) 0 (set_nth (nth 0 (heap V) []) i v))) g
  | _, _ => w
  end.
Lemma nth_put {A} (l : list A) i x d : (i < List.length l)%nat -> forall j, nth j (set_nth l i x) d = if (j =? i)%nat then x else nth j l d.
Proof. revert i. induction l as [|a l IH]; cbn [List.length]; intros i L j; [lia|]. destruct i as [|i], j as [|j]; cbn; auto. apply IH. lia. Qed.
Lemma poke_sound {C} body (wr : C -> piece -> bool) s0 programs t i v w h w0 V g u cs d :
  wexec body wr s0 programs w0 h w -> nth_error (views w) t = Some V -> nth_error (wgs w) t = Some g ->
  (0 < List.length (heap V))%nat -> (i < List.length (nth 0 (heap V) []))%nat -> u <> t ->
  nth_error programs u = Some cs -> In d cs -> wr d (Byte (Z.of_nat i - s_off (b_buf (bb s0)))) = true -> s_blk (b_buf (bb s0)) = O ->
  wexec body wr s0 programs w0 h (poke t i v w).
Proof.
  intros X Ev Eg L0 Li N Ec Id Wd B. eapply wx_news; [exact X|]. unfold poke. rewrite Ev, Eg.
  eapply w_news; eauto.
  - split; cbn [heap set_heap]; [now rewrite length_set_nth|]. intro b. rewrite nth_put by auto.
    destruct (Nat.eqb_spec b 0) as [->|]; [|reflexivity]. now rewrite length_set_nth.
  - intro l. destruct l as [|f|b j|]; cbn [same_at]; auto.
    destruct (Nat.eq_dec b 0) as [->|Nb].
    + destruct (Z.eq_dec j (Z.of_nat i)) as [->|Nj].
      * right. exists u. split; auto. left. exists cs, d, (Byte (Z.of_nat i - s_off (b_buf (bb s0)))). repeat split; auto.
        cbn [place]. rewrite B. f_equal. lia.
      * left. intro Hj. cbn [heap set_heap]. rewrite nth_put by auto. rewrite Nat.eqb_refl. rewrite nth_put by auto.
        destruct (Nat.eqb_spec (Z.to_nat j) i); [lia|reflexivity].
    + left. intro Hj. cbn [heap set_heap]. rewrite nth_put by auto. destruct (Nat.eqb_spec b 0); [lia|reflexivity].
Qed.

(** A script for an execution. *)
Inductive move : Set := Go (t n : nat) | See (t i : nat) (v : Z).
Definition allowed {C} (wr : C -> piece -> bool) (s0 : St) (programs : list (list C)) (t i : nat) (w : wconfig C) : bool :=
  match nth_error (views w) t, nth_error (wgs w) t with
  | Some V, Some g =>
      (0 <? List.length (heap V))%nat && (i <? List.length (nth 0 (heap V) []))%nat && (s_blk (b_buf (bb s0)) =? 0)%nat
      && existsb (fun u => negb (u =? t)%nat && existsb (fun d => wr d (Byte (Z.of_nat i - s_off (b_buf (bb s0))))) (nth u programs [])) (seq 0 (List.length programs))
  | _, _ => false
  end.
Fixpoint play {C} body (wr : C -> piece -> bool) (s0 : St) (programs : list (list C)) (l : list move) (w : wconfig C) : option (list (Conc.event C) * wconfig C) :=
  match l with
  | [] => Some ([], w)
  | Go t n :: l =>
      match go_on body t n w with
      | Some (h, w') => match play body wr s0 programs l w' with Some (h2, w2) => Some (h ++ h2, w2) | None => None end
      | None => None
      end
  | See t i v :: l => if allowed wr s0 programs t i w then play body wr s0 programs l (poke t i v w) else None
  end.
Lemma play_sound {C} body (wr : C -> piece -> bool) s0 programs l : forall w h w' w0 h0,
  wexec body wr s0 programs w0 h0 w -> play body wr s0 programs l w = Some (h, w') -> wexec body wr s0 programs w0 (h0 ++ h) w'.
Proof.
  induction l as [|[t n|t i v] l IH]; intros w h w' w0 h0 X; cbn [play].
  - intro E. injection E as <- <-. now rewrite app_nil_r.
  - destruct (go_on body t n w) as [[h1 w1]|] eqn:E1; [|discriminate]. destruct (play body wr s0 programs l w1) as [[h2 w2]|] eqn:E2; [|discriminate].
    intro E. injection E as <- <-. rewrite app_assoc. eapply IH; [|exact E2]. eapply go_on_sound; eauto.
  - destruct (allowed wr s0 programs t i w) eqn:A; [|discriminate]. intro E. eapply IH; [|exact E]. unfold allowed in A.
    destruct (nth_error (views w) t) as [V|] eqn:Ev; [|discriminate A]. destruct (nth_error (wgs w) t) as [g|] eqn:Eg; [|discriminate A].
    apply andb_prop in A as [A A4]. apply andb_prop in A as [A A3]. apply andb_prop in A as [A1 A2].
    apply existsb_exists in A4 as (u & Hu & A4). apply in_seq in Hu. apply andb_prop in A4 as [A4 A5]. apply existsb_exists in A5 as (d & Id & Wd).
    apply Nat.ltb_lt in A1. apply Nat.ltb_lt in A2. apply Nat.eqb_eq in A3. apply negb_true_iff, Nat.eqb_neq in A4.
    apply (poke_sound body wr s0 programs t i v w h0 w0 V g u (nth u programs []) d); auto. apply nth_error_nth'. lia.
Qed.

(** Two goroutines, each with a byte of its own.  The first one sees 55 and then 77 in
    the other's byte, which nobody ever writes. *)
Definition two_bytes : list (list (call slice)) := [[At 0 (OWriteByte 7); At 0 OReadByte]; [At 1 (OWriteByte 9); At 1 OReadByte]].
Definition byte_lo (t : nat) : Z := Z.of_nat t.
Definition byte_hi (t : nat) : Z := match t with O => 1 | 1%nat => 2 | _ => Z.of_nat t end.
Lemma two_bytes_shareable : shareable shared3 two_bytes.
Proof.
  apply (C75_disjoint_ranges _ _ byte_lo byte_hi).
  - apply C74_shared.
  - repeat (constructor || (cbn [valid_call valid_opn]; hyp) || (cbn; unfold is_i64, is_byte; lia)).
  - repeat (constructor; cbn [separate]; auto); discriminate.
  - intros [|[|t]] cs E; [..|destruct t; discriminate E]; injection E as <-;
      (repeat (apply Forall_cons; [unfold inside, byte_lo, byte_hi; cbn [within reader s_len]; split; try exact I; try lia|])); apply Forall_nil.
  - intros [|[|t]] [|[|u]] N; unfold byte_lo, byte_hi; lia.
Qed.
Example C89_case :
  shareable shared3 two_bytes /\
  exists h w m, buffer_weak shared3 two_bytes h w /\ wfinished w /\ buffer_joined shared3 two_bytes w m /\
    map snd (returns_of 0 h) = [Returned RUnit; Returned (RInt 7)] /\ map snd (returns_of 1 h) = [Returned RUnit; Returned (RInt 9)] /\
    map content (views w) = [[7; 77; 3; 4; 5; 6; 7; 8]; [1; 9; 3; 4; 5; 6; 7; 8]] /\
    content m = [7; 9; 3; 4; 5; 6; 7; 8].
Proof.
  split; [exact two_bytes_shareable|].
  destruct (play do_call writes3 shared3 two_bytes [Go 0 3; See 0 1 55; Go 1 99; Go 0 99; See 0 1 77; Go 0 99; Go 1 99] (wstart shared3 two_bytes)) as [[h w]|] eqn:E;
    [|vm_compute in E; discriminate E].
  exists h, w.
  exists (set_heap shared3 [[7; 9; 3; 4; 5; 6; 7; 8; 0]; [9]; [7]; [9]]).
  split; [exact (play_sound _ _ _ _ _ _ _ _ _ [] (@wx_start _ _ _ _ _ _) E)|]. vm_compute in E. injection E as <- <-. split; [repeat constructor|]. split; [|vm_compute; repeat split; reflexivity].
  split; [reflexivity|]. split; [intros [|[|b]]; cbn; try reflexivity; lia|]. split; [|split].
  - intros V [<-|[<-|[]]]; (split; [reflexivity|intros [|[|[|[|[|b]]]]]; reflexivity]).
  - intros u V l Eu [(cs & d & x & Ec & Id & Wx & ->)|(k & i & Ek & ->)];
      [|destruct k as [|[|k]]; [| |destruct k; discriminate Ek]; injection Ek as <-; injection Eu as <-; intro; reflexivity].
    destruct u as [|[|u]]; [| |destruct u; discriminate Ec]; injection Ec as <-; injection Eu as <-;
      (destruct Id as [<-|[<-|[]]]; [|destruct x; discriminate Wx]); destruct x as [|f|i]; try discriminate Wx;
      cbn in Wx; assert (i = 0 \/ i = 1) as [->| ->] by lia; try discriminate Wx; cbn; reflexivity.
  - intros l N. destruct l as [|f|b i|]; [reflexivity|reflexivity| |exact I]. intro Hi.
    destruct b as [|[|[|[|b]]]]; [|reflexivity| | |destruct b; reflexivity]; cbn [heap set_heap shared3 nth].
    2: { exfalso. apply (N 0%nat). right. exists 0%nat, i. split; reflexivity. }
    2: { exfalso. apply (N 1%nat). right. exists 1%nat, i. split; reflexivity. }
    destruct (Z.to_nat i) as [|[|j]] eqn:Ei; [| |reflexivity]; exfalso.
    + apply (N 0%nat). left. exists (nth 0 two_bytes []), (At 0 (OWriteByte 7)), (Byte 0). repeat split; [left; reflexivity|]. cbn. f_equal. lia.
    + apply (N 1%nat). left. exists (nth 1 two_bytes []), (At 1 (OWriteByte 9)), (Byte 1). repeat split; [left; reflexivity|]. cbn. f_equal. lia.
Qed.
Example C89_mini_case : shareable_mini shared3 mini_parts /\ exists h w m, mini_weak shared3 mini_parts h w /\ wfinished w /\ mini_joined shared3 mini_parts w m.
Proof.
  pose proof mini_parts_shareable as S. split; [exact S|].
  destruct (C89_mini_all_return shared3 mini_parts [] _ S (@wx_start _ _ _ _ _ _)) as (h & w & X & F).
  destruct (C89_mini_joins _ _ _ _ S X) as [m J]. exists h, w, m. auto.
Qed.
Example C89_old_case v pol : shareable_old v Props_Race.shared old_parts /\ exists h w m, old_weak v pol Props_Race.shared old_parts h w /\ wfinished w /\ old_joined v Props_Race.shared old_parts w m.
Proof.
  pose proof (old_parts_shareable v) as S. split; [exact S|].
  destruct (C89_old_all_return v pol Props_Race.shared old_parts [] _ S (@wx_start _ _ _ _ _ _)) as (h & w & X & F).
  destruct (C89_old_joins v pol _ _ _ _ S X) as [m J]. exists h, w, m. auto.
Qed.

(** Goroutines that do share a byte: a read may answer what nobody ever wrote. *)
Definition one_byte : list (list (call slice)) := [[At 0 OReadByte]; [At 0 (OWriteByte 7)]].
Theorem C89_independence_needed :
  exists h w, wexec do_call writes3 shared3 one_byte (wstart shared3 one_byte) h w /\
    map snd (returns_of 0 h) = [Returned (RInt 99)] /\ fst (alone shared3 [At 0 OReadByte]) = [Returned (RInt 1)].
Proof.
  destruct (play do_call writes3 shared3 one_byte [See 0 0 99; Go 0 99] (wstart shared3 one_byte)) as [[h w]|] eqn:E; [|vm_compute in E; discriminate E].
  exists h, w. split; [exact (play_sound _ _ _ _ _ _ _ _ _ [] (@wx_start _ _ _ _ _ _) E)|]. vm_compute in E. injection E as <- <-. vm_compute. split; reflexivity.
Qed.
Print Assumptions C89_independence_needed.
