(** * AloneMiniSpec: which goroutines can share a [MiniBuffer] without noticing each other.

    As AloneSpec.v, for the MiniBuffer of all three versions.  Every call has a
    variable of its own behind its [out] pointer (RaceMiniSpec.v, RaceMiniSpec2.v). *)
From Coq Require Import ZArith List Bool.
From Verif Require Import GoSem Errors Spec Calls Abs History MiniAbs OldCalls Abs2 Sim2 MiniAbs2 RaceSpec3 RaceMiniSpec RaceSpec RaceMiniSpec2.
Import ListNotations.
Open Scope Z_scope.
Open Scope list_scope.

(** ** What the caller gets to see *)

(** What the call reads, and the bytes of a returned slice. *)
Definition sees_mini (c : call slice) (x : piece) : bool :=
  reads_mini c x ||
  match c, x with
  | At off (OReadBytes n), Byte i => (off <=? i) && (i <? off + n)
  | Next (OReadBytes _), Byte _ | CBytes, Byte _ => true
  | _, _ => false
  end.
Definition sees_old (v : version) (c : call2 slice) (x : piece) : bool :=
  reads_old v c x ||
  match c, x with
  | At2 off (PReadBytes n), Byte i => (off <=? i) && (i <? off + n)
  | Next2 (PReadBytes _), Byte _ | KBytes, Byte _ => true
  | _, _ => false
  end.

(** No goroutine writes what another one sees or writes. *)
Definition unrelated {C} (sees writes : C -> piece -> bool) (programs : list (list C)) : Prop :=
  forall t u cs ds c d x, t <> u -> nth_error programs t = Some cs -> nth_error programs u = Some ds ->
    In c cs -> In d ds -> writes c x = true -> sees d x = false /\ writes d x = false.
Definition independent_mini : list (list mini_use) -> Prop :=
  unrelated (fun u => sees_mini (fst u)) (fun u => writes_mini (fst u)).
Definition independent_old (v : version) : list (list old_use) -> Prop :=
  unrelated (fun u => sees_old v (fst u)) (fun u => writes_old v (fst u)).

(** The calls that leave the buffer where it is. *)
Definition in_place_mini (c : call slice) : Prop :=
  match c with CTruncateLeft _ | CTruncateRight _ | CGrow _ | CReset => False | _ => True end.
Definition in_place_old (c : call2 slice) : Prop :=
  match c with KGrow _ | KReset => False | _ => True end.

(** ** The calls one after the other *)

(** On a buffer that nobody else uses: the answers and the buffer at the end. *)
Fixpoint one_by_one {C} (one : C -> abuf -> answer * abuf) (cs : list C) (a : abuf) : list answer * abuf :=
  match cs with
  | [] => ([], a)
  | c :: r => let (x, a1) := one c a in let (xs, a2) := one_by_one one r a1 in (x :: xs, a2)
  end.
Definition answer_of (o : outcome) : answer * abuf :=
  match o with Ok v a => (Returned v, a) | Fail e a => (Raised e, a) end.

(** The abstract MiniBuffers of MiniAbs.v and MiniAbs2.v. *)
Definition mini_one (s : St) (u : mini_use) (a : abuf) : answer * abuf :=
  answer_of (fst (mini_abs_call (view_call s (fst u)) a (snd u))).
Definition old_one (v : version) (pol : Z -> Z -> Z) (s : St) (u : old_use) (a : abuf) : answer * abuf :=
  match old_mini_abs v pol (view_old s (fst u)) a (snd u) with
  | Some (o, _) => answer_of o
  | None => (Raised (RuntimeError NilMapOrOther), a)   (* cannot happen: C70 *)
  end.
Definition mini_alone (s : St) (us : list mini_use) : list answer * abuf := one_by_one (mini_one s) us (abs s).
Definition old_alone (v : version) (pol : Z -> Z -> Z) (s : St) (us : list old_use) : list answer * abuf :=
  one_by_one (old_one v pol s) us (abs s).
