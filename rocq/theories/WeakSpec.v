(** * WeakSpec: goroutines whose memory is not kept in step.

    Conc.v lets all accesses take effect in one global order.  Real hardware and
    compilers do not: a write may reach another goroutine late, early, out of order or
    in pieces.  Here every goroutine works on its own view of the memory.  Its own
    writes are in its view at once.  At any moment its view may change, in any way
    whatsoever, at the places where another goroutine is at liberty to write.  No memory
    model shows a goroutine more than this; every reasonable one shows it less. *)
From Coq Require Import ZArith List Bool.
From Verif Require Import GoSem Spec Calls Abs History Conc Race RaceSpec3.
Import ListNotations.
Open Scope Z_scope.
Open Scope list_scope.

(** ** Memory, place by place *)

(** Where part [x] of the buffer is. *)
Definition place (s : St) (x : piece) : location :=
  match x with
  | Slice => LHeader
  | Fields f => LField f
  | Byte i => LByte (s_blk (b_buf (bb s))) (s_off (b_buf (bb s)) + i)
  end.

(** Two memories have the same contents at [l]. *)
Definition same_at (l : location) (S S' : St) : Prop :=
  match l with
  | LHeader => b_buf (bb S) = b_buf (bb S')
  | LField f => get_fld (bb S) f = get_fld (bb S') f
  | LByte b i => 0 <= i -> nth (Z.to_nat i) (nth b (heap S) []) 0 = nth (Z.to_nat i) (nth b (heap S') []) 0
  | LOut => True
  end.
(** They have the same arrays, of the same lengths. *)
Definition same_shape (S S' : St) : Prop :=
  List.length (heap S) = List.length (heap S') /\
  forall b, List.length (nth b (heap S) []) = List.length (nth b (heap S') []).

Section Weak.

(** The calls, the programs they run, and the parts of the buffer they write. *)
Context {C : Type} (body : C -> prog (rv slice)) (wr : C -> piece -> bool).
(** The buffer at the start, and the calls of each goroutine. *)
Context (s0 : St) (programs : list (list C)).

(** [owners] are the goroutines that have allocated the arrays which are new since the
    start, in the order of the arrays. *)
Record wconfig : Type := mkW { views : list St; wgs : list (goroutine C); owners : list nat }.

(** Goroutine [u] is at liberty to write at [l]: one of its calls writes that part of
    the buffer, or it has allocated the array. *)
Definition at_liberty (c : wconfig) (u : nat) (l : location) : Prop :=
  (exists cs d x, nth_error programs u = Some cs /\ In d cs /\ wr d x = true /\ l = place s0 x) \/
  (exists k i, nth_error (owners c) k = Some u /\ l = LByte (List.length (heap s0) + k) i).

Definition set_view (c : wconfig) (t : nat) (V : St) (g : goroutine C) : wconfig :=
  mkW (set_nth (views c) t V) (set_nth (wgs c) t g) (owners c).

(** One step of goroutine [t], as in Conc.v but on its own view.  An allocation makes
    the new array known to everyone. *)
Inductive own_wstep (t : nat) (c : wconfig) : list (Conc.event C) -> wconfig -> Prop :=
| w_call o os V :
    nth_error (wgs c) t = Some (mkG (o :: os) None) -> nth_error (views c) t = Some V ->
    own_wstep t c [ECall t o] (set_view c t V (mkG os (Some (o, body o))))
| w_access o os p p' V V' :
    nth_error (wgs c) t = Some (mkG os (Some (o, p))) -> nth_error (views c) t = Some V ->
    match p with Alloc _ _ => False | _ => True end -> step1 p V = Some (p', V') ->
    own_wstep t c [] (set_view c t V' (mkG os (Some (o, p'))))
| w_alloc o os l k V :
    nth_error (wgs c) t = Some (mkG os (Some (o, Alloc l k))) -> nth_error (views c) t = Some V ->
    own_wstep t c [] (mkW (map (fun W => set_heap W (heap W ++ [l])) (views c))
      (set_nth (wgs c) t (mkG os (Some (o, k (List.length (heap V)))))) (owners c ++ [t]))
| w_return o os v V :
    nth_error (wgs c) t = Some (mkG os (Some (o, Ret v))) -> nth_error (views c) t = Some V ->
    own_wstep t c [ERet t o (Returned (view_rv V v))] (set_view c t V (mkG os None))
| w_panic o os e V :
    nth_error (wgs c) t = Some (mkG os (Some (o, Panic e))) -> nth_error (views c) t = Some V ->
    own_wstep t c [ERet t o (Raised e)] (set_view c t V (mkG os None)).

(** The view of goroutine [t] changes. *)
Inductive news (t : nat) (c : wconfig) : wconfig -> Prop :=
| w_news V V' g :
    nth_error (views c) t = Some V -> nth_error (wgs c) t = Some g -> same_shape V V' ->
    (forall l, same_at l V V' \/ exists u, u <> t /\ at_liberty c u l) ->
    news t c (set_view c t V' g).

(** All executions. *)
Inductive wexec (c : wconfig) : list (Conc.event C) -> wconfig -> Prop :=
| wx_start : wexec c [] c
| wx_step h c1 t h' c2 : wexec c h c1 -> own_wstep t c1 h' c2 -> wexec c (h ++ h') c2
| wx_news h c1 t c2 : wexec c h c1 -> news t c1 c2 -> wexec c h c2.

Definition wstart : wconfig := mkW (map (fun _ => s0) programs) (map (fun p => mkG p None) programs) [].
Definition wfinished (c : wconfig) : Prop := Forall (fun g => g = mkG [] None) (wgs c).
Definition wresting (c : wconfig) : Prop := Forall (fun g => cur g = None) (wgs c).

(** The memory [m] that a goroutine sees once the others have been waited for (with a
    channel, a mutex or a [sync.WaitGroup]): all that each of them has written, and
    elsewhere what was there before. *)
Definition joined (c : wconfig) (m : St) : Prop :=
  List.length (heap m) = (List.length (heap s0) + List.length (owners c))%nat /\
  (forall b, (b < List.length (heap s0))%nat -> List.length (nth b (heap m) []) = List.length (nth b (heap s0) [])) /\
  (forall V, In V (views c) -> same_shape m V) /\
  (forall u V l, nth_error (views c) u = Some V -> at_liberty c u l -> same_at l m V) /\
  (forall l, (forall u, ~ at_liberty c u l) -> same_at l m s0).

End Weak.
Arguments wconfig C : clear implicits.
