(** * Conc: several goroutines calling the methods of one buffer.

    The method bodies are the same [prog] trees that [run] executes; here one
    node at a time, interleaved in any order with the nodes of the other
    goroutines.  One node is one access to memory, to a struct field or to the
    mutex, and accesses take effect in one global order (sequential
    consistency; see DESIGN.md for what that leaves out). *)
From Coq Require Import ZArith List Bool.
From Verif Require Import GoSem Spec Calls Abs History.
Import ListNotations.
Open Scope Z_scope.

(** ** One access *)

(** [None]: the program has ended, or waits for the mutex, or would fault. *)
Definition step1 {A} (p : prog A) (s : St) : option (prog A * St) :=
  match p with
  | Ret _ | Panic _ | OutOfFuel => None
  | GetBuf k => Some (k (b_buf (bb s)), s)
  | SetBuf sl k => Some (k, set_bb s (upd_buf (bb s) sl))
  | GetF f k => Some (k (get_fld (bb s) f), s)
  | SetF f v k => Some (k, set_bb s (upd_fld (bb s) f v))
  | Load b i k => match heap_read (heap s) b i 1 with Some [v] => Some (k v, s) | _ => None end
  | Store b i v k =>
      match heap_write (heap s) b i [v] with Some h => Some (k, set_heap s h) | None => None end
  | Move db di sb si n k =>
      match heap_read (heap s) sb si n with
      | Some d => match heap_write (heap s) db di d with Some h => Some (k, set_heap s h) | None => None end
      | None => None
      end
  | Alloc l k => Some (k (List.length (heap s)), set_heap s (heap s ++ [l]))
  | GetOuts k => Some (k (outs s), s)
  | SetOuts l k => Some (k, set_outs s l)
  | Lock k => if mu s then None else Some (k, set_mu s true)
  | Unlock k => if mu s then Some (k, set_mu s false) else None
  end.

(** ** Goroutines *)

Section Goroutines.

(** The calls of the API and the program each one runs. *)
Context {call : Type} (body : call -> prog (rv slice)).

(** A goroutine: the calls it has still to make, and the call it is in. *)
Record goroutine : Type := mkG { todo : list call; cur : option (call * prog (rv slice)) }.

(** All goroutines share one buffer. *)
Record config : Type := mkC { sh : St; gs : list goroutine }.

Definition set_nth {A} (l : list A) (n : nat) (x : A) : list A := firstn n l ++ x :: skipn (S n) l.

Definition set_g (c : config) (t : nat) (s : St) (g : goroutine) : config :=
  mkC s (set_nth (gs c) t g).

(** What an observer sees: goroutine [t] enters a call, and leaves it with a
    result.  (A panic ends the call; the goroutine may recover and go on.) *)
Inductive event : Type :=
| ECall (t : nat) (c : call)
| ERet (t : nat) (c : call) (a : answer).

(** One step of goroutine [t]. *)
Inductive gstep (t : nat) (c : config) : list event -> config -> Prop :=
| g_call o os :
    nth_error (gs c) t = Some (mkG (o :: os) None) ->
    gstep t c [ECall t o] (set_g c t (sh c) (mkG os (Some (o, body o))))
| g_step o os p p' s' :
    nth_error (gs c) t = Some (mkG os (Some (o, p))) -> step1 p (sh c) = Some (p', s') ->
    gstep t c [] (set_g c t s' (mkG os (Some (o, p'))))
| g_return o os v :
    nth_error (gs c) t = Some (mkG os (Some (o, Ret v))) ->
    gstep t c [ERet t o (Returned (view_rv (sh c) v))] (set_g c t (sh c) (mkG os None))
| g_panic o os e :
    nth_error (gs c) t = Some (mkG os (Some (o, Panic e))) ->
    gstep t c [ERet t o (Raised e)] (set_g c t (sh c) (mkG os None)).

(** An execution from [c]: any schedule, with the history of its events. *)
Inductive exec (c : config) : list event -> config -> Prop :=
| ex_start : exec c [] c
| ex_step h c1 t h' c2 : exec c h c1 -> gstep t c1 h' c2 -> exec c (h ++ h') c2.

(** The goroutines before they start. *)
Definition start (s : St) (programs : list (list call)) : config :=
  mkC s (map (fun p => mkG p None) programs).

(** All goroutines have made all their calls. *)
Definition finished (c : config) : Prop := Forall (fun g => g = mkG [] None) (gs c).

End Goroutines.
Arguments goroutine call : clear implicits.
Arguments config call : clear implicits.
Arguments event call : clear implicits.

(** ** Linearizability *)

Section Atomic.

(** [seq c a r a']: executed alone on [a], the call [c] answers [r] and leaves [a']. *)
Context {call state : Type} (seq : call -> state -> answer -> state -> Prop) (a0 : state).

(** The atomic object: a call takes its whole effect, and fixes its answer, in
    one instant between its invocation and its return. *)
Inductive pending : Type :=
| Idle
| Called (c : call)                    (* invoked, no effect yet *)
| Decided (c : call) (r : answer).     (* took effect, not yet returned *)

Definition set_q (q : nat -> pending) (t : nat) (x : pending) : nat -> pending :=
  fun u => if Nat.eqb u t then x else q u.

(** [atomic h a q]: the history [h] can be a history of the atomic object, which
    is then in state [a] with pending calls [q].  (This is linearizability:
    the order of the [at_effect] steps is the sequential order of the calls; it
    contains the program order of each goroutine and the real-time order of
    non-overlapping calls because each effect lies between call and return.) *)
Inductive atomic : list (event call) -> state -> (nat -> pending) -> Prop :=
| at_start : atomic [] a0 (fun _ => Idle)
| at_call h a q t c : atomic h a q -> q t = Idle -> atomic (h ++ [ECall t c]) a (set_q q t (Called c))
| at_effect h a q t c r a' : atomic h a q -> q t = Called c -> seq c a r a' -> atomic h a' (set_q q t (Decided c r))
| at_ret h a q t c r : atomic h a q -> q t = Decided c r -> atomic (h ++ [ERet t c r]) a (set_q q t Idle).

End Atomic.
Arguments pending call : clear implicits.

(** ** The same, as an order of the calls *)

Section Linearizable.

Context {call state : Type} (seq : call -> state -> answer -> state -> Prop).

(** The calls of goroutine [t] that the history shows to be invoked, resp. to
    have returned, in program order. *)
Definition calls_of (t : nat) (h : list (event call)) : list call :=
  flat_map (fun e => match e with ECall u c => if Nat.eqb u t then [c] else [] | _ => [] end) h.
Definition returns_of (t : nat) (h : list (event call)) : list (call * answer) :=
  flat_map (fun e => match e with ERet u c r => if Nat.eqb u t then [(c, r)] else [] | _ => [] end) h.

(** A sequential order of answered calls, each with its goroutine. *)
Definition order : Type := list (nat * (call * answer)).
Definition of (t : nat) (o : order) : list (call * answer) :=
  flat_map (fun x => if Nat.eqb (fst x) t then [snd x] else []) o.

(** Made one after the other from [a], they answer just so and leave [a']. *)
Inductive runs : state -> order -> state -> Prop :=
| runs_nil a : runs a [] a
| runs_snoc a o a1 t c r a2 : runs a o a1 -> seq c a1 r a2 -> runs a (o ++ [(t, (c, r))]) a2.

Definition prefix {A} (l m : list A) : Prop := exists n, m = l ++ n.

(** [o] has every returned call with its answer, and otherwise only invoked calls. *)
Definition explains (o : order) (h : list (event call)) : Prop :=
  forall t, prefix (returns_of t h) (of t o) /\ prefix (map fst (of t o)) (calls_of t h).

(** The history [h] from [a] is that of some order of its calls, which ends in
    [a']: the order respects what the goroutines see, and real time: at any
    instant, a prefix of the order has all calls returned so far and no call not
    yet invoked. *)
Definition linearizable (a : state) (h : list (event call)) (a' : state) : Prop :=
  exists o, runs a o a' /\ explains o h /\
    forall h1 h2, h = h1 ++ h2 -> exists o1 o2, o = o1 ++ o2 /\ explains o1 h1.

End Linearizable.
