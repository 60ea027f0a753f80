(** * IsolateSpec: goroutines that each have a buffer of their own.

    Any number of goroutines, each with one buffer of any version, a [Buffer] or a
    [MiniBuffer].  Memory is shared: goroutine [t] has the bytes [own t], which no
    other goroutine may touch, and everybody may read the bytes that nobody has.
    The steps of the goroutines, single accesses to memory as in Conc.v, interleave
    in any order. *)
From Coq Require Import ZArith List Bool.
From Verif Require Import GoSem Errors Spec Calls Abs MiniAbs OldCalls V1Calls Abs2 MiniAbs2 History MiniHistory Conc Race.
Import ListNotations.
Open Scope Z_scope.
Open Scope list_scope.

(** ** Goroutines *)

(** The types: crunch.Buffer and crunch.MiniBuffer of v3, and of v1 and v2. *)
Inductive sort : Set := Buf3 | Mini3 | BufOld (v : version) | MiniOld (v : version).

(** A call; [out]: what the variable behind the [out] pointer of a MiniBuffer method
    holds before it. *)
Inductive job : Type :=
| J3 (c : call slice) (out : list Z)
| J2 (c : call2 slice) (out : list Z).
Definition job_out (j : job) : list Z := match j with J3 _ o | J2 _ o => o end.

(** What a call does: the models of the methods. *)
Definition job_body (pol : Z -> Z -> Z) (k : sort) (j : job) : prog (rv slice) :=
  match k, j with
  | Buf3, J3 c _ => do_call c
  | Mini3, J3 c _ => mini_call c
  | BufOld V2, J2 c _ => do2_call pol c
  | BufOld V1, J2 c _ => match do1_call pol c with Some p => p | None => Panic (RuntimeError NilMapOrOther) end
  | MiniOld v, J2 c _ => old_mini v pol c
  | _, _ => Panic (RuntimeError NilMapOrOther)   (* no such method *)
  end.

Section Programs.
Variable body : sort -> job -> prog (rv slice).   (* what a call does *)

(** A goroutine: its buffer with the mutex and the out variable, the calls it has
    still to make, the call it is in, and the answers it got. *)
Record worker : Type := mkW {
  w_sort : sort; w_buf : Buf; w_mu : bool; w_outs : list Z;
  w_todo : list job; w_cur : option (prog (rv slice)); w_done : list manswer }.

(** What it sees: memory and its own buffer. *)
Definition sees (m : heap_t) (w : worker) : St := mkSt m (w_buf w) (w_mu w) (w_outs w).

Inductive wstep (m : heap_t) : worker -> heap_t -> worker -> Prop :=
| w_call k b mu o j js l :
    wstep m (mkW k b mu o (j :: js) None l) m (mkW k b mu (job_out j) js (Some (body k j)) l)
| w_step k b mu o js p l p' s' : step1 p (mkSt m b mu o) = Some (p', s') ->
    wstep m (mkW k b mu o js (Some p) l) (heap s') (mkW k (bb s') (GoSem.mu s') (outs s') js (Some p') l)
| w_return k b mu o js v l :
    wstep m (mkW k b mu o js (Some (Ret v)) l) m (mkW k b mu o js None (l ++ [MReturned (view_rv (mkSt m b mu o) v) o]))
| w_panic k b mu o js e l :
    wstep m (mkW k b mu o js (Some (Panic e)) l) m (mkW k b mu o js None (l ++ [MRaised e o])).

(** All of them. *)
Record shop : Type := mkShop { memory : heap_t; workers : list worker }.

(** What goroutine [t] accesses in its next step. *)
Definition shop_access (c : shop) (t : nat) : trace :=
  match nth_error (workers c) t with
  | Some w => match w_cur w with
              | Some p => match access_of p (sees (memory c) w) with Some a => [(t, a)] | None => [] end
              | None => []
              end
  | None => []
  end.

(** Any schedule (whose turn it was), with the accesses in their order. *)
Inductive works (c : shop) : list nat -> trace -> shop -> Prop :=
| wk_start : works c [] [] c
| wk_step sch tr c1 t w m w' : works c sch tr c1 -> nth_error (workers c1) t = Some w -> wstep (memory c1) w m w' ->
    works c (sch ++ [t]) (tr ++ shop_access c1 t) (mkShop m (set_nth (workers c1) t w')).

(** ** One goroutine alone *)

(** The answers to the calls made one after the other, up to a call that never
    returns; and the state after them, if all return. *)
Fixpoint alone (k : sort) (s : St) (js : list job) : list manswer * option St :=
  match js with
  | [] => ([], Some s)
  | j :: r =>
      match run (body k j) (set_outs s (job_out j)) with
      | Done v s' => let (l, e) := alone k s' r in (MReturned (view_rv s' v) (outs s') :: l, e)
      | Panicked e s' => let (l, e') := alone k s' r in (MRaised e (outs s') :: l, e')
      | Deadlock _ | Stuck => ([], None)
      end
  end.
End Programs.

(** ** Who has which memory *)

(** Byte [i] of array [b] belongs to goroutine [t]. *)
Definition ownership : Type := nat -> nat -> Z -> Prop.

(** Nobody else has what [t] has. *)
Definition exclusive (own : ownership) : Prop := forall t u b i, own t b i -> own u b i -> t = u.

(** Goroutine [t] may read: its own bytes, and those that nobody has. *)
Definition may_see (own : ownership) (t : nat) (b : nat) (i : Z) : Prop := forall u, own u b i -> u = t.

(** The argument of a call. *)
Definition job_arg (j : job) : option slice :=
  match j with
  | J3 (At _ (OWriteBytes d)) _ | J3 (Next (OWriteBytes d)) _
  | J2 (At2 _ (PWriteBytes d)) _ | J2 (Next2 (PWriteBytes d)) _ => Some d
  | _ => None
  end.

(** The buffer of a goroutine lies in its memory, up to the capacity; the slices
    that it passes have bytes it may see. *)
Definition at_home (own : ownership) (c : shop) : Prop :=
  forall t w, nth_error (workers c) t = Some w ->
    (forall i, let d := b_buf (w_buf w) in s_off d <= i < s_off d + s_cap d -> own t (s_blk d) i) /\
    (forall j d, In j (w_todo w) -> job_arg j = Some d ->
       forall i, s_off d <= i < s_off d + s_len d -> may_see own t (s_blk d) i).

(** A call that a Go program can make. *)
Definition valid_job (k : sort) (s : St) (j : job) : Prop :=
  match k, j with
  | Buf3, J3 c _ => valid_call s c
  | Mini3, J3 c out => valid_mini s c out
  | BufOld v, J2 c _ => valid_call2 s c /\ (v = V1 -> c <> KReset)
  | MiniOld v, J2 c out => valid_old_mini v s c out
  | _, _ => False
  end.

(** Before the goroutines start: well-formed buffers, unlocked. *)
Definition opened (c : shop) : Prop :=
  Forall (fun w => WF (sees (memory c) w) /\ w_mu w = false /\ w_cur w = None /\ w_done w = [] /\
    Forall (valid_job (w_sort w) (sees (memory c) w)) (w_todo w)) (workers c).

(** ** What is compared *)

Definition byte_in (m : heap_t) (b : nat) (i : Z) : Z := nth (Z.to_nat i) (nth b m []) 0.

(** Two buffers, each in its memory, in the same condition: offsets and capacities,
    and the bytes, with those behind the end up to the capacity of the slice. *)
Definition same_buffer (s s' : St) : Prop :=
  let d := b_buf (bb s) in let d' := b_buf (bb s') in
  (forall f, get_fld (bb s) f = get_fld (bb s') f) /\ s_len d = s_len d' /\ s_cap d = s_cap d' /\
  (forall i, 0 <= i < s_cap d -> byte_in (heap s) (s_blk d) (s_off d + i) = byte_in (heap s') (s_blk d') (s_off d' + i)) /\
  mu s = mu s' /\ outs s = outs s'.

(** Goroutine [w] is in a call that waits for the mutex of its own buffer, which it
    has locked itself. *)
Definition waits (w : worker) : Prop := exists p, w_cur w = Some (Lock p) /\ w_mu w = true.
Definition finished (w : worker) : Prop := w_cur w = None /\ w_todo w = [].
