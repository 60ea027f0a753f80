(** * Race: the memory accesses of goroutines, and what a data race is.

    The definitions of the Go memory model (https://go.dev/ref/mem) for the
    programs of Conc.v: which locations a step reads and writes, which steps
    happen before which, and when two steps race.  Sequential consistency, which
    Conc.v assumes, is what the memory model promises to programs without races. *)
From Coq Require Import ZArith List Bool.
From Verif Require Import GoSem Calls Conc.
Import ListNotations.
Open Scope Z_scope.

(** ** Accesses *)

(** What two goroutines can share: the fields of the buffer struct (v1/buffer.go:20-28,
    v2/buffer.go:17-25, v3/buffer.generated.go:18-24), the bytes of memory, and the
    elements of the caller's out variable (MiniBuffer only). *)
Inductive location : Type :=
| LHeader                          (* b.buf: pointer, length and capacity *)
| LField (f : fld)                 (* b.off, b.cap, b.boff, b.bcap *)
| LByte (b : nat) (i : Z)          (* byte [i] of the backing array [b] *)
| LOut.

Inductive access : Type :=
| Rd (l : location)
| Wr (l : location)
| Mv (db : nat) (di : Z) (sb : nat) (si n : Z)  (* copy: reads the source, writes the destination *)
| New (b : nat)                                 (* allocation, which fills the array [b] *)
| Acquire | Release.                            (* b.Lock(), b.Unlock() *)

Definition reads (a : access) (l : location) : Prop :=
  match a with
  | Rd l' => l = l'
  | Mv _ _ sb si n => exists i, si <= i < si + n /\ l = LByte sb i
  | _ => False
  end.
Definition writes (a : access) (l : location) : Prop :=
  match a with
  | Wr l' => l = l'
  | Mv db di _ _ n => exists i, di <= i < di + n /\ l = LByte db i
  | New b => exists i, l = LByte b i
  | _ => False
  end.

(** Two accesses to a common location, at least one of them a write. *)
Definition conflict (a b : access) : Prop :=
  exists l, (writes a l /\ (reads b l \/ writes b l)) \/ (reads a l /\ writes b l).

(** The next access of a program in memory [s]; [None] at its end. *)
Definition access_of {A} (p : prog A) (s : St) : option access :=
  match p with
  | Ret _ | Panic _ | OutOfFuel => None
  | GetBuf _ => Some (Rd LHeader)
  | SetBuf _ _ => Some (Wr LHeader)
  | GetF f _ => Some (Rd (LField f))
  | SetF f _ _ => Some (Wr (LField f))
  | Load b i _ => Some (Rd (LByte b i))
  | Store b i _ _ => Some (Wr (LByte b i))
  | Move db di sb si n _ => Some (Mv db di sb si n)
  | Alloc _ _ => Some (New (List.length (heap s)))
  | GetOuts _ => Some (Rd LOut)
  | SetOuts _ _ => Some (Wr LOut)
  | Lock _ => Some Acquire
  | Unlock _ => Some Release
  end.

(** ** Traces *)

(** The accesses of an execution, each with its goroutine, in the order in which
    they take effect. *)
Definition trace : Type := list (nat * access).

Section Traced.
Context {call : Type} (body : call -> prog (rv slice)).

(** What goroutine [t] accesses in its next step. *)
Definition next_access (c : config call) (t : nat) : trace :=
  match nth_error (gs c) t with
  | Some (mkG _ (Some (_, p))) => match access_of p (sh c) with Some a => [(t, a)] | None => [] end
  | _ => []
  end.

(** An execution from [c], any schedule, with its accesses. *)
Inductive traced (c : config call) : trace -> config call -> Prop :=
| tr_start : traced c [] c
| tr_step tr c1 t h c2 : traced c tr c1 -> gstep body t c1 h c2 -> traced c (tr ++ next_access c1 t) c2.
End Traced.

(** ** Races *)

(** Step [i] happens before step [j]: the steps of one goroutine happen in their
    order, and an Unlock happens before every later Lock. *)
Inductive before (tr : trace) : nat -> nat -> Prop :=
| b_program i j t a b : (i < j)%nat -> nth_error tr i = Some (t, a) -> nth_error tr j = Some (t, b) -> before tr i j
| b_mutex i j t u : (i < j)%nat -> nth_error tr i = Some (t, Release) -> nth_error tr j = Some (u, Acquire) -> before tr i j
| b_trans i j k : before tr i j -> before tr j k -> before tr i k.

(** Steps [i] and [j] are a data race. *)
Definition race_at (tr : trace) (i j : nat) : Prop :=
  exists t a u b, (i < j)%nat /\ nth_error tr i = Some (t, a) /\ nth_error tr j = Some (u, b) /\
    t <> u /\ conflict a b /\ ~ before tr i j.
Definition race_free (tr : trace) : Prop := forall i j, ~ race_at tr i j.
