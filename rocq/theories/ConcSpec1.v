(** * ConcSpec1: the v1 [Buffer] used by one goroutine, as an abstract object.

    As ConcSpec.v for v2, with the differences of v1: ClearAllBits, SetAllBits and
    FlipAllBits do nothing to an empty buffer (v1/buffer.go:166-205 are ordinary
    [for] loops), and there is no Reset. *)
From Coq Require Import ZArith List Bool.
From Verif Require Import GoSem Errors Spec Calls Abs History OldCalls Conc ConcSpec.
Import ListNotations.
Open Scope Z_scope.

(** [None] for the calls that have no specification here. *)
Definition seq_call1 (c : call2 (list Z)) (a : abuf) : option outcome :=
  let all (f : Z -> Z) := Ok RUnit (set_bytes a (map f (a_bytes a))) in
  match c with
  | KClearAllBits => Some (all (fun _ => 0))
  | KSetAllBits => Some (all (fun _ => 255))
  | KFlipAllBits => Some (all (fun b => 255 - b))
  | At2 _ (PReadBits _ | PSetBits _ _ | PReadBytes _ | PRead _ _) | KBytes => None
  | _ => seq_call c a
  end.

(** [seq_v1 h c a r a']: made alone on [a], the call [c] answers [r] and leaves [a'];
    [h] is the memory its arguments live in. *)
Definition seq_v1 (h : heap_t) (c : call2 slice) (a : abuf) (r : answer) (a' : abuf) : Prop :=
  match seq_call1 (view_call2 h c) a with
  | Some (Ok v a1) => r = Returned v /\ a' = a1
  | Some (Fail e a1) => r = Raised e /\ a' = a1
  | None => False
  end.

(** ** The calls that are one critical section *)

(** As [atomic_call], without ReadComplex: it decodes after the lock is released. *)
Definition atomic_call1 (s : St) (c : call2 slice) : Prop :=
  match c with
  | At2 _ (PReadBit | PSetBit _ | PFlipBit | PWriteByte _ | PWrite _ _) => True
  | At2 _ (PWriteBytes d) => apart s d
  | At2 _ _ | Next2 _ | KGrow _ | KReset | KBytes => False
  | _ => True
  end.

(** ReadByte as well, when no call writes more than one byte. *)
Definition single_call1 (s : St) (c : call2 slice) : Prop :=
  match c with
  | At2 _ (PReadBit | PSetBit _ | PFlipBit | PWriteByte _ | PReadByte) => True
  | At2 _ (PWriteBytes d) => apart s d /\ s_len d <= 1
  | At2 _ _ | Next2 _ | KGrow _ | KReset | KBytes | KClearAllBits | KSetAllBits | KFlipAllBits => False
  | _ => True
  end.
