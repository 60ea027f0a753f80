(** * RaceSpec: which calls of a v1 or v2 [Buffer] may run at the same time.

    For each method, the parts of the buffer that it reads while it does not hold
    the mutex and the parts that it writes (every write is made with the mutex).
    Calls of different goroutines are compatible if neither writes what the other
    reads without the mutex. *)
From Coq Require Import ZArith List Bool.
From Verif Require Import GoSem Spec Calls OldCalls V1Calls.
Import ListNotations.
Open Scope Z_scope.
Open Scope list_scope.

(** ** What each call reads without the mutex, and what it writes *)

Inductive item : Type := Header | Field (f : fld) | Contents.

Definition bits_op {B} (o : op2 B) : bool :=
  match o with PReadBit | PReadBits _ | PSetBit _ | PSetBits _ _ | PFlipBit => true | _ => false end.

(** v1 decodes integers after it has released the mutex (v1/buffer.go:366-410). *)
Definition bare_op {B} (v1 : bool) (o : op2 B) : list item :=
  match o with
  | PReadBit | PReadBits _ | PSetBit _ | PSetBits _ _ | PFlipBit => [Field FBcap]
  | PWriteBytes _ | PWriteByte _ | PWrite _ _ | PReadBytes _ => [Field FCap]
  | PReadByte => [Field FCap; Contents]
  | PRead _ _ => if v1 then [Field FCap; Contents] else [Field FCap]
  end.
Definition bare {B} (v1 : bool) (c : call2 B) : list item :=
  match c with
  | At2 _ o => bare_op v1 o
  | Next2 o => Field (if bits_op o then FBoff else FOff) :: bare_op v1 o
  | KClearAllBits | KSetAllBits | KFlipAllBits | KSeekBit _ _ | KSeek _ _ | KAlignBit | KAlignByte
  | KGrow _ | KRefresh | KReset => []
  | KAfterBit None => [Field FBcap; Field FBoff]
  | KAfterBit (Some _) | KBitCapacity => [Field FBcap]
  | KAfter None => [Field FCap; Field FOff]
  | KAfter (Some _) | KCapacity => [Field FCap]
  | KBytes => [Header]
  | KOffset => [Field FOff]
  | KBitOffset => [Field FBoff]
  end.

Definition written_op {B} (o : op2 B) : list item :=
  match o with
  | PSetBit _ | PSetBits _ _ | PFlipBit | PWriteBytes _ | PWriteByte _ | PWrite _ _ => [Contents]
  | PReadBit | PReadBits _ | PReadBytes _ | PReadByte | PRead _ _ => []
  end.
Definition written {B} (c : call2 B) : list item :=
  match c with
  | At2 _ o => written_op o
  | Next2 o => Field (if bits_op o then FBoff else FOff) :: written_op o
  | KClearAllBits | KSetAllBits | KFlipAllBits => [Contents]
  | KSeekBit _ _ | KAlignBit => [Field FBoff]
  | KSeek _ _ | KAlignByte => [Field FOff]
  | KGrow _ => [Header; Contents; Field FCap; Field FBcap]
  | KRefresh => [Field FCap; Field FBcap]
  | KReset => [Header; Contents; Field FOff; Field FBoff; Field FCap; Field FBcap]
  | KAfterBit _ | KAfter _ | KBytes | KCapacity | KBitCapacity | KOffset | KBitOffset => []
  end.

(** ** Programs that the table allows *)

Definition conflicting (v1 : bool) (c d : call2 slice) : Prop :=
  exists g, In g (written c) /\ In g (bare v1 d).

(** [programs]: the calls of each goroutine. *)
Definition compatible (v1 : bool) (programs : list (list (call2 slice))) : Prop :=
  forall t u cs ds c d, t <> u -> nth_error programs t = Some cs -> nth_error programs u = Some ds ->
    In c cs -> In d ds -> ~ conflicting v1 c d.

(** The program of a v1 call.  v1 has no Reset. *)
Definition v1_call (pol : Z -> Z -> Z) (c : call2 slice) : prog (rv slice) :=
  match do1_call pol c with Some p => p | None => Ret RUnit end.
