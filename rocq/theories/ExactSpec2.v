(** * ExactSpec2: calls of a v1 or v2 [MiniBuffer] that stay at their places.

    As ExactSpec.v: the calls that take their place in the buffer from their
    arguments and move neither the buffer nor its offsets. *)
From Coq Require Import ZArith List Bool.
From Verif Require Import GoSem Spec Calls OldCalls.
Import ListNotations.
Open Scope Z_scope.

Definition placed_old (c : call2 slice) : Prop :=
  match c with
  | At2 _ _ | KClearAllBits | KSetAllBits | KFlipAllBits | KAfterBit _ | KAfter _
  | KBytes | KCapacity | KBitCapacity | KOffset | KBitOffset => True
  | _ => False
  end.

(** There are bytes of the buffer where the call looks for them: an integer read
    ends in the buffer (that of v1 may go on in the memory behind it), and a buffer
    of which all bits are changed is not empty. *)
Definition on_bytes (b : Buf) (c : call2 slice) : Prop :=
  match c with
  | At2 off (PRead t n) => off + n * tsize (fmt t) <= s_len (b_buf b)
  | KClearAllBits | KSetAllBits | KFlipAllBits => 0 < s_len (b_buf b)
  | _ => True
  end.
