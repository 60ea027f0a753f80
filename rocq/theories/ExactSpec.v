(** * ExactSpec: calls of v3 that stay at their places.

    The calls that take their place in the buffer from their arguments and move
    neither the buffer nor its offsets: all methods with an offset, the three
    methods that change all bits, and the methods that only look at the fields. *)
From Coq Require Import ZArith List Bool.
From Verif Require Import GoSem Spec Calls MiniAbs RaceMiniSpec.
Import ListNotations.
Open Scope Z_scope.

Definition placed (c : call slice) : Prop :=
  match c with
  | At _ _ | CClearAllBits | CSetAllBits | CFlipAllBits | CAfterBit _ | CAfterByte _
  | CBytes | CByteCapacity | CBitCapacity | CByteOffset | CBitOffset => True
  | _ => False
  end.

(** The call returns, that is it does not panic, if it is made in state [s]. *)
Definition returns (p : prog (rv slice)) (s : St) : Prop := exists v s', run p s = Done v s'.

(** The data of a WriteBytes ends before the end of the buffer.  The [MiniBuffer]
    drops what does not fit. *)
Definition fits_in (b : Buf) (c : call slice) : Prop :=
  match c with At off (OWriteBytes d) => off + s_len d <= s_len (b_buf b) | _ => True end.
