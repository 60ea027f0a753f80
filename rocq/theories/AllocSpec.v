(** * AllocSpec: counting the memory a history of calls uses. *)
From Coq Require Import ZArith List Bool.
From Verif Require Import GoSem Spec Typed Calls History MiniHistory.
Import ListNotations.
Open Scope Z_scope.
Open Scope list_scope.

(** The sizes of the arrays that exist, oldest first, and how many bytes they
    have together.  These are the arrays of bytes; the slice of numbers that a typed
    read makes for its result is a value of the model, not an array, and is not
    counted.  The garbage collector is not modelled: an array counts even
    if nothing refers to it any more. *)
Definition blocks (s : St) : list Z := map zlen (heap s).
Definition total (l : list Z) : Z := fold_right Z.add 0 l.
Definition memory (s : St) : Z := total (blocks s).

(** The capacity of the slice behind the buffer (Go's [cap], not [len]). *)
Definition room (s : St) : Z := s_cap (b_buf (bb s)).

(** [Bytes()] is this long. *)
Definition used (s : St) : Z := s_len (b_buf (bb s)).

(** What the history asks [Grow] for, in bytes. *)
Definition asks (e : event) : Z := match e with ECall (CGrow n) => Z.max 0 n | _ => 0 end.
Definition asked (es : list event) : Z := total (map asks es).

(** The arrays the history makes without [Grow]: those of the caller, and the
    one-byte array of a [WriteByte] or [WriteByteNext] call, which the Go
    compiler may keep on the stack. *)
Definition makes (e : event) : list Z :=
  match e with
  | EAlloc l => [zlen l]
  | ECall (At _ (OWriteByte _)) | ECall (Next (OWriteByte _)) => [1]
  | _ => []
  end.
Definition made (es : list event) : list Z := flat_map makes es.

(** The array [Grow] makes in a state: none when the spare capacity is enough (or
    the call panics), otherwise one of twice the capacity and the bytes asked for. *)
Definition grows (s : St) (e : event) : list Z :=
  match e with
  | ECall (CGrow n) =>
      if (0 <=? n) && (room s - used s <? n) && (2 * (room s + n) <=? maxAlloc) then [2 * (room s + n)] else []
  | _ => []
  end.

(** The history never cuts bytes off at the left. *)
Definition keeps_left (e : event) : Prop := match e with ECall (CTruncateLeft _) => False | _ => True end.

(** The same for a MiniBuffer.  Its TruncateRight accepts a negative count and then
    makes the buffer longer, into the spare capacity: that counts as asking. *)
Definition mini_asks (e : mevent) : Z :=
  match e with
  | MCall (CGrow n) _ => Z.max 0 n
  | MCall (CTruncateRight n) _ => Z.max 0 (- n)
  | _ => 0
  end.
Definition mini_asked (es : list mevent) : Z := total (map mini_asks es).
Definition mini_makes (e : mevent) : list Z := match e with MAlloc l => [zlen l] | _ => [] end.
Definition mini_made (es : list mevent) : list Z := flat_map mini_makes es.
Definition mini_grows (s : St) (e : mevent) : list Z :=
  match e with
  | MCall (CGrow n) _ => if (room s - used s <? n) && (2 * (room s + n) <=? maxAlloc) then [2 * (room s + n)] else []
  | _ => []
  end.
Definition mini_keeps_left (e : mevent) : Prop := match e with MCall (CTruncateLeft _) _ => False | _ => True end.
