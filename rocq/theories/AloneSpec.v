(** * AloneSpec: which goroutines can share a v3 [Buffer] without noticing each other. *)
From Coq Require Import ZArith List Bool.
From Verif Require Import GoSem Spec Calls Abs History RaceSpec3.
Import ListNotations.
Open Scope Z_scope.
Open Scope list_scope.

(** What the caller gets to see of the buffer through the result of a call: what the
    call reads, and the bytes of a returned slice. *)
Definition sees (c : call slice) (x : piece) : bool :=
  reads3 c x ||
  match c, x with
  | At off (OReadBytes n), Byte i => (off <=? i) && (i <? off + n)
  | Next (OReadBytes _), Byte _ | CBytes, Byte _ => true
  | _, _ => false
  end.

(** No goroutine writes what another one sees or writes. *)
Definition independent (programs : list (list (call slice))) : Prop :=
  forall t u cs ds c d x, t <> u -> nth_error programs t = Some cs -> nth_error programs u = Some ds ->
    In c cs -> In d ds -> writes3 c x = true -> sees d x = false /\ writes3 d x = false.

(** The calls that leave the buffer where it is: all but Truncate, Grow and Reset. *)
Definition in_place (c : call slice) : Prop :=
  match c with CTruncateLeft _ | CTruncateRight _ | CGrow _ | CReset => False | _ => True end.

(** The calls, made one after the other on a buffer that nobody else uses: the answers
    and the buffer at the end. *)
Definition alone (s : St) (cs : list (call slice)) : list answer * abuf :=
  abs_exec (map (fun c => ACall (view_call s c)) cs) (abs s).

(** Part [x] of a buffer.  Bytes past the end are spare capacity. *)
Definition part (x : piece) (a : abuf) : Z :=
  match x with
  | Byte i => if 0 <=? i then nth (Z.to_nat i) (a_bytes a ++ a_spare a) 0 else 0
  | Fields FOff => a_off a
  | Fields FBoff => a_boff a
  | Slice | Fields FCap => zlen (a_bytes a)
  | Fields FBcap => 8 * zlen (a_bytes a)
  end.
