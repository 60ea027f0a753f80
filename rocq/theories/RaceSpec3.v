(** * RaceSpec3: which calls of a v3 [Buffer] may run at the same time.

    The v3 [Buffer] has no mutex.  For each call, the parts of the buffer that it
    reads and the parts that it writes.  Calls of different goroutines are
    compatible if neither writes what the other reads or writes. *)
From Coq Require Import ZArith List Bool.
From Verif Require Import GoSem Spec Calls.
Import ListNotations.
Open Scope Z_scope.
Open Scope list_scope.

(** The slice, a field (an offset or a capacity), byte [i] of the buffer. *)
Inductive piece : Type := Slice | Fields (f : fld) | Byte (i : Z).

Definition fld_eqb (f g : fld) : bool :=
  match f, g with FOff, FOff | FCap, FCap | FBoff, FBoff | FBcap, FBcap => true | _, _ => false end.

(** The bytes that an operation at [off] can reach; bit [k] is in byte [k / 8].
    Loops run at least once. *)
Definition span (off : Z) (o : opn slice) (i : Z) : bool :=
  let bytes n := (off <=? i) && (i <? off + n) in
  let bits n := (off / 8 <=? i) && (i <=? (off + Z.max n 1 - 1) / 8) in
  match o with
  | OReadBit | OSetBit | OClearBit | OFlipBit => bits 1
  | OReadBits n | OSetBits _ n => bits n
  | OWriteBytes d => bytes (s_len d)
  | OWriteByte _ | OReadByte => bytes 1
  | OReadBytes _ => false
  | OWrite t d => bytes (zlen d * tsize t)
  | ORead t n => bytes (Z.max n 1 * tsize t)
  end.
Definition is_write (o : opn slice) : bool :=
  match o with
  | OSetBit | OClearBit | OFlipBit | OSetBits _ _ | OWriteBytes _ | OWriteByte _ | OWrite _ _ => true
  | OReadBit | OReadBits _ | OReadBytes _ | OReadByte | ORead _ _ => false
  end.
Definition no_bytes (o : opn slice) : bool := match o with OReadBytes _ => true | _ => false end.

Definition reads3 (c : call slice) (x : piece) : bool :=
  let limit o := if bit_addressed o then FBcap else FCap in
  let cursor o := if bit_addressed o then FBoff else FOff in
  match c, x with
  | At _ o, Slice => true
  | At _ o, Fields f => fld_eqb f (limit o)
  | At off o, Byte i => span off o i
  | Next o, Slice => true
  | Next o, Fields f => fld_eqb f (limit o) || fld_eqb f (cursor o)
  | Next o, Byte _ => negb (no_bytes o)
  | (CClearAllBits | CSetAllBits), Slice | CFlipAllBits, (Slice | Byte _) => true
  | CSeekBit _ true, Fields FBoff | CSeekByte _ true, Fields FOff => true
  | CAfterBit None, Fields (FBcap | FBoff) | CAfterByte None, Fields (FCap | FOff) => true
  | CAfterBit (Some _), Fields FBcap | CAfterByte (Some _), Fields FCap => true
  | CAlignBit, Fields FOff | CAlignByte, Fields FBoff => true
  | (CTruncateLeft _ | CTruncateRight _ | CRefresh), (Slice | Fields FCap) => true
  | CGrow _, (Slice | Fields FCap | Byte _) => true
  | (CReset | CBytes), Slice => true
  | CByteCapacity, Fields FCap | CBitCapacity, Fields FBcap | CByteOffset, Fields FOff | CBitOffset, Fields FBoff => true
  | _, _ => false
  end.
Definition writes3 (c : call slice) (x : piece) : bool :=
  match c, x with
  | At off o, Byte i => is_write o && span off o i
  | Next o, Byte _ => is_write o
  | Next o, Fields f => fld_eqb f (if bit_addressed o then FBoff else FOff)
  | (CClearAllBits | CSetAllBits | CFlipAllBits), Byte _ => true
  | (CSeekBit _ _ | CAlignBit), Fields FBoff | (CSeekByte _ _ | CAlignByte), Fields FOff => true
  | (CTruncateLeft _ | CTruncateRight _ | CGrow _), (Slice | Fields (FCap | FBcap)) => true
  | CRefresh, Fields (FCap | FBcap) => true
  | CReset, (Slice | Fields _) => true
  | _, _ => false
  end.

Definition conflicting3 (c d : call slice) : Prop :=
  exists x, writes3 c x = true /\ (reads3 d x = true \/ writes3 d x = true).

(** [programs]: the calls of each goroutine. *)
Definition compatible3 (programs : list (list (call slice))) : Prop :=
  forall t u cs ds c d, t <> u -> nth_error programs t = Some cs -> nth_error programs u = Some ds ->
    In c cs -> In d ds -> ~ conflicting3 c d.

(** A slice argument does not share memory with the buffer. *)
Definition separate (s : St) (c : call slice) : Prop :=
  match c with
  | At _ (OWriteBytes d) | Next (OWriteBytes d) => s_blk d <> s_blk (b_buf (bb s))
  | _ => True
  end.
