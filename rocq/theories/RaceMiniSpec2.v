(** * RaceMiniSpec2: which calls of a v1 or v2 [MiniBuffer] may run at the same time.

    As RaceMiniSpec.v, for the calls of OldCalls.v: no method takes a mutex, no
    limits are checked, and every call has a variable of its own behind its [out]
    pointer.  The loops of v1 may run no round at all; those of v2 run at least
    one. *)
From Coq Require Import ZArith List Bool.
From Verif Require Import GoSem Spec Calls OldCalls Abs2 MiniAbs2 RaceSpec3 RaceMiniSpec RaceSpec.
Import ListNotations.
Open Scope Z_scope.
Open Scope list_scope.

(** A call, with the value of its variable before the call. *)
Definition old_use : Type := call2 slice * list Z.
Definition old_use_body (v : version) (pol : Z -> Z -> Z) (u : old_use) : prog (rv slice) := own_out (snd u) (old_mini v pol (fst u)).

(** The bytes that an operation at [off] can reach.  Bit offsets are divided by 8
    with Go's [/], which rounds towards zero. *)
Definition old_span (v : version) (off : Z) (o : op2 slice) (i : Z) : bool :=
  let rounds n := match v with V1 => n | V2 => Z.max n 1 end in
  let bytes n := (off <=? i) && (i <? off + n) in
  let bits n := (0 <? n) && ((Z.quot off 8 <=? i) && (i <=? Z.quot (off + n - 1) 8)) in
  (0 <=? i) &&
  match o with
  | PReadBit | PSetBit _ | PFlipBit => bits 1
  | PReadBits n | PSetBits _ n => bits (rounds n)
  | PWriteBytes d => bytes (s_len d)
  | PWrite t d => bytes (zlen d * tsize (fmt t))
  | PRead t n => bytes (rounds n * tsize (fmt t))
  | PReadBytes _ | PWriteByte _ | PReadByte => false
  end.
Definition writing (o : op2 slice) : bool :=
  match o with
  | PSetBit _ | PSetBits _ _ | PFlipBit | PWriteBytes _ | PWriteByte _ | PWrite _ _ => true
  | PReadBit | PReadBits _ | PReadBytes _ | PReadByte | PRead _ _ => false
  end.
Definition only_header (o : op2 slice) : bool := match o with PReadBytes _ => true | _ => false end.

Definition reads_old (v : version) (c : call2 slice) (x : piece) : bool :=
  match c, x with
  | (At2 _ _ | Next2 _), Slice => true
  | At2 _ _, Fields _ => false
  | At2 off o, Byte i => old_span v off o i
  | Next2 o, Fields f => fld_eqb f (if bits_op o then FBoff else FOff)
  | Next2 o, Byte i => (0 <=? i) && negb (only_header o)
  | (KClearAllBits | KSetAllBits), Slice | KFlipAllBits, (Slice | Byte _) => true
  | KSeekBit _ true, Fields FBoff | KSeek _ true, Fields FOff => true
  | KAfterBit None, Fields (FBcap | FBoff) | KAfter None, Fields (FCap | FOff) => true
  | KAfterBit (Some _), Fields FBcap | KAfter (Some _), Fields FCap => true
  | KAlignBit, Fields FOff | KAlignByte, Fields FBoff => true
  | KGrow _, (Slice | Fields FCap | Byte _) | KRefresh, (Slice | Fields FCap) | KBytes, Slice => true
  | KCapacity, Fields FCap | KBitCapacity, Fields FBcap | KOffset, Fields FOff | KBitOffset, Fields FBoff => true
  | _, _ => false
  end.
(** What [Grow] writes behind the end of the slice goes with the slice. *)
Definition writes_old (v : version) (c : call2 slice) (x : piece) : bool :=
  match c, x with
  | At2 off o, Byte i => writing o && old_span v off o i
  | Next2 o, Byte _ => writing o
  | Next2 o, Fields f => fld_eqb f (if bits_op o then FBoff else FOff)
  | (KClearAllBits | KSetAllBits | KFlipAllBits), Byte _ => true
  | (KSeekBit _ _ | KAlignBit), Fields FBoff | (KSeek _ _ | KAlignByte), Fields FOff => true
  | KGrow _, (Slice | Fields (FCap | FBcap)) | KRefresh, Fields (FCap | FBcap) => true
  | KReset, (Slice | Fields _) => true
  | _, _ => false
  end.

Definition conflicting_old (v : version) (c d : call2 slice) : Prop :=
  exists x, writes_old v c x = true /\ (reads_old v d x = true \/ writes_old v d x = true).

(** [programs]: the calls of each goroutine. *)
Definition compatible_old (v : version) (programs : list (list old_use)) : Prop :=
  forall t u cs ds c d, t <> u -> nth_error programs t = Some cs -> nth_error programs u = Some ds ->
    In c cs -> In d ds -> ~ conflicting_old v (fst c) (fst d).

(** A slice argument does not share memory with the buffer. *)
Definition separate_old (s : St) (c : call2 slice) : Prop :=
  match c with
  | At2 _ (PWriteBytes d) | Next2 (PWriteBytes d) => s_blk d <> s_blk (b_buf (bb s))
  | _ => True
  end.

(** Calls that change nothing. *)
Definition old_reader (c : call2 slice) : Prop :=
  match c with
  | At2 _ o => writing o = false
  | KAfterBit _ | KAfter _ | KBytes | KCapacity | KBitCapacity | KOffset | KBitOffset => True
  | _ => False
  end.
(** Calls that keep to the bytes from [lo] up to [hi], or look at no byte at all. *)
Definition old_within (lo hi : Z) (c : call2 slice) : Prop :=
  match c with
  | At2 off (PReadBit | PSetBit _ | PFlipBit) => 8 * lo <= off < 8 * hi
  | At2 off (PReadBits n | PSetBits _ n) => 8 * lo <= off /\ off + Z.max n 1 <= 8 * hi
  | At2 off (PWriteBytes d) => lo <= off /\ off + s_len d <= hi
  | At2 off (PWrite t d) => lo <= off /\ off + zlen d * tsize (fmt t) <= hi
  | At2 off (PRead t n) => lo <= off /\ off + Z.max n 1 * tsize (fmt t) <= hi
  | At2 _ (PReadBytes _) => True
  | KAfterBit _ | KAfter _ | KBytes | KCapacity | KBitCapacity | KOffset | KBitOffset => True
  | _ => False
  end.
