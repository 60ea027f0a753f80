(** * Spec: the vocabulary in which the properties are stated.

    Nothing here refers to crunch's code.  Bits of a byte string, numbers and
    their encodings, windows of a list, and what can be observed of a state. *)
From Coq Require Import ZArith List Bool.
From Verif Require Import GoSem.
Import ListNotations.
Open Scope Z_scope.

(** ** Windows of a list *)

(** [n] elements of [l] from position [i]. *)
Definition sub {A} (l : list A) (i n : Z) : list A :=
  firstn (Z.to_nat n) (skipn (Z.to_nat i) l).

(** [l] with the elements from position [i] on replaced by [d]. *)
Definition put {A} (l : list A) (i : Z) (d : list A) : list A :=
  firstn (Z.to_nat i) l ++ d ++ skipn (Z.to_nat i + List.length d) l.

(** ** Bits *)

Definition byte_at (l : list Z) (i : Z) : Z := nth (Z.to_nat i) l 0.

(** Bit number [i] of a byte string: bit 0 is the most significant bit of byte 0. *)
Definition bit_at (l : list Z) (i : Z) : bool :=
  Z.testbit (byte_at l (i / 8)) (7 - i mod 8).

(** The number written in the [n] bits from position [i], most significant first. *)
Fixpoint bits_num (l : list Z) (i : Z) (n : nat) : Z :=
  match n with
  | O => 0
  | S m => 2 * bits_num l i m + Z.b2z (bit_at l (i + Z.of_nat m))
  end.

(** ** Numeric formats *)

Inductive sign : Set := Unsigned | Signed | Float.
Inductive endian : Set := LE | BE.
Inductive width : Set := W16 | W32 | W64.

(** Size in bytes. *)
Definition bytes_of_width (w : width) : nat :=
  match w with W16 => 2 | W32 => 4 | W64 => 8 end.

(** The 16 formats of crunch v3 (a 16-bit float format does not exist). *)
Inductive numty : Set :=
| U16LE | U16BE | U32LE | U32BE | U64LE | U64BE
| I16LE | I16BE | I32LE | I32BE | I64LE | I64BE
| F32LE | F32BE | F64LE | F64BE.

Definition ty_sign (t : numty) : sign :=
  match t with
  | U16LE | U16BE | U32LE | U32BE | U64LE | U64BE => Unsigned
  | I16LE | I16BE | I32LE | I32BE | I64LE | I64BE => Signed
  | F32LE | F32BE | F64LE | F64BE => Float
  end.
Definition ty_endian (t : numty) : endian :=
  match t with
  | U16LE | U32LE | U64LE | I16LE | I32LE | I64LE | F32LE | F64LE => LE
  | U16BE | U32BE | U64BE | I16BE | I32BE | I64BE | F32BE | F64BE => BE
  end.
Definition ty_width (t : numty) : width :=
  match t with
  | U16LE | U16BE | I16LE | I16BE => W16
  | U32LE | U32BE | I32LE | I32BE | F32LE | F32BE => W32
  | U64LE | U64BE | I64LE | I64BE | F64LE | F64BE => W64
  end.
Definition ty_bytes (t : numty) : nat := bytes_of_width (ty_width t).
(** bytes per element, as a number *)
Definition tsize (t : numty) : Z := Z.of_nat (ty_bytes t).

(** Base-256 digits of [x], least significant first, and back. *)
Fixpoint le_bytes (n : nat) (x : Z) : list Z :=
  match n with O => [] | S m => x mod 256 :: le_bytes m (x / 256) end.
Fixpoint le_num (l : list Z) : Z :=
  match l with [] => 0 | b :: r => b + 256 * le_num r end.

(** Values of a format: unsigned numbers, two's complement numbers, or (floats)
    bit patterns. *)
Definition in_format (t : numty) (x : Z) : Prop :=
  match ty_sign t with
  | Signed => - 2 ^ (8 * tsize t - 1) <= x < 2 ^ (8 * tsize t - 1)
  | _ => 0 <= x < 2 ^ (8 * tsize t)
  end.

(** The encoding of one value: its two's complement digits in the byte order. *)
Definition encode (t : numty) (x : Z) : list Z :=
  match ty_endian t with
  | LE => le_bytes (ty_bytes t) x
  | BE => rev (le_bytes (ty_bytes t) x)
  end.

(** The value of an encoding. *)
Definition decode (t : numty) (l : list Z) : Z :=
  let u := match ty_endian t with LE => le_num l | BE => le_num (rev l) end in
  match ty_sign t with
  | Signed => if u <? 2 ^ (8 * tsize t - 1) then u else u - 2 ^ (8 * tsize t)
  | _ => u
  end.

(** The encoding of a list of values. *)
Definition encode_all (t : numty) (d : list Z) : list Z := flat_map (encode t) d.

(** The [n] values encoded from position [i] of [l]. *)
Fixpoint decode_all (t : numty) (l : list Z) (i : Z) (n : nat) : list Z :=
  match n with
  | O => []
  | S m => decode t (sub l i (tsize t)) :: decode_all t l (i + tsize t) m
  end.

(** ** Observing a state *)

(** The bytes a slice shows. *)
Definition slice_bytes (h : heap_t) (s : slice) : list Z :=
  sub (nth (s_blk s) h []) (s_off s) (s_len s).

(** The content of the buffer: what [Bytes()] shows. *)
Definition content (s : St) : list Z := slice_bytes (heap s) (b_buf (bb s)).

(** The bytes of the backing array between length and capacity. *)
Definition spare (s : St) : list Z :=
  let b := b_buf (bb s) in
  sub (nth (s_blk b) (heap s) []) (s_off b + s_len b) (s_cap b - s_len b).

(** The same state with the bytes of the buffer replaced by [l], in place:
    same fields, same mutex, and the rest of memory untouched. *)
Definition with_content (s : St) (l : list Z) : St :=
  let b := b_buf (bb s) in
  set_heap s (put (heap s) (Z.of_nat (s_blk b))
                  [put (nth (s_blk b) (heap s) []) (s_off b) l]).

Definition with_off (s : St) (x : Z) : St := set_bb s (upd_fld (bb s) FOff x).
Definition with_boff (s : St) (x : Z) : St := set_bb s (upd_fld (bb s) FBoff x).

(** ** Well-formed states *)

Definition wf_slice (h : heap_t) (s : slice) : Prop :=
  (s_blk s < List.length h)%nat /\ 0 <= s_off s /\ 0 <= s_len s <= s_cap s /\
  s_off s + s_cap s <= zlen (nth (s_blk s) h []).

Definition wf_heap (h : heap_t) : Prop :=
  Forall (fun a => Forall is_byte a /\ zlen a <= maxAlloc) h.

(** A state of a buffer that can exist: memory is made of bytes, the slice lies
    in memory, the cached capacities are right, the offsets are int64 values. *)
Record WF (s : St) : Prop := mkWF {
  wf_h : wf_heap (heap s);
  wf_sl : wf_slice (heap s) (b_buf (bb s));
  wf_cap : b_cap (bb s) = s_len (b_buf (bb s));
  wf_bcap : b_bcap (bb s) = 8 * s_len (b_buf (bb s));
  wf_off : is_i64 (b_off (bb s));
  wf_boff : is_i64 (b_boff (bb s)) }.

(** A slice argument that can exist. *)
Definition wf_arg (s : St) (d : slice) : Prop := wf_slice (heap s) d.

(** A []T argument that can exist (T of [w] bytes). *)
Definition wf_data (w : Z) (d : list Z) : Prop := zlen d * w <= maxAlloc.

(** A byte string with one bit changed, resp. inverted. *)
Definition put_bit (l : list Z) (i : Z) (v : bool) : list Z :=
  let b := byte_at l (i / 8) in
  put l (i / 8) [if v then Z.setbit b (7 - i mod 8) else Z.clearbit b (7 - i mod 8)].
Definition flip_bit (l : list Z) (i : Z) : list Z := put_bit l i (negb (bit_at l i)).

(** ** State changes named *)

(** A fresh backing array holding [l] has been allocated. *)
Definition alloc (s : St) (l : list Z) : St := set_heap s (heap s ++ [l]).

(** The buffer now uses the slice [sl], and reports its capacities; offsets,
    memory and mutex are as before. *)
Definition with_slice (s : St) (sl : slice) : St :=
  set_bb s (mkBuf sl (b_off (bb s)) (s_len sl) (b_boff (bb s)) (8 * s_len sl)).

(** [s'] differs from [s] at most by freshly allocated (unreachable) memory. *)
Definition same_state (s s' : St) : Prop :=
  bb s' = bb s /\ mu s' = mu s /\ outs s' = outs s /\ exists new, heap s' = heap s ++ new.

(** Offsets and capacities of [s'] are those of [s]. *)
Definition same_fields (s s' : St) : Prop := bb s' = bb s /\ mu s' = mu s /\ outs s' = outs s.

(** ** Bit fields *)

(** The bits [f 0 .. f (k-1)] written from bit position [off] on. *)
Fixpoint put_bits (l : list Z) (off : Z) (f : Z -> bool) (k : nat) : list Z :=
  match k with
  | O => l
  | S m => put_bit (put_bits l off f m) (off + Z.of_nat m) (f (Z.of_nat m))
  end.

(** The [n] low bits of [data], most significant first: bit [i] of the field is
    bit [n-1-i] of the number. *)
Definition field_bit (data n : Z) : Z -> bool := fun i => Z.testbit data (n - 1 - i).

(** ** Framing *)

(** One byte of memory. *)
Definition mem (h : heap_t) (b : nat) (i : Z) : Z := byte_at (nth b h []) i.

(** Memory [h'] differs from [h] at most in the bytes [lo, hi) of array [b], and
    by freshly allocated arrays. *)
Definition mem_frame (b : nat) (lo hi : Z) (h h' : heap_t) : Prop :=
  (List.length h <= List.length h')%nat /\
  forall b', (b' < List.length h)%nat ->
    zlen (nth b' h' []) = zlen (nth b' h []) /\
    forall i, 0 <= i -> (b' <> b \/ i < lo \/ hi <= i) -> mem h' b' i = mem h b' i.

(** The bytes of the buffer have become [l], in place; length, offsets, mutex,
    the caller's variables and all memory outside the buffer are as before. *)
Definition becomes (s : St) (l : list Z) (s' : St) : Prop :=
  content s' = l /\ bb s' = bb s /\ mu s' = mu s /\ outs s' = outs s /\
  mem_frame (s_blk (b_buf (bb s))) (s_off (b_buf (bb s)))
            (s_off (b_buf (bb s)) + s_len (b_buf (bb s))) (heap s) (heap s').
