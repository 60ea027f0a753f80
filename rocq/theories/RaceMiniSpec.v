(** * RaceMiniSpec: which calls of a v3 [MiniBuffer] may run at the same time.

    The [MiniBuffer] has no mutex and checks no limits.  As RaceSpec3.v, for its
    calls: the parts of the buffer that a call reads and those that it writes.  A
    call stores its result through an [out] pointer; every call here has a variable
    of its own behind that pointer. *)
From Coq Require Import ZArith List Bool.
From Verif Require Import GoSem Spec Calls MiniAbs RaceSpec3.
Import ListNotations.
Open Scope Z_scope.
Open Scope list_scope.

(** The program, with [out] as a variable that nobody else has. *)
Fixpoint own_out {A} (out : list Z) (p : prog A) : prog A :=
  match p with
  | Ret a => Ret a
  | Panic e => Panic e
  | OutOfFuel => OutOfFuel
  | GetBuf k => GetBuf (fun s => own_out out (k s))
  | SetBuf s k => SetBuf s (own_out out k)
  | GetF f k => GetF f (fun v => own_out out (k v))
  | SetF f v k => SetF f v (own_out out k)
  | Load b i k => Load b i (fun v => own_out out (k v))
  | Store b i v k => Store b i v (own_out out k)
  | Move db di sb si n k => Move db di sb si n (own_out out k)
  | Alloc l k => Alloc l (fun b => own_out out (k b))
  | GetOuts k => own_out out (k out)
  | SetOuts l k => own_out l k
  | Lock k => Lock (own_out out k)
  | Unlock k => Unlock (own_out out k)
  end.

(** A call, with the value of its variable before the call. *)
Definition mini_use : Type := call slice * list Z.
Definition mini_body (u : mini_use) : prog (rv slice) := own_out (snd u) (mini_call (fst u)).

(** The bytes that an operation at [off] can reach.  The code divides bit offsets by
    8 with Go's [/], which rounds towards zero.  Loops run at least once. *)
Definition mini_span (off : Z) (o : opn slice) (i : Z) : bool :=
  let bytes n := (off <=? i) && (i <? off + n) in
  let bits n := (Z.quot off 8 <=? i) && (i <=? Z.quot (off + Z.max n 1 - 1) 8) in
  (0 <=? i) &&
  match o with
  | OReadBit | OSetBit | OClearBit | OFlipBit => bits 1
  | OReadBits n | OSetBits _ n => bits n
  | OWriteBytes d => bytes (s_len d)
  | OWrite t d => bytes (zlen d * tsize t)
  | ORead t n => bytes (Z.max n 1 * tsize t)
  | OReadBytes _ | OWriteByte _ | OReadByte => false
  end.

(** No limit is read; the rest is as for the [Buffer]. *)
Definition reads_mini (c : call slice) (x : piece) : bool :=
  match c, x with
  | (At _ _ | Next _), Slice => true
  | At _ _, Fields _ => false
  | At off o, Byte i => mini_span off o i
  | Next o, Fields f => fld_eqb f (if bit_addressed o then FBoff else FOff)
  | Next o, Byte i => (0 <=? i) && negb (no_bytes o)
  | c, x => reads3 c x
  end.
Definition writes_mini (c : call slice) (x : piece) : bool :=
  match c, x with
  | At off o, Byte i => is_write o && mini_span off o i
  | c, x => writes3 c x
  end.

Definition conflicting_mini (c d : call slice) : Prop :=
  exists x, writes_mini c x = true /\ (reads_mini d x = true \/ writes_mini d x = true).

(** [programs]: the calls of each goroutine. *)
Definition compatible_mini (programs : list (list mini_use)) : Prop :=
  forall t u cs ds c d, t <> u -> nth_error programs t = Some cs -> nth_error programs u = Some ds ->
    In c cs -> In d ds -> ~ conflicting_mini (fst c) (fst d).
