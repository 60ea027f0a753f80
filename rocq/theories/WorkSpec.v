(** * WorkSpec: how much work a call does.

    The work is counted in accesses: one for each read or write of a field of the
    buffer, of a byte of memory, of the out variable and of the mutex, and one for
    each byte that [copy], [append] or [make] moves or clears.  Arithmetic and the
    local slices of numbers are not counted. *)
From Coq Require Import ZArith List Bool.
From Verif Require Import GoSem Spec Typed Calls OldCalls History AllocSpec IsolateSpec.
Import ListNotations.
Open Scope Z_scope.
Open Scope list_scope.

(** The accesses of a program that starts in a state: those it makes until it
    returns, panics or waits for the mutex. *)
Fixpoint accesses {A} (p : prog A) (s : St) : Z :=
  match p with
  | Ret _ | Panic _ | OutOfFuel => 0
  | GetBuf k => 1 + accesses (k (b_buf (bb s))) s
  | SetBuf sl k => 1 + accesses k (set_bb s (upd_buf (bb s) sl))
  | GetF f k => 1 + accesses (k (get_fld (bb s) f)) s
  | SetF f v k => 1 + accesses k (set_bb s (upd_fld (bb s) f v))
  | Load b i k =>
      match heap_read (heap s) b i 1 with
      | Some [v] => 1 + accesses (k v) s
      | _ => 0
      end
  | Store b i v k =>
      match heap_write (heap s) b i [v] with
      | Some h => 1 + accesses k (set_heap s h)
      | None => 0
      end
  | Move db di sb si n k =>
      match heap_read (heap s) sb si n with
      | Some d =>
          match heap_write (heap s) db di d with
          | Some h => 1 + n + accesses k (set_heap s h)
          | None => 0
          end
      | None => 0
      end
  | Alloc l k => 1 + zlen l + accesses (k (List.length (heap s))) (set_heap s (heap s ++ [l]))
  | GetOuts k => 1 + accesses (k (outs s)) s
  | SetOuts l k => 1 + accesses k (set_outs s l)
  | Lock k => if mu s then 0 else 1 + accesses k (set_mu s true)
  | Unlock k => if mu s then 1 + accesses k (set_mu s false) else 0
  end.

(** ** What a call names

    Bits for a method on bits, bytes for the others.  The loops of the library do
    their first round before they look at the count, so a count below one is one
    here.  [ReadBytes] returns a slice of the buffer: no byte is named. *)
Definition at_least_one (n : Z) : Z := Z.max 1 n.

Definition names3 (o : opn slice) : Z :=
  match o with
  | OReadBits n | OSetBits _ n => at_least_one n
  | OWriteBytes d => s_len d
  | OWrite t d => tsize t * at_least_one (zlen d)
  | ORead t n => tsize t * at_least_one n
  | OReadBit | OSetBit | OClearBit | OFlipBit | OWriteByte _ | OReadByte => 1
  | OReadBytes _ => 0
  end.
Definition names_old (o : op2 slice) : Z :=
  match o with
  | PReadBits n | PSetBits _ n => at_least_one n
  | PWriteBytes d => at_least_one (s_len d)
  | PWrite t d => tsize (fmt t) * at_least_one (zlen d)
  | PRead t n => tsize (fmt t) * at_least_one n
  | PReadBit | PSetBit _ | PFlipBit | PWriteByte _ | PReadByte => 1
  | PReadBytes _ => 0
  end.

(** The bytes of the arrays that [Grow] makes: in v3 none if there is room (or the
    runtime refuses), else one of twice the capacity and the bytes asked for; in v1
    and v2 the zero bytes to append and, if there is no room, the array that the
    runtime chooses. *)
Definition grown3 (s : St) (n : Z) : Z :=
  if (room s - used s <? n) && (2 * (room s + n) <=? maxAlloc) then 2 * (room s + n) else 0.
Definition grown_old (pol : Z -> Z -> Z) (s : St) (n : Z) : Z :=
  n + if used s + n <=? room s then 0 else new_cap pol (room s) (used s + n).

(** What a call names: the bits or bytes above; the whole buffer for the methods on
    all bits; what [Grow] makes; nothing for the others. *)
Definition volume (pol : Z -> Z -> Z) (s : St) (j : job) : Z :=
  match j with
  | J3 (At _ o) _ | J3 (Next o) _ => names3 o
  | J3 CClearAllBits _ | J3 CSetAllBits _ | J3 CFlipAllBits _ => at_least_one (used s)
  | J3 (CGrow n) _ => grown3 s n
  | J3 _ _ => 0
  | J2 (At2 _ o) _ | J2 (Next2 o) _ => names_old o
  | J2 KClearAllBits _ | J2 KSetAllBits _ | J2 KFlipAllBits _ => at_least_one (used s)
  | J2 (KGrow n) _ => Z.max 0 (grown_old pol s n)
  | J2 _ _ => 0
  end.

(** ** Many calls *)

Section Programs.
Variable body : sort -> job -> prog (rv slice).   (* what a call does *)

(** Something added up over calls made one after the other, whether they return or
    panic: [f] of the state before each call and the call. *)
Fixpoint along (f : St -> job -> Z) (k : sort) (s : St) (js : list job) : Z :=
  match js with
  | [] => 0
  | j :: r =>
      f s j + match run (body k j) (set_outs s (job_out j)) with
              | Done _ s' | Panicked _ s' => along f k s' r
              | Deadlock _ | Stuck => 0
              end
  end.

(** The accesses of all of them. *)
Definition total_work (k : sort) : St -> list job -> Z :=
  along (fun s j => accesses (body k j) (set_outs s (job_out j))) k.
End Programs.

(** What a call names, where [Grow] names the bytes asked for.  TruncateRight of a
    v3 MiniBuffer accepts a negative count and then makes the buffer longer: that
    names bytes too. *)
Definition plain (s : St) (j : job) : Z :=
  match j with
  | J3 (CGrow n) _ | J2 (KGrow n) _ => Z.max 0 n
  | J3 (CTruncateRight n) _ => Z.max 0 (- n)
  | _ => volume (fun _ _ => 0) s j
  end.

(** A growth policy of [append] that is sensible: an array that is too small is
    replaced by one that is larger by a quarter, and that is not larger than three
    times what is needed and [c] bytes.  Go promises nothing of the kind, but every
    release has done so. *)
Definition sensible (c : Z) (pol : Z -> Z -> Z) : Prop :=
  forall old need, 0 <= old -> old < need <= maxAlloc -> 5 * old <= 4 * pol old need /\ pol old need <= 3 * need + c.

(** What runtime/slice.go of Go 1.18 to 1.22 asks for (nextslicecap): twice the old
    capacity below 256 bytes, then a quarter and 192 bytes more, repeatedly; and
    what the allocator makes of it, [up]: the next size class, at most an eighth and
    a page more. *)
Fixpoint quarters (fuel : nat) (cap need : Z) : Z :=
  if need <=? cap then cap
  else match fuel with O => need | S f => quarters f (cap + (cap + 768) / 4) need end.
Definition growslice (old need : Z) : Z :=
  if 2 * old <? need then need else if old <? 256 then 2 * old else quarters 64 old need.
Definition rounds (up : Z -> Z) : Prop := forall x, 0 <= x -> x <= up x <= x + x / 8 + 8192.
