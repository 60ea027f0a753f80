(** * GoSem: the fragment of Go that crunch is written in.

    crunch's methods only use: [int64]/[int] arithmetic (64-bit wrap-around),
    fixed-width integer conversions and shifts, byte slices (backing array,
    length, capacity, aliasing), [make]/[append]/[copy], [panic], [goto] loops,
    [sync.Mutex] and [defer].  This file gives them a meaning once and for all;
    the model files (V3Buffer, V3Mini, V2Buffer, V2Mini, V1Buffer, V1Mini)
    transcribe the Go methods on top of it.

    A method body is a tree of type [prog A]: every access to shared state (a
    struct field, one byte of memory, the mutex) is one node of the tree.  The
    same tree is given a sequential semantics ([run], below) and an
    interleaving semantics ([Conc.v]). *)

From Coq Require Import ZArith List Bool String.
Import ListNotations.
Open Scope Z_scope.

(** ** Integers *)

(** Go [int64] (and [int] on the 64-bit platforms modelled here): results of
    [+ - *] wrap around modulo 2^64 into the signed range. *)
Definition wrap64 (x : Z) : Z := (x + 2 ^ 63) mod 2 ^ 64 - 2 ^ 63.

Definition add64 (x y : Z) : Z := wrap64 (x + y).
Definition sub64 (x y : Z) : Z := wrap64 (x - y).
Definition mul64 (x y : Z) : Z := wrap64 (x * y).
Infix "+!" := add64 (at level 50, left associativity).
Infix "-!" := sub64 (at level 50, left associativity).
Infix "*!" := mul64 (at level 40, left associativity).

(** Go [/] and [%] on integers truncate toward zero. *)
Definition quo (x y : Z) : Z := Z.quot x y.
Definition rem (x y : Z) : Z := Z.rem x y.

(** Conversions [byte(x)], [uintW(x)], [intW(x)]: keep the low W bits. *)
Definition uconv (w x : Z) : Z := x mod 2 ^ w.
Definition sconv (w x : Z) : Z := (x + 2 ^ (w - 1)) mod 2 ^ w - 2 ^ (w - 1).
Definition byte (x : Z) : Z := uconv 8 x.

(** [x >> c] on a W-bit operand (logical when x is unsigned, arithmetic when it
    is signed): a count of W or more yields 0, or -1 for a negative x. *)
Definition shr (w x c : Z) : Z :=
  if c <? w then Z.shiftr x c else if x <? 0 then -1 else 0.
(** [x << c] on an unsigned / signed W-bit operand. *)
Definition ushl (w x c : Z) : Z := if c <? w then uconv w (Z.shiftl x c) else 0.
Definition sshl (w x c : Z) : Z := if c <? w then sconv w (Z.shiftl x c) else 0.

(** [^x] on a byte. *)
Definition not8 (x : Z) : Z := Z.lxor x 255.

Definition is_i64 (x : Z) : Prop := - 2 ^ 63 <= x < 2 ^ 63.
Definition is_u64 (x : Z) : Prop := 0 <= x < 2 ^ 64.
Definition is_byte (x : Z) : Prop := 0 <= x < 256.

(** The largest allocation the Go runtime accepts (runtime/malloc.go on 64-bit
    platforms: 1<<48 bytes); [make] and [append] beyond it panic. *)
Definition maxAlloc : Z := 2 ^ 48.

(** ** Panic values *)

(** Go runtime panics that crunch can provoke. *)
Inductive rterr : Set :=
| IndexOutOfRange      (* s[i] with i outside [0,len)          *)
| SliceOutOfRange      (* s[lo:hi] outside 0<=lo<=hi<=cap      *)
| MakeLenOutOfRange    (* make/append with an impossible size  *)
| TypeAssertion        (* x.(T) with another dynamic type      *)
| NilMapOrOther.       (* anything else: never produced by the model *)

(** A panic value: crunch's own [Error{scope, error}] structs (errors.go) or a
    runtime error. *)
Inductive err : Set :=
| CrunchError (scope error : string)
| RuntimeError (k : rterr).

(** ** Memory, slices, the buffer struct *)

(** Byte memory: a list of backing arrays, addressed by allocation number.
    (Nothing is ever freed: the garbage collector is unobservable.) *)
Definition heap_t : Set := list (list Z).

Definition zlen {A} (l : list A) : Z := Z.of_nat (List.length l).

(** [l] with [d] written over positions [i, i + length d). *)
Definition splice {A} (l : list A) (i : nat) (d : list A) : list A :=
  firstn i l ++ d ++ skipn (i + List.length d) l.

Definition heap_read (h : heap_t) (blk : nat) (i n : Z) : option (list Z) :=
  match nth_error h blk with
  | Some a =>
      if (0 <=? i) && (0 <=? n) && (i + n <=? zlen a)
      then Some (firstn (Z.to_nat n) (skipn (Z.to_nat i) a)) else None
  | None => None
  end.

Definition heap_write (h : heap_t) (blk : nat) (i : Z) (d : list Z) : option heap_t :=
  match nth_error h blk with
  | Some a =>
      if (0 <=? i) && (i + zlen d <=? zlen a)
      then Some (splice h blk [splice a (Z.to_nat i) d]) else None
  | None => None
  end.

(** A Go byte slice: backing array, start, length, capacity.  A nil slice is a
    slice of capacity 0 (crunch never compares a slice with nil). *)
Record slice : Set := mkSlice { s_blk : nat; s_off : Z; s_len : Z; s_cap : Z }.

(** The fields of [Buffer] / [MiniBuffer].
    v3/buffer.generated.go:18-24, v3/minibuf.generated.go:19-25,
    v2/buffer.go:17-25, v2/minibuf.go:19-27, v1/buffer.go:20-28, v1/minibuf.go:22-30
    (the embedded sync.Mutex of v1 and v2 is [mu] in [St]). *)
Record Buf : Set := mkBuf { b_buf : slice; b_off : Z; b_cap : Z; b_boff : Z; b_bcap : Z }.

(** Everything a method can see or change: memory, the receiver's fields, the
    receiver's mutex ([true] = locked), and the elements of the caller's [out]
    variable for the MiniBuffer methods that fill one in a loop. *)
Record St : Type := mkSt { heap : heap_t; bb : Buf; mu : bool; outs : list Z }.

Definition set_heap (s : St) (h : heap_t) : St := mkSt h (bb s) (mu s) (outs s).
Definition set_bb (s : St) (b : Buf) : St := mkSt (heap s) b (mu s) (outs s).
Definition set_mu (s : St) (m : bool) : St := mkSt (heap s) (bb s) m (outs s).
Definition set_outs (s : St) (o : list Z) : St := mkSt (heap s) (bb s) (mu s) o.

Inductive fld : Set := FOff | FCap | FBoff | FBcap.

Definition get_fld (b : Buf) (f : fld) : Z :=
  match f with FOff => b_off b | FCap => b_cap b | FBoff => b_boff b | FBcap => b_bcap b end.

Definition upd_fld (b : Buf) (f : fld) (v : Z) : Buf :=
  match f with
  | FOff => mkBuf (b_buf b) v (b_cap b) (b_boff b) (b_bcap b)
  | FCap => mkBuf (b_buf b) (b_off b) v (b_boff b) (b_bcap b)
  | FBoff => mkBuf (b_buf b) (b_off b) (b_cap b) v (b_bcap b)
  | FBcap => mkBuf (b_buf b) (b_off b) (b_cap b) (b_boff b) v
  end.

Definition upd_buf (b : Buf) (s : slice) : Buf :=
  mkBuf s (b_off b) (b_cap b) (b_boff b) (b_bcap b).

(** ** Programs *)

Inductive prog (A : Type) : Type :=
| Ret (a : A)
| Panic (e : err)
| OutOfFuel                                            (* a loop bound of the model ran out: never a Go behaviour *)
| GetBuf (k : slice -> prog A)                         (* read b.buf (the slice header) *)
| SetBuf (s : slice) (k : prog A)                      (* b.buf = s *)
| GetF (f : fld) (k : Z -> prog A)                     (* read b.off, b.cap, b.boff, b.bcap *)
| SetF (f : fld) (v : Z) (k : prog A)
| Load (blk : nat) (i : Z) (k : Z -> prog A)           (* read one byte of memory *)
| Store (blk : nat) (i : Z) (v : Z) (k : prog A)       (* write one byte of memory *)
| Move (db : nat) (di : Z) (sb : nat) (si : Z) (n : Z) (k : prog A) (* memmove *)
| Alloc (l : list Z) (k : nat -> prog A)               (* new backing array *)
| GetOuts (k : list Z -> prog A)
| SetOuts (l : list Z) (k : prog A)
| Lock (k : prog A)                                    (* b.Lock() *)
| Unlock (k : prog A).                                 (* b.Unlock() *)

Arguments Ret {A} a. Arguments Panic {A} e. Arguments OutOfFuel {A}.
Arguments GetBuf {A} k. Arguments SetBuf {A} s k. Arguments GetF {A} f k.
Arguments SetF {A} f v k. Arguments Load {A} blk i k. Arguments Store {A} blk i v k.
Arguments Move {A} db di sb si n k. Arguments Alloc {A} l k.
Arguments GetOuts {A} k. Arguments SetOuts {A} l k.
Arguments Lock {A} k. Arguments Unlock {A} k.

Fixpoint bind {A B} (p : prog A) (f : A -> prog B) : prog B :=
  match p with
  | Ret a => f a
  | Panic e => Panic e
  | OutOfFuel => OutOfFuel
  | GetBuf k => GetBuf (fun x => bind (k x) f)
  | SetBuf s k => SetBuf s (bind k f)
  | GetF fd k => GetF fd (fun x => bind (k x) f)
  | SetF fd v k => SetF fd v (bind k f)
  | Load b i k => Load b i (fun x => bind (k x) f)
  | Store b i v k => Store b i v (bind k f)
  | Move db di sb si n k => Move db di sb si n (bind k f)
  | Alloc l k => Alloc l (fun x => bind (k x) f)
  | GetOuts k => GetOuts (fun x => bind (k x) f)
  | SetOuts l k => SetOuts l (bind k f)
  | Lock k => Lock (bind k f)
  | Unlock k => Unlock (bind k f)
  end.

(** [defer c] around [p]: [c] runs on normal return and on panic. *)
Fixpoint finally {A} (p : prog A) (c : prog unit) : prog A :=
  match p with
  | Ret a => bind c (fun _ => Ret a)
  | Panic e => bind c (fun _ => Panic e)
  | OutOfFuel => OutOfFuel
  | GetBuf k => GetBuf (fun x => finally (k x) c)
  | SetBuf s k => SetBuf s (finally k c)
  | GetF fd k => GetF fd (fun x => finally (k x) c)
  | SetF fd v k => SetF fd v (finally k c)
  | Load b i k => Load b i (fun x => finally (k x) c)
  | Store b i v k => Store b i v (finally k c)
  | Move db di sb si n k => Move db di sb si n (finally k c)
  | Alloc l k => Alloc l (fun x => finally (k x) c)
  | GetOuts k => GetOuts (fun x => finally (k x) c)
  | SetOuts l k => SetOuts l (finally k c)
  | Lock k => Lock (finally k c)
  | Unlock k => Unlock (finally k c)
  end.

Declare Scope go_scope.
Notation "x <- p ;; q" := (bind p (fun x => q))
  (at level 100, p at next level, right associativity) : go_scope.
Notation "p ;; q" := (bind p (fun _ => q))
  (at level 100, right associativity) : go_scope.
Open Scope go_scope.

(** ** Sequential semantics *)

Inductive res (A : Type) : Type :=
| Done (a : A) (s : St)            (* returned a value *)
| Panicked (e : err) (s : St)      (* panicked; [s] is what a recover() finds *)
| Deadlock (s : St)                (* waits for ever on the mutex *)
| Stuck.                           (* memory fault / unlock of an unlocked mutex / model fuel: never reached *)
Arguments Done {A} a s. Arguments Panicked {A} e s. Arguments Deadlock {A} s. Arguments Stuck {A}.

Fixpoint run {A} (p : prog A) (s : St) : res A :=
  match p with
  | Ret a => Done a s
  | Panic e => Panicked e s
  | OutOfFuel => Stuck
  | GetBuf k => run (k (b_buf (bb s))) s
  | SetBuf sl k => run k (set_bb s (upd_buf (bb s) sl))
  | GetF f k => run (k (get_fld (bb s) f)) s
  | SetF f v k => run k (set_bb s (upd_fld (bb s) f v))
  | Load b i k =>
      match heap_read (heap s) b i 1 with
      | Some [v] => run (k v) s
      | _ => Stuck
      end
  | Store b i v k =>
      match heap_write (heap s) b i [v] with
      | Some h => run k (set_heap s h)
      | None => Stuck
      end
  | Move db di sb si n k =>
      match heap_read (heap s) sb si n with
      | Some d =>
          match heap_write (heap s) db di d with
          | Some h => run k (set_heap s h)
          | None => Stuck
          end
      | None => Stuck
      end
  | Alloc l k => run (k (List.length (heap s))) (set_heap s (heap s ++ [l]))
  | GetOuts k => run (k (outs s)) s
  | SetOuts l k => run k (set_outs s l)
  | Lock k => if mu s then Deadlock s else run k (set_mu s true)
  | Unlock k => if mu s then run k (set_mu s false) else Stuck
  end.

(** ** Go expressions and statements *)

Definition get_buf : prog slice := GetBuf (fun s => Ret s).
Definition set_buf (s : slice) : prog unit := SetBuf s (Ret tt).
Definition get (f : fld) : prog Z := GetF f (fun v => Ret v).
Definition set (f : fld) (v : Z) : prog unit := SetF f v (Ret tt).
Definition lock : prog unit := Lock (Ret tt).
Definition unlock : prog unit := Unlock (Ret tt).

(** [if c { panic(e) }] *)
Definition panic_if (c : bool) (e : err) : prog unit := if c then Panic e else Ret tt.

(** [s[i]] as a value and as an assignment target. *)
Definition slice_get (s : slice) (i : Z) : prog Z :=
  if (0 <=? i) && (i <? s_len s) then Load (s_blk s) (s_off s + i) (fun v => Ret v)
  else Panic (RuntimeError IndexOutOfRange).
Definition slice_set (s : slice) (i v : Z) : prog unit :=
  if (0 <=? i) && (i <? s_len s) then Store (s_blk s) (s_off s + i) v (Ret tt)
  else Panic (RuntimeError IndexOutOfRange).

(** [b.buf[i]] and [b.buf[i] = v]. *)
Definition buf_get (i : Z) : prog Z := s <- get_buf ;; slice_get s i.
Definition buf_set (i v : Z) : prog unit := s <- get_buf ;; slice_set s i v.

(** [s[lo:hi]]; [s[lo:]] is [s[lo:len(s)]].  The bounds are checked against the
    capacity, not the length. *)
Definition reslice (s : slice) (lo hi : Z) : prog slice :=
  if (0 <=? lo) && (lo <=? hi) && (hi <=? s_cap s)
  then Ret (mkSlice (s_blk s) (s_off s + lo) (hi - lo) (s_cap s - lo))
  else Panic (RuntimeError SliceOutOfRange).

(** [copy(dst, src)]. *)
Definition copy (dst src : slice) : prog unit :=
  Move (s_blk dst) (s_off dst) (s_blk src) (s_off src) (Z.min (s_len dst) (s_len src)) (Ret tt).

Definition zeros (n : Z) : list Z := repeat 0 (Z.to_nat n).

(** [make([]byte, len, cap)]. *)
Definition make_bytes (len cap : Z) : prog slice :=
  if (0 <=? len) && (len <=? cap) && (cap <=? maxAlloc)
  then Alloc (zeros cap) (fun b => Ret (mkSlice b 0 len cap))
  else Panic (RuntimeError MakeLenOutOfRange).

(** [make([]T, n)] for an element type of [w] bytes; the elements are a local
    list (no byte slice can alias them). *)
Definition make_elems (w n : Z) : prog (list Z) :=
  if (0 <=? n) && (n * w <=? maxAlloc) then Ret (zeros n)
  else Panic (RuntimeError MakeLenOutOfRange).

(** [append(s, src...)] where [src] is a byte slice.  Within capacity it writes
    in place; otherwise it allocates.  [pol old needed] is the runtime's choice
    of the new capacity (runtime.growslice), only known to be at least [needed];
    every theorem quantifies over it. *)
Definition new_cap (pol : Z -> Z -> Z) (old needed : Z) : Z :=
  Z.min maxAlloc (Z.max needed (pol old needed)).

Definition append (pol : Z -> Z -> Z) (s src : slice) : prog slice :=
  let needed := s_len s + s_len src in
  if needed <=? s_cap s then
    Move (s_blk s) (s_off s + s_len s) (s_blk src) (s_off src) (s_len src)
      (Ret (mkSlice (s_blk s) (s_off s) needed (s_cap s)))
  else if needed <=? maxAlloc then
    let c := new_cap pol (s_cap s) needed in
    Alloc (zeros c) (fun b =>
      Move b 0 (s_blk s) (s_off s) (s_len s)
        (Move b (s_len s) (s_blk src) (s_off src) (s_len src)
          (Ret (mkSlice b 0 needed c))))
  else Panic (RuntimeError MakeLenOutOfRange).

(** [[]byte{}] and [[]byte{x}]. *)
Definition empty_slice : prog slice := Alloc [] (fun b => Ret (mkSlice b 0 0 0)).
Definition lit_bytes (l : list Z) : prog slice :=
  Alloc l (fun b => Ret (mkSlice b 0 (zlen l) (zlen l))).

(** [data[i]] for a slice of integers or floats, and [out[i] = v]. *)
Definition elem (l : list Z) (i : Z) : prog Z :=
  if (0 <=? i) && (i <? zlen l) then Ret (nth (Z.to_nat i) l 0)
  else Panic (RuntimeError IndexOutOfRange).
Definition set_elem (l : list Z) (i v : Z) : prog (list Z) :=
  if (0 <=? i) && (i <? zlen l) then Ret (splice l (Z.to_nat i) [v])
  else Panic (RuntimeError IndexOutOfRange).

(** crunch's loop idiom, [i] starting at 0:
<<
      loop:
        body(i)
        i++
        if i < n { goto loop }
>>
    The fuel is always enough (lemma [dw_fuel] in GoLemmas.v). *)
Fixpoint dw {S} (fuel : nat) (n : Z) (body : Z -> S -> prog S) (i : Z) (acc : S) : prog S :=
  match fuel with
  | O => OutOfFuel
  | Datatypes.S f =>
      acc' <- body i acc ;;
      let i' := i +! 1 in
      if i' <? n then dw f n body i' acc' else Ret acc'
  end.
Definition goto_loop {S} (n : Z) (body : Z -> S -> prog S) (acc : S) : prog S :=
  dw (Datatypes.S (Z.to_nat n)) n body 0 acc.

(** [for i := 0; i < n; i++ { body(i) }] (v1, and [range]). *)
Fixpoint fl {S} (fuel : nat) (n : Z) (body : Z -> S -> prog S) (i : Z) (acc : S) : prog S :=
  if i <? n then
    match fuel with
    | O => OutOfFuel
    | Datatypes.S f => acc' <- body i acc ;; fl f n body (i +! 1) acc'
    end
  else Ret acc.
Definition for_loop {S} (n : Z) (body : Z -> S -> prog S) (acc : S) : prog S :=
  fl (Z.to_nat n) n body 0 acc.

(** [b.Lock(); defer b.Unlock(); p]. *)
Definition locked {A} (p : prog A) : prog A := lock ;; finally p unlock.
