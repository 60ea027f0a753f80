(** * Many: programs with any number of buffers of any version, and the product of
    the abstract machines of Abs.v, MiniAbs.v, Abs2.v and MiniAbs2.v.

    The calls are those of the Go text: [text_step], [mini_step], [old_text_step]
    and [om_step] run the parsed packages.  All buffers share one memory.  A caller
    may pass slices of one buffer to another one and may write any byte of memory. *)
From Coq Require Import ZArith List Bool String Lia ZifyBool.
From Verif Require Import GoSem Errors GoParse Conv GoEval Front Tables FrontCalls.
From Verif Require Import Spec GoLemmas V3BitLemmas V3ByteLemmas Typed Calls Abs Frame Sim History NewBuf MiniAbs MiniHistory
  TypedReadLemmas MiniLemmas MiniSim OldCalls V2Lemmas V2Agree V1Calls ConcSpec Abs2 Sim2 Hist2 MiniAbs2 MiniSim2 MiniHist2 FrontOldCalls FrontOldMini.
From Verif Require V3Buffer Props_Front Props_Old Props_Abs2 Props_Mini2 Props_State.
Import ListNotations.
Open Scope Z_scope.
Open Scope list_scope.

Import Props_Front Props_Abs2 Props_Mini2.

(** ** The program *)

(** The types: crunch.Buffer and crunch.MiniBuffer of v3, and of v1 and v2. *)
Inductive kind : Set := Buffer3 | Mini3 | BufferOld (v : version) | MiniOld (v : version).

(** A call: of the methods of a v3 or of an older type; [out] is what the variable
    behind the out pointer of a MiniBuffer method holds before the call. *)
Inductive request (C C2 : Type) : Type :=
| Q3 (c : C) | Q3m (c : C) (out : list Z) | Qo (c : C2) | Qom (c : C2) (out : list Z).
Arguments Q3 {C C2}. Arguments Q3m {C C2}. Arguments Qo {C C2}. Arguments Qom {C C2}.

(** What the caller sees of it. *)
Inductive seen : Type := See3 (a : answer) | SeeM (a : manswer) | SeeO (r : reply).

(** A variable of one of the types: its fields and its mutex (never locked where
    the type has none). *)
Record object : Type := mkObject { o_kind : kind; o_buf : Buf; o_mu : bool }.
Record world : Type := mkWorld { memory : heap_t; objects : list object }.

Definition state_of (m : heap_t) (o : object) : St := mkSt m (o_buf o) (o_mu o) [].

(** The text of each type and its constructor. *)
Definition package (k : kind) : list gdecl :=
  match k with
  | Buffer3 => v3_program | Mini3 => v3_mini_program
  | BufferOld v => old_program v | MiniOld v => old_mini_program v
  end.
Definition constructor (k : kind) (slices : list slice) : string * list val :=
  match k with
  | Buffer3 | BufferOld _ => ("NewBuffer"%string, [VSlices slices])
  | Mini3 | MiniOld _ => ("NewMiniBuffer"%string, [VCell; VSlices slices])
  end.

(** One call, run by the text. *)
Inductive one_call (pol : Z -> Z -> Z) : kind -> request (call slice) (call2 slice) -> St -> seen -> St -> Prop :=
| call_3 c s a s' : text_step pol (ECall c) s [a] s' -> one_call pol Buffer3 (Q3 c) s (See3 a) s'
| call_3m c out s a s' : mini_step pol (MCall c out) s [a] s' -> one_call pol Mini3 (Q3m c out) s (SeeM a) s'
| call_o v c s a s' : old_text_step v pol (OCall c) s [a] s' -> one_call pol (BufferOld v) (Qo c) s (SeeO a) s'
| call_om v c out s a s' : om_step v pol (OMCall c out) s [a] s' -> one_call pol (MiniOld v) (Qom c out) s (SeeM a) s'.

Definition valid_request (k : kind) (s : St) (q : request (call slice) (call2 slice)) : Prop :=
  match k, q with
  | Buffer3, Q3 c => valid_event s (ECall c)
  | Mini3, Q3m c out => valid_mevent s (MCall c out)
  | BufferOld v, Qo c => valid_old v s (OCall c)
  | MiniOld v, Qom c out => valid_omevent v s (OMCall c out)
  | _, _ => False
  end.

Fixpoint replace {A} (i : nat) (x : A) (l : list A) : list A :=
  match l, i with [], _ => [] | _ :: r, O => x :: r | y :: r, S j => y :: replace j x r end.

Inductive wevent : Type :=
| WNew (k : kind) (slices : list slice)                      (* make one more buffer *)
| WCall (i : nat) (q : request (call slice) (call2 slice))   (* call a method of buffer [i] *)
| WStore (blk : nat) (j x : Z)                               (* the caller writes one byte of memory, through any slice *)
| WAlloc (l : list Z).                                       (* the caller allocates *)

Inductive wanswer : Type := Called (i : nat) (a : seen) | NotMade (e : err).

Inductive wstep (pol : Z -> Z -> Z) : wevent -> world -> list wanswer -> world -> Prop :=
| w_new k slices w b0 s1 :
    runs_to (package k) pol (constructor k slices) (mkSt (memory w) b0 false []) (Done ([], Return VSelf) s1) ->
    wstep pol (WNew k slices) w [] (mkWorld (heap s1) (objects w ++ [mkObject k (bb s1) (mu s1)]))
| w_not_made k slices w b0 e s1 :
    runs_to (package k) pol (constructor k slices) (mkSt (memory w) b0 false []) (Panicked e s1) ->
    wstep pol (WNew k slices) w [NotMade e] (mkWorld (heap s1) (objects w))
| w_call i q w o a s' :
    nth_error (objects w) i = Some o -> one_call pol (o_kind o) q (state_of (memory w) o) a s' ->
    wstep pol (WCall i q) w [Called i a] (mkWorld (heap s') (replace i (mkObject (o_kind o) (bb s') (mu s')) (objects w)))
| w_store b j x w h :
    heap_write (memory w) b j [x] = Some h -> wstep pol (WStore b j x) w [] (mkWorld h (objects w))
| w_alloc l w : wstep pol (WAlloc l) w [] (mkWorld (memory w ++ [l]) (objects w)).

(** Byte [j] of array [b] belongs to the memory behind a slice. *)
Definition behind (sl : slice) (b : nat) (j : Z) : Prop := b = s_blk sl /\ s_off sl <= j < s_off sl + s_cap sl.
Definition disjoint (x y : slice) : Prop := forall b j, ~ (behind x b j /\ behind y b j).

(** Events a Go program can produce. *)
Definition valid_w (w : world) (e : wevent) : Prop :=
  match e with
  | WNew k slices => zlen slices < 2 ^ 63 /\ Forall (wf_slice (memory w)) slices
  | WCall i q => exists o, nth_error (objects w) i = Some o /\ valid_request (o_kind o) (state_of (memory w) o) q
  | WStore b j x => (b < List.length (memory w))%nat /\ 0 <= j < zlen (nth b (memory w) []) /\ is_byte x
  | WAlloc l => Forall is_byte l /\ zlen l <= maxAlloc
  end.

(** The caller does not give to a new buffer memory that is behind another one. *)
Definition own_memory (w : world) (e : wevent) : Prop :=
  match e with
  | WNew k [d] => Forall (fun o => disjoint d (b_buf (o_buf o))) (objects w)
  | _ => True
  end.

Definition separate (w : world) : Prop :=
  forall i j x y, i <> j -> nth_error (objects w) i = Some x -> nth_error (objects w) j = Some y ->
    disjoint (b_buf (o_buf x)) (b_buf (o_buf y)).

(** ** The product of the abstract machines *)

Record aobject : Type := mkAO { ao_kind : kind; ao_buf : abuf; ao_dead : bool }.

Definition abs_object (m : heap_t) (o : object) : aobject :=
  mkAO (o_kind o) (abs (state_of m o)) (o_mu o).
Definition abs_world (w : world) : list aobject := map (abs_object (memory w)) (objects w).

Definition astep (pol : Z -> Z -> Z) (q : request (call (list Z)) (call2 source)) (x : aobject) : option (seen * aobject) :=
  let put r a d := Some (r, mkAO (ao_kind x) a d) in
  match ao_kind x, q with
  | Buffer3, Q3 c =>
      match abs_call c (ao_buf x) with
      | Ok r a => put (See3 (Returned r)) a (ao_dead x) | Fail e a => put (See3 (Raised e)) a (ao_dead x) end
  | Mini3, Q3m c out =>
      match mini_abs_call c (ao_buf x) out with
      | (Ok r a, o) => put (SeeM (MReturned r o)) a (ao_dead x) | (Fail e a, o) => put (SeeM (MRaised e o)) a (ao_dead x) end
  | BufferOld v, Qo c =>
      match old_step v pol c (ao_buf x) (ao_dead x) with Some (r, a, d) => put (SeeO r) a d | None => None end
  | MiniOld v, Qom c out =>
      match old_mini_abs v pol c (ao_buf x) out with
      | Some (Ok r a, o) => put (SeeM (MReturned r o)) a (ao_dead x)
      | Some (Fail e a, o) => put (SeeM (MRaised e o)) a (ao_dead x)
      | None => None end
  | _, _ => None
  end.

Inductive awevent : Type :=
| AWNew (k : kind) (bytes spare : list Z)
| AWCall (i : nat) (q : request (call (list Z)) (call2 source))
| AWPoke (i : nat) (k x : Z).

Definition arun1 (pol : Z -> Z -> Z) (e : awevent) (l : list aobject) : option (list wanswer * list aobject) :=
  match e with
  | AWNew k bytes spare =>
      if zlen bytes <=? maxAlloc then Some ([], l ++ [mkAO k (mkA bytes spare 0 0) false]) else Some ([NotMade make_error], l)
  | AWCall i q =>
      match nth_error l i with
      | Some x => match astep pol q x with Some (a, x') => Some ([Called i a], replace i x' l) | None => None end
      | None => None
      end
  | AWPoke i k x =>
      match nth_error l i with
      | Some y => Some ([], replace i (mkAO (ao_kind y) (abs_poke k x (ao_buf y)) (ao_dead y)) l)
      | None => None
      end
  end.

(** A call that never returns ends the program. *)
Definition stops (l : list wanswer) : bool := match l with [Called _ (SeeO Blocked)] => true | _ => false end.

Fixpoint arun (pol : Z -> Z -> Z) (es : list awevent) (l : list aobject) : option (list wanswer * list aobject) :=
  match es with
  | [] => Some ([], l)
  | e :: r =>
      match arun1 pol e l with
      | Some (a, l') =>
          if stops a then Some (a, l')
          else match arun pol r l' with Some (a', l'') => Some (a ++ a', l'') | None => None end
      | None => None
      end
  end.

(** What an event means for the abstract machines: data arguments are read when the
    call starts, and a byte that the caller writes is a byte of the buffers that it
    is behind. *)
Definition view_request (s : St) (q : request (call slice) (call2 slice)) : request (call (list Z)) (call2 source) :=
  match q with
  | Q3 c => Q3 (view_call s c) | Q3m c out => Q3m (view_call s c) out
  | Qo c => Qo (view_old s c) | Qom c out => Qom (view_old s c) out
  end.

Fixpoint pokes (i : nat) (l : list object) (b : nat) (j x : Z) : list awevent :=
  match l with
  | [] => []
  | o :: r =>
      let sl := b_buf (o_buf o) in
      (if (b =? s_blk sl)%nat && (s_off sl <=? j) && (j <? s_off sl + s_cap sl) then [AWPoke i (j - s_off sl) x] else [])
      ++ pokes (S i) r b j x
  end.

(** [w'] is the world after the event: where the spare bytes of a new buffer are seen. *)
Definition view_w (w : world) (e : wevent) (w' : world) : list awevent :=
  match e with
  | WNew k slices =>
      [AWNew k (List.concat (map (slice_bytes (memory w)) slices))
         match nth_error (objects w') (List.length (objects w)) with
         | Some o => spare (state_of (memory w') o) | None => [] end]
  | WCall i q =>
      match nth_error (objects w) i with
      | Some o => [AWCall i (view_request (state_of (memory w) o) q)] | None => [] end
  | WStore b j x => pokes 0 (objects w) b j x
  | WAlloc _ => []
  end.

(** A run of the program: its events, what they mean, what the caller sees. *)
Inductive whistory (pol : Z -> Z -> Z) : list wevent -> world -> list awevent -> list wanswer -> world -> Prop :=
| whistory_nil w : whistory pol [] w [] [] w
| whistory_cons e es w a w' vs os w'' :
    valid_w w e -> own_memory w e -> wstep pol e w a w' -> stops a = false -> whistory pol es w' vs os w'' ->
    whistory pol (e :: es) w (view_w w e w' ++ vs) (a ++ os) w''
| whistory_ends e es w a w' :
    valid_w w e -> own_memory w e -> wstep pol e w a w' -> stops a = true ->
    whistory pol (e :: es) w (view_w w e w') a w'.

(** ** One call *)

Definition moved (s s' : St) : Prop :=
  WF s' /\
  mem_frame (s_blk (b_buf (bb s))) (s_off (b_buf (bb s))) (s_off (b_buf (bb s)) + s_cap (b_buf (bb s))) (heap s) (heap s') /\
  ((s_blk (b_buf (bb s')) = s_blk (b_buf (bb s)) /\ s_off (b_buf (bb s)) <= s_off (b_buf (bb s')) /\
    s_off (b_buf (bb s')) + s_cap (b_buf (bb s')) <= s_off (b_buf (bb s)) + s_cap (b_buf (bb s))) \/
   (List.length (heap s) <= s_blk (b_buf (bb s')))%nat).

Lemma moved_kept s s' : kept s s' -> moved s s'.
Proof. intros [A _ B C]. exact (conj A (conj B C)). Qed.

Lemma one_call_ok pol k q s : WF s -> valid_request k s q ->
  exists a s', one_call pol k q s a s' /\ moved s s' /\
    astep pol (view_request s q) (mkAO k (abs s) (mu s)) = Some (a, mkAO k (abs s') (mu s')).
Proof.
  intros W V. destruct k as [| |v|v], q as [c|c out|c|c out]; try contradiction V; cbn [valid_request] in V.
  - destruct (text_step_exec1 pol _ s W V) as (a & s' & T & E). cbn [exec1] in E.
    pose proof (do_call_sim s c W V) as S.
    destruct (run (do_call c) s) as [r s1|er s1|s1|]; cbn [sim] in S; try contradiction;
      injection E as <- <-; destruct S as [E1 G]; do 2 eexists;
      (split; [constructor; exact T|]); (split; [apply moved_kept, kept_good; [exact W|exact G]|]);
      cbn [astep view_request ao_kind ao_buf ao_dead]; rewrite E1, (g_mu _ _ G); reflexivity.
  - destruct (mini_step_mexec1 pol _ s W V) as (a & s' & T & E).
    destruct (mexec1_call c out s W V) as (a1 & s1 & E1 & G & R). rewrite E in E1. injection E1 as <- <-.
    cbn [view_mevent abs_mexec abs_mexec1] in R.
    assert (M : mu s' = mu s) by exact (g_mu _ _ G).
    assert (K : moved s s').
    { apply kept_good in G; [|now apply set_outs_WF]. destruct G as [A _ B C]. split; [|exact (conj B C)].
      destruct A; constructor; assumption. }
    destruct (mini_abs_call (view_call s c) (abs s) out) as [[r a1|e a1] o] eqn:E2; injection R as <- ->; do 2 eexists;
      (split; [constructor; exact T|]); (split; [exact K|]);
      cbn [astep view_request ao_kind ao_buf ao_dead]; rewrite E2, M; reflexivity.
  - destruct (old_text_step_play1 v pol _ s W V) as (a & s' & T & E).
    destruct (play1_refines v pol _ s W V) as (a1 & s1 & E1 & _ & _ & R & K). rewrite E in E1. injection E1 as <- <-.
    cbn [view_old_event aplay aplay1] in R.
    destruct (old_step v pol (view_old s c) (abs s) (mu s)) as [[[r a1] d]|] eqn:E2; [|discriminate].
    assert (R' : a = [r] /\ a1 = abs s' /\ d = mu s') by (destruct (over [r]); injection R as <- <- <-; auto).
    destruct R' as (-> & -> & ->). do 2 eexists. split; [constructor; exact T|]. split; [now apply moved_kept|].
    cbn [astep view_request ao_kind ao_buf ao_dead]. now rewrite E2.
  - destruct (om_step_omexec1 v pol _ s W V) as (a & s' & T & E).
    destruct (omexec1_call v pol c out s W V) as (a1 & s1 & E1 & M & K & R). rewrite E in E1. injection E1 as <- <-.
    cbn [view_omevent abs_omexec abs_omexec1] in R.
    assert (K' : moved s s'). { destruct K as [A _ B C]. split; [|exact (conj B C)]. destruct A; constructor; assumption. }
    destruct (old_mini_abs v pol (view_old s c) (abs s) out) as [[[r a1|e a1] o]|] eqn:E2; try discriminate;
      injection R as <- ->; do 2 eexists;
      (split; [constructor; exact T|]); (split; [exact K'|]);
      cbn [astep view_request ao_kind ao_buf ao_dead]; rewrite E2, M; reflexivity.
Qed.

Lemma cons_inj {A} (x y : A) l : [x] = y :: l -> x = y.
Proof. congruence. Qed.

Lemma one_call_unique pol k q s a s' b s'' : one_call pol k q s a s' -> one_call pol k q s b s'' -> a = b /\ s' = s''.
Proof.
  intros H1 H2. destruct H1 as [c s a s' H|c out s a s' H|v c s a s' H|v c out s a s' H]; inversion H2 as [? ? ? ? H'|? ? ? ? ? H'|? ? ? ? ? H'|? ? ? ? ? ? H']; subst.
  - destruct (text_step_unique _ _ _ _ _ _ _ H H') as [E ->]. split; [|reflexivity]. now injection E as ->.
  - destruct (mini_step_unique _ _ _ _ _ _ _ H H') as [E ->]. split; [|reflexivity]. now injection E as ->.
  - destruct (old_text_step_unique _ _ _ _ _ _ _ _ H H') as [E ->]. split; [|reflexivity]. now injection E as ->.
  - destruct (om_step_unique _ _ _ _ _ _ _ _ H H') as [E ->]. split; [|reflexivity]. now injection E as ->.
Qed.

(** ** The constructors *)

Lemma constructor_outcome k pol s0 slices : mu s0 = false -> zlen slices < 2 ^ 63 ->
  run (V3Buffer.NewBuffer pol slices) s0 <> Stuck ->
  runs_to (package k) pol (constructor k slices) s0
    match run (V3Buffer.NewBuffer pol slices) s0 with
    | Done _ s' => Done ([], Return VSelf) s' | Panicked e s' => Panicked e s' | Deadlock s' => Deadlock s'
    | Stuck => Stuck end.
Proof.
  intros M Z S. destruct k as [| |v|v]; cbn [package constructor].
  - now apply NewBuffer_outcome.
  - rewrite <- Props_Mini.C35_same_constructor in *. now apply NewMiniBuffer_outcome.
  - rewrite <- (old_NewBuffer_is v pol slices s0 M Z) in *. now apply old_NewBuffer_outcome.
  - rewrite <- (old_NewMiniBuffer_is v pol slices s0 Z) in *. now apply old_NewMiniBuffer_outcome.
Qed.

Lemma constructor_ok k pol s0 slices : wf_heap (heap s0) -> mu s0 = false -> zlen slices < 2 ^ 63 -> Forall (wf_slice (heap s0)) slices ->
  if zlen (all_bytes (heap s0) slices) <=? maxAlloc
  then exists s1, runs_to (package k) pol (constructor k slices) s0 (Done ([], Return VSelf) s1) /\
         fresh_buffer s0 s1 (all_bytes (heap s0) slices) /\
         match slices with [d] => b_buf (bb s1) = d | _ => (List.length (heap s0) <= s_blk (b_buf (bb s1)))%nat end
  else exists s1, runs_to (package k) pol (constructor k slices) s0 (Panicked make_error s1) /\
         wf_heap (heap s1) /\ exists new, heap s1 = heap s0 ++ new.
Proof.
  intros H1 M H2 H3. pose proof (constructor_outcome k pol s0 slices M H2) as O.
  pose proof (NewBuffer_any pol s0 slices H1 H2 H3) as N.
  destruct (_ <=? _); destruct N as (s1 & E & F); exists s1; rewrite E in O; specialize (O ltac:(discriminate)); (split; [exact O|]).
  - split; [exact F|]. assert (NB : Props_State.new_buffer pol s0 slices s1) by (repeat split; assumption).
    destruct slices as [|d [|d2 r]].
    + rewrite run_NewBuffer_zero in E. injection E as <-. cbn. lia.
    + exact (Props_State.C31_one_slice_shared pol s0 d s1 NB).
    + apply (Props_State.new_buffer_many pol s0 _ s1 NB). cbn. lia.
  - exact F.
Qed.

(** It does not matter what the receiver held before. *)
Lemma NewBuffer_receiver pol slices m b0 b1 l o :
  run (V3Buffer.NewBuffer pol slices) (mkSt m b0 l o) = run (V3Buffer.NewBuffer pol slices) (mkSt m b1 l o).
Proof. destruct slices as [|x [|y r]]; reflexivity. Qed.

Lemma constructor_unique k pol slices m b0 b1 r r' : wf_heap m -> zlen slices < 2 ^ 63 -> Forall (wf_slice m) slices ->
  runs_to (package k) pol (constructor k slices) (mkSt m b0 false []) r ->
  runs_to (package k) pol (constructor k slices) (mkSt m b1 false []) r' -> r = r'.
Proof.
  intros H1 H2 H3 R R'.
  assert (S : run (V3Buffer.NewBuffer pol slices) (mkSt m b0 false []) <> Stuck).
  { pose proof (NewBuffer_any pol (mkSt m b0 false []) slices H1 H2 H3) as N.
    destruct (_ <=? _); destruct N as (s1 & E & _); rewrite E; discriminate. }
  pose proof (constructor_outcome k pol (mkSt m b0 false []) slices eq_refl H2 S) as O.
  rewrite (NewBuffer_receiver pol slices m b0 b1) in *.
  pose proof (constructor_outcome k pol (mkSt m b1 false []) slices eq_refl H2 S) as O'.
  rewrite (runs_to_unique _ _ _ _ _ _ R O), (runs_to_unique _ _ _ _ _ _ R' O'). reflexivity.
Qed.

(** ** Worlds *)

Definition wf_world (w : world) : Prop :=
  wf_heap (memory w) /\ Forall (fun o => WF (state_of (memory w) o)) (objects w).

Lemma frame_object m m' o x :
  WF (state_of m o) -> wf_heap m' -> mem_frame (s_blk x) (s_off x) (s_off x + s_cap x) m m' ->
  disjoint x (b_buf (o_buf o)) ->
  WF (state_of m' o) /\ abs (state_of m' o) = abs (state_of m o).
Proof.
  intros W Hm [L F] D. destruct W as [Wh Ws Wc Wb Wo Wbo] eqn:EW. clear EW. cbn [state_of heap bb] in *.
  destruct Ws as (S1 & S2 & S3 & S4). destruct (F _ S1) as [Z1 G].
  assert (W' : WF (state_of m' o)).
  { constructor; auto; cbn [state_of heap bb]. unfold wf_slice. rewrite Z1. repeat split; auto; lia. }
  split; [exact W'|].
  assert (W0 : WF (state_of m o)) by (constructor; auto; unfold wf_slice; auto).
  pose proof (array_split _ W0) as A0. pose proof (array_split _ W') as A1. cbn [state_of heap bb] in A0, A1.
  assert (E : content (state_of m' o) ++ spare (state_of m' o) = content (state_of m o) ++ spare (state_of m o)).
  { rewrite <- A0, <- A1. apply byte_at_ext; rewrite !sub_length by lia; auto.
    intros i Hi. rewrite !byte_at_sub by lia. apply G; [lia|].
    specialize (D (s_blk (b_buf (o_buf o))) (s_off (b_buf (o_buf o)) + i)). unfold behind in D.
    destruct (Nat.eq_dec (s_blk (b_buf (o_buf o))) (s_blk x)); [right|left; assumption].
    assert (~ (s_off x <= s_off (b_buf (o_buf o)) + i < s_off x + s_cap x)) by (intro; apply D; repeat split; lia). lia. }
  apply app_inj_zlen in E; [|rewrite !content_zlen by assumption; reflexivity]. destruct E as [E1 E2].
  unfold abs. now rewrite E1, E2.
Qed.

Definition nowhere : slice := mkSlice 0 0 0 0.
Lemma nowhere_disjoint x : disjoint nowhere x.
Proof. intros b j [[_ H] _]. cbn in H. lia. Qed.

Lemma replace_length {A} i (x : A) l : List.length (replace i x l) = List.length l.
Proof. revert i. induction l; destruct i; cbn; auto. Qed.
Lemma nth_replace {A} i (x : A) l j : (i < List.length l)%nat ->
  nth_error (replace i x l) j = if (j =? i)%nat then Some x else nth_error l j.
Proof.
  revert i j. induction l as [|y l IH]; intros i j H; [cbn in H; lia|].
  destruct i, j; cbn in *; auto. apply IH. lia.
Qed.
Lemma map_replace {A B} (f : A -> B) i x l : map f (replace i x l) = replace i (f x) (map f l).
Proof. revert i. induction l as [|y l IH]; destruct i; cbn; auto. now rewrite IH. Qed.
Lemma list_ext {A} (l l' : list A) : (forall j, nth_error l j = nth_error l' j) -> l = l'.
Proof.
  revert l'. induction l as [|x l IH]; destruct l' as [|y l']; intros H; auto.
  - discriminate (H O). - discriminate (H O).
  - pose proof (H O) as H0. cbn in H0. injection H0 as ->. f_equal. apply IH. intro j. exact (H (S j)).
Qed.

(** The other objects of a world in which memory changed behind [x] only. *)
Lemma frame_objects m m' l x :
  wf_heap m' -> mem_frame (s_blk x) (s_off x) (s_off x + s_cap x) m m' ->
  Forall (fun o => WF (state_of m o)) l -> Forall (fun o => disjoint x (b_buf (o_buf o))) l ->
  Forall (fun o => WF (state_of m' o)) l /\ map (abs_object m') l = map (abs_object m) l.
Proof.
  intros Hm F H D. induction l as [|o l IH]; [split; constructor|].
  inversion H; inversion D; subst. destruct IH as [I1 I2]; auto.
  destruct (frame_object m m' o x) as [W E]; auto. split; [constructor; auto|].
  cbn [map]. rewrite I2. unfold abs_object at 1 3. now rewrite E.
Qed.

(** ** Stores *)

Lemma store_objects pol m b j x h : (b < List.length m)%nat -> 0 <= j < zlen (nth b m []) -> is_byte x ->
  heap_write m b j [x] = Some h -> forall l pre,
  Forall (fun o => WF (state_of m o)) l ->
  Forall (fun o => WF (state_of h o)) l /\
  arun pol (pokes (List.length pre) l b j x) (pre ++ map (abs_object m) l) = Some ([], pre ++ map (abs_object h) l).
Proof.
  intros Hb Hj Hx E. induction l as [|o l IH]; intros pre H; [split; [constructor|reflexivity]|].
  inversion H as [|? ? Ho Hl]; subst.
  assert (V : valid_event (state_of m o) (EStore b j x)) by exact (conj Hb (conj Hj Hx)).
  destruct (store_exec (state_of m o) b j x Ho V) as (s' & E1 & W' & Es).
  assert (Eh : s' = state_of h o).
  { cbn [exec1 state_of heap] in E1. rewrite E in E1. injection E1 as <-. reflexivity. }
  pose proof (store_abs (state_of m o) b j x s' Ho V W' Es) as SA. rewrite Eh in *. clear Es E1.
  destruct (IH (pre ++ [abs_object h o]) Hl) as [I1 I2]. split; [constructor; auto|].
  rewrite app_length in I2. cbn [List.length] in I2. rewrite Nat.add_1_r in I2. rewrite <- !app_assoc in I2. cbn [app] in I2.
  cbn [pokes map]. cbn [view_event state_of bb] in SA. destruct (_ && _); cbn [app].
  - cbn [arun arun1]. rewrite nth_error_app2, Nat.sub_diag by lia. cbn [nth_error stops].
    assert (R : forall y z, replace (List.length pre) y (pre ++ z :: map (abs_object m) l) = pre ++ y :: map (abs_object m) l).
    { clear. intros. induction pre; cbn; auto. now rewrite IHpre. }
    rewrite R. cbn [abs_exec abs_exec1 app] in SA. cbn [abs_object ao_kind ao_buf ao_dead].
    replace (abs_poke (j - s_off (b_buf (o_buf o))) x (abs (state_of m o))) with (abs (state_of h o)) by congruence.
    unfold abs_object in I2 at 1. rewrite I2. reflexivity.
  - cbn [abs_exec] in SA. unfold abs_object at 1 3. replace (abs (state_of m o)) with (abs (state_of h o)) by congruence.
    exact I2.
Qed.

Lemma store_heap m b j x h : wf_heap m -> (b < List.length m)%nat -> 0 <= j < zlen (nth b m []) -> is_byte x ->
  heap_write m b j [x] = Some h -> wf_heap h.
Proof.
  intros Hm Hb Hj Hx E. set (o := mkObject Buffer3 (mkBuf (mkSlice b 0 0 0) 0 0 0 0) false).
  assert (Ho : WF (state_of m o)).
  { constructor; cbn; try (unfold is_i64; lia); auto. unfold wf_slice; cbn. pose proof (zlen_nonneg (nth b m [])). lia. }
  destruct (store_objects (fun _ _ => 0) m b j x h Hb Hj Hx E [o] []) as [F _]; [constructor; auto|].
  inversion F as [|? ? F1 _]; subst. apply F1.
Qed.

(** ** One event *)

Lemma wstep_exists pol w e : wf_world w -> valid_w w e ->
  exists a w', wstep pol e w a w' /\ forall b w'', wstep pol e w b w'' -> b = a /\ w'' = w'.
Proof.
  intros [Wh Wo] V. destruct e as [k slices|i q|b j x|l]; cbn [valid_w] in V.
  - destruct V as [V1 V2]. set (b0 := mkBuf nowhere 0 0 0 0).
    pose proof (constructor_ok k pol (mkSt (memory w) b0 false []) slices Wh eq_refl V1 V2) as C.
    destruct (_ <=? _); destruct C as (s1 & R & _).
    + do 2 eexists. split; [econstructor; exact R|]. intros b w'' H.
      inversion H as [? ? ? b1 s2 R'|? ? ? b1 e s2 R'| | |]; subst;
        pose proof (constructor_unique k pol slices _ _ _ _ _ Wh V1 V2 R R') as U; [|discriminate U].
      injection U as <-. auto.
    + do 2 eexists. split; [eapply w_not_made; exact R|]. intros b w'' H.
      inversion H as [? ? ? b1 s2 R'|? ? ? b1 e s2 R'| | |]; subst;
        pose proof (constructor_unique k pol slices _ _ _ _ _ Wh V1 V2 R R') as U; [discriminate U|].
      injection U as <- <-. auto.
  - destruct V as (o & E & V). assert (W : WF (state_of (memory w) o)).
    { rewrite Forall_forall in Wo. apply Wo. eapply nth_error_In; exact E. }
    destruct (one_call_ok pol _ q _ W V) as (a & s' & C & _).
    do 2 eexists. split; [econstructor; [exact E|exact C]|].
    intros b w'' H. inversion H as [| |? ? ? o2 a2 s2 E2 C2| |]; subst.
    assert (o2 = o) by congruence. subst o2. destruct (one_call_unique _ _ _ _ _ _ _ _ C C2) as [<- <-]. auto.
  - destruct V as (V1 & V2 & V3). rewrite <- (Nat.add_0_r b) in *. rewrite Nat.add_0_r in *.
    assert (E : exists h, heap_write (memory w) b j [x] = Some h).
    { eexists. apply heap_write_ok; auto; change (zlen [x]) with 1; lia. }
    destruct E as [h E]. do 2 eexists. split; [constructor; exact E|].
    intros b' w'' H. inversion H; subst. split; [reflexivity|]. congruence.
  - do 2 eexists. split; [constructor|]. intros b' w'' H. inversion H; subst. auto.
Qed.

Lemma Forall_nth_error {A} (P : A -> Prop) l : Forall P l <-> forall i x, nth_error l i = Some x -> P x.
Proof.
  rewrite Forall_forall. split.
  - intros H i x E. apply H. eapply nth_error_In; exact E.
  - intros H x I. apply In_nth_error in I as [i E]. eauto.
Qed.

Lemma disjoint_sym x y : disjoint x y -> disjoint y x.
Proof. intros D b j [H1 H2]. now apply (D b j). Qed.

Lemma WF_in (m : heap_t) o : WF (state_of m o) -> forall b j, behind (b_buf (o_buf o)) b j -> (b < List.length m)%nat.
Proof. intros W b j [-> _]. apply (wf_blk _ W). Qed.

Lemma arun_app pol es1 es2 l :
  arun pol (es1 ++ es2) l =
  match arun pol es1 l with
  | Some (o, l') =>
      if existsb (fun a => stops [a]) o then Some (o, l')
      else match arun pol es2 l' with Some (o', l'') => Some (o ++ o', l'') | None => None end
  | None => None
  end.
Proof.
  revert l. induction es1 as [|e r IH]; intros l; cbn [app arun].
  - destruct (arun pol es2 l) as [[? ?]|]; reflexivity.
  - destruct (arun1 pol e l) as [[o l']|] eqn:E; auto.
    assert (O : stops o = existsb (fun a => stops [a]) o).
    { destruct e; cbn [arun1] in E.
      - destruct (_ <=? _); injection E as <- <-; reflexivity.
      - destruct (nth_error l i); [|discriminate]. destruct (astep pol q a) as [[? ?]|]; [|discriminate].
        injection E as <- <-. cbn. destruct s as [| |[]]; reflexivity.
      - destruct (nth_error l i); [|discriminate]. injection E as <- <-; reflexivity. }
    destruct (stops o). { now rewrite <- O. }
    rewrite IH. destruct (arun pol r l') as [[o1 l1]|]; auto.
    rewrite existsb_app, <- O. cbn [orb]. destruct (existsb _ o1); auto.
    destruct (arun pol es2 l1) as [[o2 l2]|]; auto. now rewrite app_assoc.
Qed.

Lemma wstep_stops pol e w a w' : wstep pol e w a w' -> stops a = existsb (fun a => stops [a]) a.
Proof. intros H. destruct H; try reflexivity. cbn. destruct a as [| |[]]; reflexivity. Qed.

(** The new world is well formed whether or not buffers share memory. *)
Lemma frame_WF m m' o x : WF (state_of m o) -> wf_heap m' -> mem_frame (s_blk x) (s_off x) (s_off x + s_cap x) m m' ->
  WF (state_of m' o).
Proof.
  intros [Wh Ws Wc Wb Wo Wbo] Hm [L F]. cbn [state_of heap bb] in *. destruct Ws as (S1 & S2 & S3 & S4).
  destruct (F _ S1) as [Z1 G]. constructor; auto; cbn [state_of heap bb]. unfold wf_slice. rewrite Z1. repeat split; auto; lia.
Qed.

Lemma wstep_WF pol w e a w' : wf_world w -> valid_w w e -> wstep pol e w a w' -> wf_world w'.
Proof.
  intros [Wh Wo] V H. destruct H as [k slices w b0 s1 R|k slices w b0 e s1 R|i q w o a s' E C|b j x w h E|l w]; cbn [valid_w memory objects] in *.
  - destruct V as [V1 V2].
    pose proof (constructor_ok k pol (mkSt (memory w) b0 false []) slices Wh eq_refl V1 V2) as C.
    destruct (_ <=? _); destruct C as (s2 & R2 & F); pose proof (runs_to_unique _ _ _ _ _ _ R R2) as U; [|discriminate U].
    injection U as <-. destruct F as [[F1 F2 F3 F4 [new F5] F6 F7] _]. cbn [heap] in F5.
    split; cbn [memory objects]; [apply F1|]. apply Forall_app. split.
    + eapply Forall_impl; [|exact Wo]. intros o Ho. rewrite F5. eapply (frame_WF _ _ o nowhere); [exact Ho|rewrite <- F5; apply F1|apply mem_frame_app].
    + constructor; [|constructor]. destruct F1; constructor; assumption.
  - destruct V as [V1 V2].
    pose proof (constructor_ok k pol (mkSt (memory w) b0 false []) slices Wh eq_refl V1 V2) as C.
    destruct (_ <=? _); destruct C as (s2 & R2 & F); pose proof (runs_to_unique _ _ _ _ _ _ R R2) as U; [discriminate U|].
    injection U as -> <-. destruct F as [F1 [new F5]]. cbn [heap] in F5.
    split; cbn [memory objects]; [exact F1|]. eapply Forall_impl; [|exact Wo]. intros o Ho.
    rewrite F5. eapply (frame_WF _ _ o nowhere); [exact Ho|rewrite <- F5; exact F1|apply mem_frame_app].
  - destruct V as (o2 & E2 & V). assert (o2 = o) by congruence. subst o2.
    assert (W : WF (state_of (memory w) o)) by (rewrite Forall_nth_error in Wo; eapply Wo; exact E).
    destruct (one_call_ok pol _ q _ W V) as (a2 & s2 & C2 & (W2 & F2 & _) & _).
    destruct (one_call_unique _ _ _ _ _ _ _ _ C C2) as [<- <-].
    split; cbn [memory objects]; [apply W2|]. apply Forall_nth_error. intros j y Ey.
    rewrite nth_replace in Ey by (apply nth_error_Some; congruence).
    destruct (j =? i)%nat.
    + injection Ey as <-. destruct W2; constructor; assumption.
    + rewrite Forall_nth_error in Wo. eapply (frame_WF _ _ y (b_buf (o_buf o))); [eapply Wo; exact Ey|apply W2|exact F2].
  - destruct V as (V1 & V2 & V3). split; cbn [memory objects]; [eapply store_heap; eauto|].
    now apply (store_objects pol (memory w) b j x h V1 V2 V3 E (objects w) []).
  - destruct V as [V1 V2]. assert (Hw : wf_heap (memory w ++ [l])) by (apply wf_heap_alloc; assumption).
    split; cbn [memory objects]; [exact Hw|]. eapply Forall_impl; [|exact Wo]. intros o Ho.
    eapply (frame_WF _ _ o nowhere); [exact Ho|exact Hw|apply mem_frame_alloc].
Qed.

(** Calls keep the buffers apart, and new buffers come with memory of their own. *)
Lemma wstep_separate pol w e a w' :
  wf_world w -> separate w -> valid_w w e -> own_memory w e -> wstep pol e w a w' -> separate w'.
Proof.
  intros [Wh Wo] Sp V Own H. rewrite Forall_nth_error in Wo.
  destruct H as [k slices w b0 s1 R|k slices w b0 e s1 R|i q w o a s' E C|b j x w h E|l w]; try exact Sp.
  - destruct V as [V1 V2].
    pose proof (constructor_ok k pol (mkSt (memory w) b0 false []) slices Wh eq_refl V1 V2) as C.
    destruct (_ <=? _); destruct C as (s2 & R2 & F); pose proof (runs_to_unique _ _ _ _ _ _ R R2) as U; [|discriminate U].
    injection U as <-. destruct F as [_ F].
    assert (D : forall i y, nth_error (objects w) i = Some y -> disjoint (b_buf (bb s1)) (b_buf (o_buf y))).
    { intros i y Ey. destruct slices as [|d [|d2 r]].
      - intros b j [[-> _] H2]. pose proof (WF_in _ _ (Wo _ _ Ey) _ _ H2). cbn [heap] in F. lia.
      - subst d. cbn [own_memory] in Own. rewrite Forall_nth_error in Own. eapply Own; exact Ey.
      - intros b j [[-> _] H2]. pose proof (WF_in _ _ (Wo _ _ Ey) _ _ H2). cbn [heap] in F. lia. }
    intros i j x y N Ex Ey. cbn [objects] in *.
    assert (Q : forall n z, nth_error (objects w ++ [mkObject k (bb s1) (mu s1)]) n = Some z ->
              nth_error (objects w) n = Some z \/ n = List.length (objects w) /\ b_buf (o_buf z) = b_buf (bb s1)).
    { intros n z En. destruct (Nat.ltb_spec n (List.length (objects w))) as [L|L].
      - left. now rewrite nth_error_app1 in En by exact L.
      - right. rewrite nth_error_app2 in En by exact L.
        assert (n - List.length (objects w) < 1)%nat by (change 1%nat with (List.length [mkObject k (bb s1) (mu s1)]); apply nth_error_Some; congruence).
        replace (n - List.length (objects w))%nat with O in En by lia. cbn in En. injection En as <-. split; [lia|reflexivity]. }
    apply Q in Ex, Ey. destruct Ex as [Ex|[-> Ex]], Ey as [Ey|[-> Ey]].
    + exact (Sp i j x y N Ex Ey).
    + rewrite Ey. apply disjoint_sym. eauto.
    + rewrite Ex. eauto.
    + congruence.
  - destruct V as (o2 & E2 & V). assert (o2 = o) by congruence. subst o2.
    pose proof (Wo _ _ E) as W.
    destruct (one_call_ok pol _ q _ W V) as (a2 & s2 & C2 & (W2 & _ & F2) & _).
    destruct (one_call_unique _ _ _ _ _ _ _ _ C C2) as [<- <-]. cbn [state_of heap bb] in F2.
    assert (D : forall j y, j <> i -> nth_error (objects w) j = Some y -> disjoint (b_buf (bb s')) (b_buf (o_buf y))).
    { intros j y N Ey b k [[-> H1] H2]. destruct F2 as [(F3 & F4 & F5)|F2].
      - apply (Sp i j o y ltac:(congruence) E Ey (s_blk (b_buf (bb s'))) k). split; [|exact H2]. split; [exact F3|]. lia.
      - pose proof (WF_in _ _ (Wo _ _ Ey) _ _ H2). lia. }
    intros j k x y N Ex Ey. cbn [objects] in *.
    rewrite nth_replace in Ex, Ey by (apply nth_error_Some; congruence).
    destruct (Nat.eqb_spec j i) as [->|Nj], (Nat.eqb_spec k i) as [->|Nk].
    + congruence.
    + injection Ex as <-. cbn [o_buf]. eauto.
    + injection Ey as <-. cbn [o_buf]. apply disjoint_sym. eauto.
    + exact (Sp j k x y N Ex Ey).
Qed.

Lemma wstep_refines pol w e a w' :
  wf_world w -> separate w -> valid_w w e -> wstep pol e w a w' ->
  arun pol (view_w w e w') (abs_world w) = Some (a, abs_world w').
Proof.
  intros [Wh Wo] Sp V H.
  destruct H as [k slices w b0 s1 R|k slices w b0 e s1 R|i q w o a s' E C|b j x w h E|l w]; cbn [view_w valid_w memory objects] in *.
  - destruct V as [V1 V2].
    pose proof (constructor_ok k pol (mkSt (memory w) b0 false []) slices Wh eq_refl V1 V2) as C. cbn [heap] in C.
    destruct (zlen (all_bytes (memory w) slices) <=? maxAlloc) eqn:EL; destruct C as (s2 & R2 & F);
      pose proof (runs_to_unique _ _ _ _ _ _ R R2) as U; [|discriminate U].
    injection U as <-. destruct F as [[F1 F2 F3 F4 [new F5] F6 F7] _]. cbn [heap mu] in *.
    rewrite nth_error_app2, Nat.sub_diag by lia. cbn [nth_error arun arun1].
    change (List.concat _) with (all_bytes (memory w) slices). rewrite EL. cbn [stops app].
    unfold abs_world; cbn [memory objects]. rewrite map_app. cbn [map].
    destruct (frame_objects (memory w) (heap s1) (objects w) nowhere) as [_ Eo];
      [apply F1|rewrite F5; apply mem_frame_app|exact Wo|apply Forall_forall; intros; apply nowhere_disjoint|].
    rewrite Eo. do 4 f_equal. unfold abs_object, abs; cbn [o_kind o_buf o_mu state_of bb].
    change (content (state_of (heap s1) (mkObject k (bb s1) (mu s1)))) with (content s1).
    rewrite F2, F3, F4, F6. reflexivity.
  - destruct V as [V1 V2].
    pose proof (constructor_ok k pol (mkSt (memory w) b0 false []) slices Wh eq_refl V1 V2) as C. cbn [heap] in C.
    destruct (zlen (all_bytes (memory w) slices) <=? maxAlloc) eqn:EL; destruct C as (s2 & R2 & F);
      pose proof (runs_to_unique _ _ _ _ _ _ R R2) as U; [discriminate U|].
    injection U as -> <-. destruct F as [F1 [new F5]].
    cbn [arun arun1]. change (List.concat _) with (all_bytes (memory w) slices). rewrite EL. cbn [stops app].
    unfold abs_world; cbn [memory objects].
    destruct (frame_objects (memory w) (heap s1) (objects w) nowhere) as [_ Eo];
      [exact F1|rewrite F5; apply mem_frame_app|exact Wo|apply Forall_forall; intros; apply nowhere_disjoint|].
    now rewrite Eo.
  - destruct V as (o2 & E2 & V). assert (o2 = o) by congruence. subst o2. rewrite E.
    assert (W : WF (state_of (memory w) o)) by (rewrite Forall_nth_error in Wo; eapply Wo; exact E).
    destruct (one_call_ok pol _ q _ W V) as (a2 & s2 & C2 & (W2 & F2 & _) & A).
    destruct (one_call_unique _ _ _ _ _ _ _ _ C C2) as [<- <-].
    cbn [arun arun1]. unfold abs_world at 1 2. rewrite nth_error_map, E. cbn [option_map].
    change (abs_object (memory w) o) with (mkAO (o_kind o) (abs (state_of (memory w) o)) (mu (state_of (memory w) o))).
    rewrite A. 
    assert (Eo : replace i (mkAO (o_kind o) (abs s') (mu s')) (map (abs_object (memory w)) (objects w)) =
                 abs_world (mkWorld (heap s') (replace i (mkObject (o_kind o) (bb s') (mu s')) (objects w)))).
    { unfold abs_world; cbn [memory objects]. rewrite map_replace. apply list_ext. intro j.
      rewrite !nth_replace by (rewrite map_length; apply nth_error_Some; congruence).
      destruct (Nat.eqb_spec j i) as [->|N]; [reflexivity|].
      rewrite !nth_error_map. destruct (nth_error (objects w) j) as [y|] eqn:Ey; [|reflexivity]. cbn [option_map]. f_equal.
      assert (Wy : WF (state_of (memory w) y)) by (rewrite Forall_nth_error in Wo; eapply Wo; exact Ey).
      destruct (frame_object (memory w) (heap s') y (b_buf (o_buf o)) Wy) as [_ Q];
        [apply W2|exact F2|exact (Sp i j o y ltac:(congruence) E Ey)|]. unfold abs_object. now rewrite Q. }
    rewrite Eo, app_nil_r. destruct (stops _); reflexivity.
  - destruct V as (V1 & V2 & V3).
    now apply (store_objects pol (memory w) b j x h V1 V2 V3 E (objects w) []).
  - destruct V as [V1 V2]. cbn [arun]. unfold abs_world; cbn [memory objects].
    destruct (frame_objects (memory w) (memory w ++ [l]) (objects w) nowhere) as [_ Eo];
      [apply wf_heap_alloc; assumption|apply mem_frame_alloc|exact Wo|apply Forall_forall; intros; apply nowhere_disjoint|].
    now rewrite Eo.
Qed.

Theorem whistory_refines pol es w vs os w' :
  wf_world w -> separate w -> whistory pol es w vs os w' ->
  wf_world w' /\ separate w' /\ arun pol vs (abs_world w) = Some (os, abs_world w').
Proof.
  intros W Sp H. revert W Sp. induction H as [w|e es w a w1 vs os w2 V O St NB Hh IH|e es w a w1 V O St NB]; intros W Sp; [auto| |].
  - pose proof (wstep_WF _ _ _ _ _ W V St) as W1. pose proof (wstep_separate _ _ _ _ _ W Sp V O St) as S1.
    pose proof (wstep_refines _ _ _ _ _ W Sp V St) as R. destruct (IH W1 S1) as (W2 & S2 & R2).
    split; [exact W2|]. split; [exact S2|]. rewrite arun_app, R, <- (wstep_stops _ _ _ _ _ St), NB, R2. reflexivity.
  - split; [eapply wstep_WF; eauto|]. split; [eapply wstep_separate; eauto|]. eapply wstep_refines; eauto.
Qed.
