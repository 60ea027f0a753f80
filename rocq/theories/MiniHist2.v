(** * MiniHist2: sequences of calls on one v1 or v2 [MiniBuffer], interspersed
    with what the caller does to memory on its own.  Panics are recovered between
    calls. *)
From Coq Require Import ZArith List Bool Lia ZifyBool.
From Verif Require Import GoSem Errors Spec GoLemmas Typed V3BitLemmas V3ByteLemmas TypedReadLemmas Calls Abs Frame Sim History
  MiniAbs MiniLemmas MiniSim MiniHistory OldCalls V2Agree V1Lemmas V1Calls Abs2 Sim2 Hist2 MiniAbs2 MiniSim2.
Import ListNotations.
Open Scope Z_scope.

Inductive omevent : Type :=
| OMCall (c : call2 slice) (out : list Z)   (* a method call; [out] is the initial value of the out variable *)
| OMStore (blk : nat) (i x : Z)             (* the caller writes one byte of memory, through any slice *)
| OMAlloc (l : list Z).                     (* the caller allocates *)

(** One event; [None] if the model is stuck (memory fault) or blocked. *)
Definition omexec1 (v : version) (pol : Z -> Z -> Z) (e : omevent) (s : St) : option (list manswer * St) :=
  match e with
  | OMCall c out =>
      match run (old_mini v pol c) (set_outs s out) with
      | Done r s' => Some ([MReturned (view_rv s' r) (outs s')], s')
      | Panicked er s' => Some ([MRaised er (outs s')], s')
      | Deadlock _ | Stuck => None
      end
  | OMStore b i x => match heap_write (heap s) b i [x] with Some h => Some ([], set_heap s h) | None => None end
  | OMAlloc l => Some ([], alloc s l)
  end.
Fixpoint omexec (v : version) (pol : Z -> Z -> Z) (es : list omevent) (s : St) : option (list manswer * St) :=
  match es with
  | [] => Some ([], s)
  | e :: r =>
      match omexec1 v pol e s with
      | Some (a, s') => match omexec v pol r s' with Some (a', s'') => Some (a ++ a', s'') | None => None end
      | None => None
      end
  end.

(** Events a Go program can produce. *)
Definition valid_omevent (v : version) (s : St) (e : omevent) : Prop :=
  match e with
  | OMCall c out => valid_old_mini v s c out
  | OMStore b i x => (b < length (heap s))%nat /\ 0 <= i < zlen (nth b (heap s) []) /\ is_byte x
  | OMAlloc l => Forall is_byte l /\ zlen l <= maxAlloc
  end.
Fixpoint valid_omevents (v : version) (pol : Z -> Z -> Z) (es : list omevent) (s : St) : Prop :=
  match es with
  | [] => True
  | e :: r => valid_omevent v s e /\
      match omexec1 v pol e s with Some (_, s') => valid_omevents v pol r s' | None => True end
  end.

(** ** The same history on the abstract MiniBuffer *)

Inductive aomevent : Type := AOMCall (c : call2 source) (out : list Z) | AOMPoke (k x : Z).

Definition abs_omexec1 (v : version) (pol : Z -> Z -> Z) (e : aomevent) (a : abuf) : option (list manswer * abuf) :=
  match e with
  | AOMCall c out =>
      match old_mini_abs v pol c a out with
      | Some (Ok r a', o) => Some ([MReturned r o], a')
      | Some (Fail er a', o) => Some ([MRaised er o], a')
      | None => None
      end
  | AOMPoke k x => Some ([], abs_poke k x a)
  end.
Fixpoint abs_omexec (v : version) (pol : Z -> Z -> Z) (es : list aomevent) (a : abuf) : option (list manswer * abuf) :=
  match es with
  | [] => Some ([], a)
  | e :: r =>
      match abs_omexec1 v pol e a with
      | Some (o, a') => match abs_omexec v pol r a' with Some (o', a'') => Some (o ++ o', a'') | None => None end
      | None => None
      end
  end.

(** The abstract events a concrete event amounts to. *)
Definition view_omevent (s : St) (e : omevent) : list aomevent :=
  match e with
  | OMCall c out => [AOMCall (view_old s c) out]
  | OMStore b i x =>
      let sl := b_buf (bb s) in
      if (b =? s_blk sl)%nat && (s_off sl <=? i) && (i <? s_off sl + s_cap sl)
      then [AOMPoke (i - s_off sl) x] else []
  | OMAlloc _ => []
  end.
Fixpoint view_omevents (v : version) (pol : Z -> Z -> Z) (es : list omevent) (s : St) : list aomevent :=
  match es with
  | [] => []
  | e :: r => view_omevent s e ++
      match omexec1 v pol e s with Some (_, s') => view_omevents v pol r s' | None => [] end
  end.

Lemma abs_omexec_app v pol es1 es2 a :
  abs_omexec v pol (es1 ++ es2) a =
  match abs_omexec v pol es1 a with
  | Some (o, a') => match abs_omexec v pol es2 a' with Some (o', a'') => Some (o ++ o', a'') | None => None end
  | None => None
  end.
Proof.
  revert a. induction es1 as [|e r IH]; intro a; cbn [app abs_omexec].
  - destruct (abs_omexec v pol es2 a) as [[? ?]|]; reflexivity.
  - destruct (abs_omexec1 v pol e a) as [[o a']|]; auto. rewrite IH.
    destruct (abs_omexec v pol r a') as [[o1 a1]|]; auto.
    destruct (abs_omexec v pol es2 a1) as [[o2 a2]|]; auto. now rewrite app_assoc.
Qed.

Lemma valid_old_mini_outs v s c out : valid_old_mini v s c out ->
  valid_old_mini v (set_outs s out) c (outs (set_outs s out)).
Proof.
  intros (M & V & O). split; [exact M|]. split; [|destruct c; exact O].
  destruct c as [off o|o| | | | | | | | | | | | | | | | | ]; try exact V; destruct o; exact V.
Qed.
Lemma view_old_outs s out c : view_old (set_outs s out) c = view_old s c.
Proof. destruct c as [off o|o| | | | | | | | | | | | | | | | | ]; try reflexivity; destruct o; reflexivity. Qed.

Lemma omexec1_call v pol c out s :
  WF s -> valid_old_mini v s c out ->
  exists a s', omexec1 v pol (OMCall c out) s = Some (a, s') /\ mu s' = mu s /\
    kept (set_outs s out) (set_outs s' out) /\
    abs_omexec v pol (view_omevent s (OMCall c out)) (abs s) = Some (a, abs s').
Proof.
  intros W V.
  destruct (old_mini_seen v pol (set_outs s out) c (set_outs_WF s out W) (valid_old_mini_outs v s c out V)) as (o & E & S).
  rewrite view_old_outs in E. change (abs (set_outs s out)) with (abs s) in E.
  change (outs (set_outs s out)) with out in *.
  cbn [omexec1 view_omevent abs_omexec abs_omexec1]. rewrite E.
  destruct (run (old_mini v pol c) (set_outs s out)) as [r s'|er s'|s'|]; cbn [mseen] in S; try contradiction;
    destruct S as (-> & M & K); do 2 eexists; (split; [reflexivity|]); (split; [exact M|]); (split; [exact K|]); reflexivity.
Qed.

Lemma omexec1_refines v pol e s :
  WF s -> valid_omevent v s e ->
  exists a s', omexec1 v pol e s = Some (a, s') /\ WF s' /\ mu s' = mu s /\
    abs_omexec v pol (view_omevent s e) (abs s) = Some (a, abs s').
Proof.
  intros W V. destruct e as [c out|b i x|l].
  - destruct (omexec1_call v pol c out s W V) as (a & s' & E & M & K & R). exists a, s'.
    split; [exact E|]. split; [|split; [exact M|exact R]].
    destruct (k_wf _ _ K). constructor; assumption.
  - destruct (store_exec s b i x W V) as (s' & E & W' & Es). exists [], s'.
    split. { cbn [exec1 omexec1] in *. destruct (heap_write _ _ _ _); congruence. }
    split; [exact W'|]. split; [now rewrite Es|].
    pose proof (store_abs s b i x s' W V W' Es) as A. cbn [view_event view_omevent] in *.
    destruct (_ && _ && _); cbn [abs_exec abs_exec1 abs_omexec abs_omexec1 app] in *; congruence.
  - destruct V as [V1 V2]. exists [], (alloc s l). split; [reflexivity|].
    split; [now apply alloc_WF|]. split; [reflexivity|]. cbn. now rewrite abs_alloc.
Qed.

Theorem omexec_refines v pol es : forall s,
  WF s -> valid_omevents v pol es s ->
  exists a s', omexec v pol es s = Some (a, s') /\ WF s' /\ mu s' = mu s /\
    abs_omexec v pol (view_omevents v pol es s) (abs s) = Some (a, abs s').
Proof.
  induction es as [|e r IH]; intros s W V; cbn [omexec valid_omevents view_omevents] in *.
  - exists [], s. cbn. auto 6.
  - destruct V as [V1 V2]. destruct (omexec1_refines v pol e s W V1) as (a & s' & E & W' & M & R).
    rewrite E in *. destruct (IH s' W' V2) as (a' & s'' & E' & W'' & M' & R'). rewrite E'.
    exists (a ++ a'), s''. split; [reflexivity|]. split; [exact W''|]. split; [congruence|].
    rewrite abs_omexec_app, R, R'. reflexivity.
Qed.

(** ** Isolation *)

Definition om_spares (b : nat) (i : Z) (es : list omevent) : Prop :=
  Forall (fun e => match e with OMStore b' i' _ => b' <> b \/ i' <> i | _ => True end) es.

Lemma omexec1_outside v pol e s a s' b i :
  WF s -> valid_omevent v s e -> omexec1 v pol e s = Some (a, s') ->
  (b < length (heap s))%nat -> 0 <= i -> outside s b i -> om_spares b i [e] ->
  (b < length (heap s'))%nat /\ outside s' b i /\ mem (heap s') b i = mem (heap s) b i /\
  zlen (nth b (heap s') []) = zlen (nth b (heap s) []).
Proof.
  intros W V E Hb Hi O C. destruct e as [c out|b' i' x|l].
  - destruct (omexec1_call v pol c out s W V) as (a' & s1 & E1 & _ & K & _). rewrite E in E1. injection E1 as <- <-.
    destruct K as [W' _ [L F] R]. cbn [heap bb set_outs] in *. destruct (F b Hb) as [Z1 F1].
    split; [lia|]. split; [|split; [|exact Z1]].
    + unfold outside in *. destruct R as [(R1 & R2 & R3)|R]; [rewrite R1; lia|]. left. lia.
    + apply F1; auto.
  - apply (exec1_outside (EStore b' i' x) s [] s' b i); auto.
    + cbn [exec1 omexec1] in *. destruct (heap_write _ _ _ _); congruence.
    + inversion C; subst. constructor; auto.
  - apply (exec1_outside (EAlloc l) s [] s' b i); auto.
    + cbn [exec1 omexec1] in *. congruence.
    + inversion C; subst. constructor; auto.
Qed.

Theorem omexec_outside v pol es : forall s a s' b i,
  WF s -> valid_omevents v pol es s -> omexec v pol es s = Some (a, s') ->
  (b < length (heap s))%nat -> 0 <= i -> outside s b i -> om_spares b i es ->
  (b < length (heap s'))%nat /\ outside s' b i /\ mem (heap s') b i = mem (heap s) b i /\
  zlen (nth b (heap s') []) = zlen (nth b (heap s) []).
Proof.
  induction es as [|e r IH]; intros s a s' b i W V E Hb Hi O C; cbn [omexec valid_omevents] in *.
  - injection E as <- <-. auto.
  - destruct V as [V1 V2]. destruct (omexec1_refines v pol e s W V1) as (a1 & s1 & E1 & W1 & _).
    inversion C as [|? ? C1 C2]; subst.
    destruct (omexec1_outside v pol e s a1 s1 b i W V1 E1 Hb Hi O) as (B1 & O1 & M1 & Z1).
    { constructor; auto. }
    rewrite E1 in *. destruct (omexec v pol r s1) as [[a2 s2]|] eqn:E2; [|discriminate].
    injection E as <- <-. destruct (IH s1 a2 s2 b i W1 V2 E2 B1 Hi O1 C2) as (B2 & O2 & M2 & Z2).
    split; [exact B2|]. split; [exact O2|]. split; congruence.
Qed.
