(** * MiniHistory: sequences of calls on one v3 [MiniBuffer]. *)
From Coq Require Import ZArith List Bool Lia ZifyBool.
From Verif Require Import GoSem Errors Spec GoLemmas Typed V3BitLemmas V3ByteLemmas TypedReadLemmas Calls Abs Frame Sim History
  MiniAbs MiniLemmas MiniSim.
Import ListNotations.
Open Scope Z_scope.

(** What the caller sees of one call: the result or the panic, and the variable
    behind [out]. *)
Inductive manswer : Type :=
| MReturned (v : rv (list Z)) (out : list Z)
| MRaised (e : err) (out : list Z).

Inductive mevent : Type :=
| MCall (c : call slice) (out : list Z)    (* a method call; [out] is the initial value of the out variable *)
| MStore (blk : nat) (i v : Z)             (* the caller writes one byte of memory, through any slice *)
| MAlloc (l : list Z).                     (* the caller allocates *)

(** One event; [None] if the model is stuck (memory fault) or blocked. *)
Definition mexec1 (e : mevent) (s : St) : option (list manswer * St) :=
  match e with
  | MCall c out =>
      match run (mini_call c) (set_outs s out) with
      | Done v s' => Some ([MReturned (view_rv s' v) (outs s')], s')
      | Panicked er s' => Some ([MRaised er (outs s')], s')
      | Deadlock _ | Stuck => None
      end
  | MStore b i v =>
      match heap_write (heap s) b i [v] with Some h => Some ([], set_heap s h) | None => None end
  | MAlloc l => Some ([], alloc s l)
  end.

Fixpoint mexec (es : list mevent) (s : St) : option (list manswer * St) :=
  match es with
  | [] => Some ([], s)
  | e :: r =>
      match mexec1 e s with
      | Some (a, s') => match mexec r s' with Some (a', s'') => Some (a ++ a', s'') | None => None end
      | None => None
      end
  end.

Definition valid_mevent (s : St) (e : mevent) : Prop :=
  match e with
  | MCall c out => valid_mini s c out
  | MStore b i v => (b < length (heap s))%nat /\ 0 <= i < zlen (nth b (heap s) []) /\ is_byte v
  | MAlloc l => Forall is_byte l /\ zlen l <= maxAlloc
  end.

Fixpoint valid_mevents (es : list mevent) (s : St) : Prop :=
  match es with
  | [] => True
  | e :: r => valid_mevent s e /\ match mexec1 e s with Some (_, s') => valid_mevents r s' | None => True end
  end.

(** ** The same history on the abstract MiniBuffer *)

Inductive amevent : Type := AMCall (c : call (list Z)) (out : list Z) | AMPoke (k v : Z).

Definition abs_mexec1 (e : amevent) (a : abuf) : list manswer * abuf :=
  match e with
  | AMCall c out =>
      match mini_abs_call c a out with
      | (Ok v a', o) => ([MReturned v o], a')
      | (Fail er a', o) => ([MRaised er o], a')
      end
  | AMPoke k v => ([], abs_poke k v a)
  end.

Fixpoint abs_mexec (es : list amevent) (a : abuf) : list manswer * abuf :=
  match es with
  | [] => ([], a)
  | e :: r => let (o, a') := abs_mexec1 e a in let (o', a'') := abs_mexec r a' in (o ++ o', a'')
  end.

Definition view_mevent (s : St) (e : mevent) : list amevent :=
  match e with
  | MCall c out => [AMCall (view_call s c) out]
  | MStore b i v =>
      let sl := b_buf (bb s) in
      if (b =? s_blk sl)%nat && (s_off sl <=? i) && (i <? s_off sl + s_cap sl)
      then [AMPoke (i - s_off sl) v] else []
  | MAlloc _ => []
  end.

Fixpoint view_mevents (es : list mevent) (s : St) : list amevent :=
  match es with
  | [] => []
  | e :: r => view_mevent s e ++ match mexec1 e s with Some (_, s') => view_mevents r s' | None => [] end
  end.

Lemma abs_mexec_app es1 es2 a :
  abs_mexec (es1 ++ es2) a =
  let (o, a') := abs_mexec es1 a in let (o', a'') := abs_mexec es2 a' in (o ++ o', a'').
Proof.
  revert a. induction es1 as [|e r IH]; intro a; cbn [app abs_mexec].
  - destruct (abs_mexec es2 a); reflexivity.
  - destruct (abs_mexec1 e a) as [o a']. rewrite IH.
    destruct (abs_mexec r a') as [o1 a1]. destruct (abs_mexec es2 a1) as [o2 a2].
    now rewrite app_assoc.
Qed.

Lemma valid_mini_outs s c out : valid_mini s c out -> valid_mini (set_outs s out) c (outs (set_outs s out)).
Proof.
  intros (M & V & O). split; [exact M|]. split; [|destruct c; exact O].
  destruct c as [off o|o| | | | | | | | | | | | | | | | | | | ]; try exact V; destruct o; exact V.
Qed.
Lemma view_call_outs s out c : view_call (set_outs s out) c = view_call s c.
Proof. destruct c as [off o|o| | | | | | | | | | | | | | | | | | | ]; try reflexivity; destruct o; reflexivity. Qed.

(** What one call may change. *)
Lemma mexec1_call c out s :
  WF s -> valid_mini s c out ->
  exists a s', mexec1 (MCall c out) s = Some (a, s') /\ good (set_outs s out) (set_outs s' out) /\
    abs_mexec (view_mevent s (MCall c out)) (abs s) = (a, abs s').
Proof.
  intros W V. pose proof (mini_call_sim (set_outs s out) c (set_outs_WF s out W) (valid_mini_outs s c out V)) as S.
  rewrite view_call_outs in S. change (abs (set_outs s out)) with (abs s) in S.
  change (outs (set_outs s out)) with out in S.
  cbn [mexec1 view_mevent abs_mexec abs_mexec1].
  destruct (run (mini_call c) (set_outs s out)) as [r s'|er s'|s'|]; cbn [msim] in S; try contradiction;
    destruct S as [E G]; eexists; exists s'; (split; [reflexivity|]); (split; [exact G|]); rewrite E; reflexivity.
Qed.

Lemma mexec1_refines e s :
  WF s -> valid_mevent s e ->
  exists a s', mexec1 e s = Some (a, s') /\ WF s' /\ mu s' = mu s /\
    abs_mexec (view_mevent s e) (abs s) = (a, abs s').
Proof.
  intros W V. destruct e as [c out|b i v|l].
  - destruct (mexec1_call c out s W V) as (a & s' & E & G & R). exists a, s'.
    split; [exact E|]. split; [|split; [|exact R]].
    + destruct (g_wf _ _ G). constructor; assumption.
    + apply (g_mu _ _ G).
  - destruct (store_exec s b i v W V) as (s' & E & W' & Es). exists [], s'.
    split. { cbn [exec1 mexec1] in *. destruct (heap_write _ _ _ _); congruence. }
    split; [exact W'|]. split; [now rewrite Es|].
    pose proof (store_abs s b i v s' W V W' Es) as A. cbn [view_event view_mevent] in *.
    destruct (_ && _ && _); cbn [abs_exec abs_exec1 abs_mexec abs_mexec1 app] in *; congruence.
  - destruct V as [V1 V2]. exists [], (alloc s l). split; [reflexivity|].
    split; [now apply alloc_WF|]. split; [reflexivity|]. cbn. now rewrite abs_alloc.
Qed.

Theorem mexec_refines es : forall s,
  WF s -> valid_mevents es s ->
  exists a s', mexec es s = Some (a, s') /\ WF s' /\ mu s' = mu s /\
    abs_mexec (view_mevents es s) (abs s) = (a, abs s').
Proof.
  induction es as [|e r IH]; intros s W V; cbn [mexec valid_mevents view_mevents] in *.
  - exists [], s. cbn. auto 6.
  - destruct V as [V1 V2]. destruct (mexec1_refines e s W V1) as (a & s' & E & W' & M & R).
    rewrite E in *. destruct (IH s' W' V2) as (a' & s'' & E' & W'' & M' & R'). rewrite E'.
    exists (a ++ a'), s''. split; [reflexivity|]. split; [exact W''|]. split; [congruence|].
    rewrite abs_mexec_app, R, R'. reflexivity.
Qed.

(** ** Isolation *)

Definition mcaller_spares (b : nat) (i : Z) (es : list mevent) : Prop :=
  Forall (fun e => match e with MStore b' i' _ => b' <> b \/ i' <> i | _ => True end) es.

Lemma mexec1_outside e s a s' b i :
  WF s -> valid_mevent s e -> mexec1 e s = Some (a, s') ->
  (b < length (heap s))%nat -> 0 <= i -> outside s b i -> mcaller_spares b i [e] ->
  (b < length (heap s'))%nat /\ outside s' b i /\ mem (heap s') b i = mem (heap s) b i /\
  zlen (nth b (heap s') []) = zlen (nth b (heap s) []).
Proof.
  intros W V E Hb Hi O C. destruct e as [c out|b' i' v|l].
  - destruct (mexec1_call c out s W V) as (a' & s1 & E1 & G & _). rewrite E in E1. inversion E1; subst a' s1.
    destruct G as [W' _ _ [L F] R]. cbn [heap bb set_outs] in *. destruct (F b Hb) as [Z1 F1].
    split; [lia|]. pose proof (wf_lencap s W). split; [|split; [|exact Z1]].
    + unfold outside in *. destruct R as [(R1 & R2 & R3)|R]; [rewrite R1; lia|]. left. lia.
    + apply F1; auto. unfold outside in O. lia.
  - apply (exec1_outside (EStore b' i' v) s [] s' b i); auto.
    + cbn [exec1 mexec1] in *. destruct (heap_write _ _ _ _); congruence.
    + inversion C; subst. constructor; auto.
  - apply (exec1_outside (EAlloc l) s [] s' b i); auto.
    + cbn [exec1 mexec1] in *. congruence.
    + inversion C; subst. constructor; auto.
Qed.

Theorem mexec_outside es : forall s a s' b i,
  WF s -> valid_mevents es s -> mexec es s = Some (a, s') ->
  (b < length (heap s))%nat -> 0 <= i -> outside s b i -> mcaller_spares b i es ->
  (b < length (heap s'))%nat /\ outside s' b i /\ mem (heap s') b i = mem (heap s) b i /\
  zlen (nth b (heap s') []) = zlen (nth b (heap s) []).
Proof.
  induction es as [|e r IH]; intros s a s' b i W V E Hb Hi O C; cbn [mexec valid_mevents] in *.
  - inversion E; subst. auto.
  - destruct V as [V1 V2]. destruct (mexec1_refines e s W V1) as (a1 & s1 & E1 & W1 & _).
    inversion C as [|? ? C1 C2]; subst.
    destruct (mexec1_outside e s a1 s1 b i W V1 E1 Hb Hi O) as (B1 & O1 & M1 & Z1).
    { constructor; auto. }
    rewrite E1 in *. destruct (mexec r s1) as [[a2 s2]|] eqn:E2; [|discriminate].
    inversion E; subst. destruct (IH s1 a2 s' b i W1 V2 E2 B1 Hi O1 C2) as (B2 & O2 & M2 & Z2).
    split; [exact B2|]. split; [exact O2|]. split; congruence.
Qed.
