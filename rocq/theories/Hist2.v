(** * Hist2: sequences of calls on one v1 or v2 [Buffer] by one goroutine,
    interspersed with what the caller does to memory on its own.

    Panics are recovered between calls.  A call that never returns ends the history. *)
From Coq Require Import ZArith List Bool Lia ZifyBool.
From Verif Require Import GoSem Errors Spec GoLemmas BitLemmas CodecLemmas Typed V3BitLemmas V3ByteLemmas
  Calls Abs Frame Sim History OldCalls V2Lemmas V2Agree V2Safe V1Lemmas V1Calls ConcSpec Abs2 Sim2.
Import ListNotations.
Open Scope Z_scope.

Inductive old_event : Type :=
| OCall (c : call2 slice)                  (* a method call *)
| OStore (blk : nat) (i v : Z)             (* the caller writes one byte of memory, through any slice *)
| OAlloc (l : list Z).                     (* the caller allocates *)

(** One event of the model; [None] if it is stuck (memory fault). *)
Definition play1 (v : version) (pol : Z -> Z -> Z) (e : old_event) (s : St) : option (list reply * St) :=
  match e with
  | OCall c =>
      match old_do v pol c with
      | Some p =>
          match run p s with
          | Done r s' => Some ([Replied (view_rv s' r)], s')
          | Panicked er s' => Some ([Threw er], s')
          | Deadlock s' => Some ([Blocked], s')
          | Stuck => None
          end
      | None => None
      end
  | OStore b i x => match heap_write (heap s) b i [x] with Some h => Some ([], set_heap s h) | None => None end
  | OAlloc l => Some ([], alloc s l)
  end.

Definition over (l : list reply) : bool := match l with [Blocked] => true | _ => false end.

Fixpoint play (v : version) (pol : Z -> Z -> Z) (es : list old_event) (s : St) : option (list reply * St) :=
  match es with
  | [] => Some ([], s)
  | e :: r =>
      match play1 v pol e s with
      | Some (a, s') =>
          if over a then Some (a, s')
          else match play v pol r s' with Some (a', s'') => Some (a ++ a', s'') | None => None end
      | None => None
      end
  end.

(** Events a Go program can produce: the method exists, argument values exist in
    Go, stores go to existing memory. *)
Definition valid_old (v : version) (s : St) (e : old_event) : Prop :=
  match e with
  | OCall c => valid_call2 s c /\ (v = V1 -> c <> KReset)
  | OStore b i x => (b < length (heap s))%nat /\ 0 <= i < zlen (nth b (heap s) []) /\ is_byte x
  | OAlloc l => Forall is_byte l /\ zlen l <= maxAlloc
  end.
Fixpoint valid_play (v : version) (pol : Z -> Z -> Z) (es : list old_event) (s : St) : Prop :=
  match es with
  | [] => True
  | e :: r => valid_old v s e /\
      match play1 v pol e s with Some (a, s') => if over a then True else valid_play v pol r s' | None => True end
  end.

(** ** The same history on the abstract machine *)

Inductive old_aevent : Type := OACall (c : call2 source) | OAPoke (k x : Z).

Definition aplay1 (v : version) (pol : Z -> Z -> Z) (e : old_aevent) (a : abuf) (dead : bool) : option (list reply * abuf * bool) :=
  match e with
  | OACall c => match old_step v pol c a dead with Some (r, a', d') => Some ([r], a', d') | None => None end
  | OAPoke k x => Some ([], abs_poke k x a, dead)
  end.
Fixpoint aplay (v : version) (pol : Z -> Z -> Z) (es : list old_aevent) (a : abuf) (dead : bool) : option (list reply * abuf * bool) :=
  match es with
  | [] => Some ([], a, dead)
  | e :: r =>
      match aplay1 v pol e a dead with
      | Some (o, a', d') =>
          if over o then Some (o, a', d')
          else match aplay v pol r a' d' with Some (o', a'', d'') => Some (o ++ o', a'', d'') | None => None end
      | None => None
      end
  end.

(** The abstract events a concrete event amounts to. *)
Definition view_old_event (s : St) (e : old_event) : list old_aevent :=
  match e with
  | OCall c => [OACall (view_old s c)]
  | OStore b i x =>
      let sl := b_buf (bb s) in
      if (b =? s_blk sl)%nat && (s_off sl <=? i) && (i <? s_off sl + s_cap sl)
      then [OAPoke (i - s_off sl) x] else []
  | OAlloc _ => []
  end.
Fixpoint view_play (v : version) (pol : Z -> Z -> Z) (es : list old_event) (s : St) : list old_aevent :=
  match es with
  | [] => []
  | e :: r => view_old_event s e ++
      match play1 v pol e s with Some (a, s') => if over a then [] else view_play v pol r s' | None => [] end
  end.

(** ** Refinement *)

(** An event amounts to at most one abstract event. *)
Lemma play1_refines v pol e s : WF s -> valid_old v s e ->
  exists a s', play1 v pol e s = Some (a, s') /\ WF s' /\ outs s' = outs s /\
    aplay v pol (view_old_event s e) (abs s) (mu s) = Some (a, abs s', mu s') /\
    match e with OCall _ => kept s s' | OStore _ _ _ | OAlloc _ => bb s' = bb s /\ mu s' = mu s end.
Proof.
  intros W V. destruct e as [c|b i x|l].
  - destruct V as [V NR]. cbn [play1 view_old_event].
    assert (Ep : exists p, old_do v pol c = Some p).
    { destruct v; cbn [old_do]; eauto. destruct c; cbn [do1_call]; eauto. now destruct NR. }
    destruct Ep as [p Ep]. destruct (old_step_agrees v pol s c p W V Ep) as (y & E & A). rewrite Ep.
    cbn [aplay aplay1]. rewrite E. destruct y as [[r a] d].
    destruct (run p s) as [w s'|e s'|s'|]; cbn [agrees] in A; destruct r; try contradiction.
    + destruct A as (-> & -> & -> & K). do 2 eexists. split; [reflexivity|]. split; [apply K|]. split; [apply K|].
      split; [reflexivity|exact K].
    + destruct A as (-> & -> & -> & K). do 2 eexists. split; [reflexivity|]. split; [apply K|]. split; [apply K|].
      split; [reflexivity|exact K].
    + destruct A as (-> & -> & K). do 2 eexists. split; [reflexivity|]. split; [apply K|]. split; [apply K|].
      split; [reflexivity|exact K].
  - destruct (store_exec s b i x W V) as (s' & E & W' & Es).
    pose proof (store_abs s b i x s' W V W' Es) as SA.
    cbn [exec1] in E. cbn [play1]. destruct (heap_write (heap s) b i [x]) as [h|]; [|discriminate]. injection E as Eh.
    exists [], s'. split; [now rewrite Eh|]. split; [exact W'|]. split; [now rewrite Es|]. split; [|now rewrite Es].
    assert (M : mu s' = mu s) by now rewrite Es. rewrite M.
    cbn [view_old_event]. cbn [view_event] in SA. destruct (_ && _).
    + cbn [aplay aplay1 over app] in *. cbn [abs_exec abs_exec1 app] in SA. congruence.
    + cbn [aplay] in *. cbn [abs_exec] in SA. congruence.
  - destruct V as [V1 V2]. exists [], (alloc s l). split; [reflexivity|].
    split; [now apply alloc_WF|]. split; [reflexivity|]. cbn. rewrite abs_alloc by auto. auto.
Qed.

Lemma aplay_app v pol es1 es2 a d :
  aplay v pol (es1 ++ es2) a d =
  match aplay v pol es1 a d with
  | Some (o, a', d') =>
      if existsb (fun r => match r with Blocked => true | _ => false end) o then Some (o, a', d')
      else match aplay v pol es2 a' d' with Some (o', a'', d'') => Some (o ++ o', a'', d'') | None => None end
  | None => None
  end.
Proof.
  revert a d. induction es1 as [|e r IH]; intros a d; cbn [app aplay].
  - destruct (aplay v pol es2 a d) as [[[? ?] ?]|]; reflexivity.
  - destruct (aplay1 v pol e a d) as [[[o a'] d']|] eqn:E; auto.
    assert (O : over o = existsb (fun r => match r with Blocked => true | _ => false end) o).
    { destruct e; cbn [aplay1] in E.
      - destruct (old_step v pol c a d) as [[[q ?] ?]|]; [|discriminate]. injection E as <- <- <-. destruct q; reflexivity.
      - injection E as <- <- <-. reflexivity. }
    destruct (over o). { now rewrite <- O. }
    rewrite IH. destruct (aplay v pol r a' d') as [[[o1 a1] d1]|]; auto.
    rewrite existsb_app, <- O. cbn [orb]. destruct (existsb _ o1); auto.
    destruct (aplay v pol es2 a1 d1) as [[[o2 a2] d2]|]; auto. now rewrite app_assoc.
Qed.

Lemma over_spec v pol e s a s' : play1 v pol e s = Some (a, s') ->
  over a = existsb (fun r => match r with Blocked => true | _ => false end) a.
Proof.
  destruct e; cbn [play1].
  - destruct (old_do v pol c); [|discriminate]. destruct (run p s); try discriminate; intro H; injection H as <- <-; reflexivity.
  - destruct (heap_write _ _ _ _); [|discriminate]. intro H; injection H as <- <-; reflexivity.
  - intro H; injection H as <- <-; reflexivity.
Qed.

Theorem play_refines v pol es : forall s, WF s -> valid_play v pol es s ->
  exists a s', play v pol es s = Some (a, s') /\ WF s' /\ outs s' = outs s /\
    aplay v pol (view_play v pol es s) (abs s) (mu s) = Some (a, abs s', mu s').
Proof.
  induction es as [|e r IH]; intros s W V; cbn [play valid_play view_play] in *.
  - exists [], s. cbn. auto.
  - destruct V as [V1 V2]. destruct (play1_refines v pol e s W V1) as (a & s' & E & W' & O & R & _).
    pose proof (over_spec _ _ _ _ _ _ E) as OV. rewrite E in *. rewrite aplay_app, R, <- OV. destruct (over a).
    + exists a, s'. auto.
    + destruct (IH s' W' V2) as (a' & s'' & E' & W'' & O' & R'). rewrite E', R'.
      exists (a ++ a'), s''. split; [reflexivity|]. split; [exact W''|]. split; [congruence|reflexivity].
Qed.

(** ** Isolation *)

Definition old_spares (b : nat) (i : Z) (es : list old_event) : Prop :=
  Forall (fun e => match e with OStore b' i' _ => b' <> b \/ i' <> i | _ => True end) es.

Lemma play1_outside v pol e s a s' b i :
  WF s -> valid_old v s e -> play1 v pol e s = Some (a, s') ->
  (b < length (heap s))%nat -> 0 <= i -> outside s b i -> old_spares b i [e] ->
  (b < length (heap s'))%nat /\ outside s' b i /\ mem (heap s') b i = mem (heap s) b i /\
  zlen (nth b (heap s') []) = zlen (nth b (heap s) []).
Proof.
  intros W V E Hb Hi O C. destruct (play1_refines v pol e s W V) as (a1 & s1 & E1 & _ & _ & _ & K).
  rewrite E in E1. injection E1 as <- <-. destruct e as [c|b' i' x|l].
  - destruct K as [W' _ [L F] R]. destruct (F b Hb) as [Z1 F1].
    split; [lia|]. split; [|split; [|exact Z1]].
    + unfold outside in *. destruct R as [(R1 & R2 & R3)|R]; [rewrite R1; lia|]. left. lia.
    + apply F1; auto.
  - inversion C as [|? ? C1 _]; subst.
    destruct (exec1_outside (EStore b' i' x) s [] s' b i W V) as (H1 & H2 & H3 & H4); auto.
    + cbn [play1 exec1] in *. destruct (heap_write _ _ _ _); [|discriminate]. injection E as <- <-. reflexivity.
    + constructor; auto.
  - apply (exec1_outside (EAlloc l) s [] s' b i); auto.
    + cbn [play1 exec1] in *. now injection E as <- <-.
    + constructor; auto.
Qed.

Theorem play_outside v pol es : forall s a s' b i,
  WF s -> valid_play v pol es s -> play v pol es s = Some (a, s') ->
  (b < length (heap s))%nat -> 0 <= i -> outside s b i -> old_spares b i es ->
  (b < length (heap s'))%nat /\ outside s' b i /\ mem (heap s') b i = mem (heap s) b i /\
  zlen (nth b (heap s') []) = zlen (nth b (heap s) []).
Proof.
  induction es as [|e r IH]; intros s a s' b i W V E Hb Hi O C; cbn [play valid_play] in *.
  - injection E as <- <-. auto.
  - destruct V as [V1 V2]. destruct (play1_refines v pol e s W V1) as (a1 & s1 & E1 & W1 & _).
    inversion C as [|? ? C1 C2]; subst.
    destruct (play1_outside v pol e s a1 s1 b i W V1 E1 Hb Hi O) as (B1 & O1 & M1 & Z1). { constructor; auto. }
    rewrite E1 in *. destruct (over a1). { injection E as <- <-. auto. }
    destruct (play v pol r s1) as [[a2 s2]|] eqn:E2; [|discriminate]. injection E as <- <-.
    destruct (IH s1 a2 s2 b i W1 V2 E2 B1 Hi O1 C2) as (B2 & O2 & M2 & Z2).
    split; [exact B2|]. split; [exact O2|]. split; congruence.
Qed.
