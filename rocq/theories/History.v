(** * History: sequences of calls on one v3 [Buffer], interspersed with what the
    caller does to memory on its own.

    Panics are recovered between calls: a history goes on after a panic, in the
    state the panic left. *)
From Coq Require Import ZArith List Bool Lia ZifyBool.
From Verif Require Import GoSem Errors Spec GoLemmas CodecLemmas Typed V3BitLemmas V3ByteLemmas Calls Abs Frame Sim.
From Verif Require V3Buffer.
Import ListNotations.
Open Scope Z_scope.

(** What the caller sees of one call. *)
Inductive answer : Type :=
| Returned (v : rv (list Z))
| Raised (e : err).

Inductive event : Type :=
| ECall (c : call slice)                   (* a method call *)
| EStore (blk : nat) (i v : Z)             (* the caller writes one byte of memory, through any slice *)
| EAlloc (l : list Z).                     (* the caller allocates *)

(** One event; [None] if the model is stuck (memory fault) or blocked. *)
Definition exec1 (e : event) (s : St) : option (list answer * St) :=
  match e with
  | ECall c =>
      match run (do_call c) s with
      | Done v s' => Some ([Returned (view_rv s' v)], s')
      | Panicked er s' => Some ([Raised er], s')
      | Deadlock _ | Stuck => None
      end
  | EStore b i v =>
      match heap_write (heap s) b i [v] with Some h => Some ([], set_heap s h) | None => None end
  | EAlloc l => Some ([], alloc s l)
  end.

Fixpoint exec (es : list event) (s : St) : option (list answer * St) :=
  match es with
  | [] => Some ([], s)
  | e :: r =>
      match exec1 e s with
      | Some (a, s') => match exec r s' with Some (a', s'') => Some (a ++ a', s'') | None => None end
      | None => None
      end
  end.

(** Events a Go program can produce: argument values exist in Go, stores go to
    existing memory. *)
Definition valid_event (s : St) (e : event) : Prop :=
  match e with
  | ECall c => valid_call s c
  | EStore b i v => (b < length (heap s))%nat /\ 0 <= i < zlen (nth b (heap s) []) /\ is_byte v
  | EAlloc l => Forall is_byte l /\ zlen l <= maxAlloc
  end.

Fixpoint valid_events (es : list event) (s : St) : Prop :=
  match es with
  | [] => True
  | e :: r => valid_event s e /\ match exec1 e s with Some (_, s') => valid_events r s' | None => True end
  end.

(** ** The same history on the abstract buffer *)

(** The caller's own writes are visible when they hit the backing region: byte
    [k] of content ++ spare becomes [v]. *)
Inductive aevent : Type := ACall (c : call (list Z)) | APoke (k v : Z).

Definition abs_poke (k v : Z) (a : abuf) : abuf :=
  let all := put (a_bytes a ++ a_spare a) k [v] in
  let n := zlen (a_bytes a) in
  mkA (sub all 0 n) (sub all n (zlen (a_spare a))) (a_off a) (a_boff a).

Definition abs_exec1 (e : aevent) (a : abuf) : list answer * abuf :=
  match e with
  | ACall c => match abs_call c a with Ok v a' => ([Returned v], a') | Fail er a' => ([Raised er], a') end
  | APoke k v => ([], abs_poke k v a)
  end.

Fixpoint abs_exec (es : list aevent) (a : abuf) : list answer * abuf :=
  match es with
  | [] => ([], a)
  | e :: r => let (o, a') := abs_exec1 e a in let (o', a'') := abs_exec r a' in (o ++ o', a'')
  end.

(** The abstract events a concrete event amounts to. *)
Definition view_event (s : St) (e : event) : list aevent :=
  match e with
  | ECall c => [ACall (view_call s c)]
  | EStore b i v =>
      let sl := b_buf (bb s) in
      if (b =? s_blk sl)%nat && (s_off sl <=? i) && (i <? s_off sl + s_cap sl)
      then [APoke (i - s_off sl) v] else []
  | EAlloc _ => []
  end.

Fixpoint view_events (es : list event) (s : St) : list aevent :=
  match es with
  | [] => []
  | e :: r => view_event s e ++ match exec1 e s with Some (_, s') => view_events r s' | None => [] end
  end.

Lemma abs_exec_app es1 es2 a :
  abs_exec (es1 ++ es2) a =
  let (o, a') := abs_exec es1 a in let (o', a'') := abs_exec es2 a' in (o ++ o', a'').
Proof.
  revert a. induction es1 as [|e r IH]; intro a; cbn [app abs_exec].
  - destruct (abs_exec es2 a); reflexivity.
  - destruct (abs_exec1 e a) as [o a']. rewrite IH.
    destruct (abs_exec r a') as [o1 a1]. destruct (abs_exec es2 a1) as [o2 a2].
    now rewrite app_assoc.
Qed.

(** ** Caller stores *)

Lemma store_exec s b i v :
  WF s -> valid_event s (EStore b i v) ->
  exists s', exec1 (EStore b i v) s = Some ([], s') /\ WF s' /\
    s' = set_heap s (put (heap s) (Z.of_nat b) [put (nth b (heap s) []) i [v]]).
Proof.
  intros W (Hb & Hi & Hv). cbn [exec1].
  rewrite heap_write_ok by (auto; change (zlen [v]) with 1; lia).
  eexists. split; [reflexivity|]. split; [|reflexivity].
  assert (L : forall b', zlen (nth b' (put (heap s) (Z.of_nat b) [put (nth b (heap s) []) i [v]]) []) =
                   zlen (nth b' (heap s) [])).
  { intro b'. rewrite nth_put_heap by exact Hb. destruct (Nat.eqb_spec b' b) as [->|]; auto.
    apply put_length; change (zlen [v]) with 1; lia. }
  destruct W as [Wh Ws Wc Wb Wo Wbo]. constructor; auto; cbn [heap bb set_heap].
  - unfold wf_heap in *. apply Forall_put; auto. constructor; auto.
    rewrite Forall_forall in Wh. destruct (Wh (nth b (heap s) [])) as [B M].
    { apply nth_In. exact Hb. }
    split. apply Forall_put; auto. rewrite put_length by (change (zlen [v]) with 1; lia). exact M.
  - destruct Ws as (A1 & A2 & A3 & A4). unfold wf_slice. rewrite L, length_put_heap by exact Hb. auto.
Qed.

Lemma nth_error_array s j :
  WF s -> 0 <= j -> j < s_cap (b_buf (bb s)) ->
  nth_error (content s ++ spare s) (Z.to_nat j) =
  nth_error (nth (s_blk (b_buf (bb s))) (heap s) []) (Z.to_nat (s_off (b_buf (bb s)) + j)).
Proof.
  intros W H1 H2. pose proof (wf_off0 s W). rewrite <- array_split by assumption.
  rewrite nth_error_sub. nat_cases; try lia. f_equal. lia.
Qed.

Lemma app_sub_split {A} (l1 l2 : list A) : l1 = sub (l1 ++ l2) 0 (zlen l1) /\ l2 = sub (l1 ++ l2) (zlen l1) (zlen l2).
Proof. destruct (sub_of_app l1 l2 (zlen l1) (zlen l2)); auto. Qed.

Lemma app_inj_zlen {A} (a b a' b' : list A) : a ++ b = a' ++ b' -> zlen a = zlen a' -> a = a' /\ b = b'.
Proof.
  intros H L. destruct (app_sub_split a b) as [E1 E2]. destruct (app_sub_split a' b') as [E3 E4].
  assert (a = a') by (rewrite E1, E3, H, L; reflexivity). subst a'. split; auto. now apply app_inv_head in H.
Qed.

Lemma store_abs s b i v s' :
  WF s -> valid_event s (EStore b i v) -> WF s' ->
  s' = set_heap s (put (heap s) (Z.of_nat b) [put (nth b (heap s) []) i [v]]) ->
  abs_exec (view_event s (EStore b i v)) (abs s) = ([], abs s').
Proof.
  intros W (Hb & Hi & Hv) W' E. cbn [view_event].
  pose proof (wf_off0 s W) as O0. pose proof (wf_len0 s W) as L0. pose proof (wf_lencap s W) as LC.
  pose proof (wf_in s W) as IN. pose proof (content_zlen s W) as CZ. pose proof (spare_zlen s W) as SZ.
  assert (Bb : bb s' = bb s) by now rewrite E.
  pose proof (content_zlen s' W') as CZ'. pose proof (spare_zlen s' W') as SZ'. rewrite Bb in *.
  pose proof (array_split s W) as AS. pose proof (array_split s' W') as AS'. rewrite Bb in AS'.
  destruct (Nat.eqb_spec b (s_blk (b_buf (bb s)))) as [->|Nb].
  - assert (HH : nth (s_blk (b_buf (bb s))) (heap s') [] = put (nth (s_blk (b_buf (bb s))) (heap s) []) i [v]).
    { rewrite E. cbn [heap set_heap]. rewrite nth_put_heap by exact Hb. now rewrite Nat.eqb_refl. }
    rewrite HH in AS'. set (arr := nth (s_blk (b_buf (bb s))) (heap s) []) in *.
    destruct (Z.leb_spec (s_off (b_buf (bb s))) i); [destruct (Z.ltb_spec i (s_off (b_buf (bb s)) + s_cap (b_buf (bb s))))|];
      cbn [andb abs_exec abs_exec1 app].
    + replace i with (s_off (b_buf (bb s)) + (i - s_off (b_buf (bb s)))) in AS' at 1 by lia.
      rewrite sub_put_window in AS' by (change (zlen [v]) with 1; lia).
      rewrite AS in AS'. f_equal. unfold abs_poke. change (a_bytes (abs s)) with (content s).
      change (a_spare (abs s)) with (spare s). rewrite AS'.
      destruct (app_sub_split (content s') (spare s')) as [E1 E2].
      unfold abs. rewrite Bb. f_equal.
      * replace (zlen (content s)) with (zlen (content s')) by lia. now rewrite <- E1.
      * replace (zlen (content s)) with (zlen (content s')) by lia.
        replace (zlen (spare s)) with (zlen (spare s')) by lia. now rewrite <- E2.
    + rewrite sub_put_disjoint in AS' by (change (zlen [v]) with 1; lia).
      rewrite AS in AS'. f_equal. unfold abs. rewrite Bb.
      destruct (app_inj_zlen _ _ _ _ AS') as [E1 E2]; [lia|]. now rewrite E1, E2.
    + rewrite sub_put_disjoint in AS' by (change (zlen [v]) with 1; lia).
      rewrite AS in AS'. f_equal. unfold abs. rewrite Bb.
      destruct (app_inj_zlen _ _ _ _ AS') as [E1 E2]; [lia|]. now rewrite E1, E2.
  - cbn [andb abs_exec]. f_equal. unfold abs, content, spare, slice_bytes. rewrite Bb, E.
    cbn [heap set_heap]. rewrite nth_put_heap by exact Hb.
    destruct (Nat.eqb_spec (s_blk (b_buf (bb s))) b); [congruence|]. reflexivity.
Qed.

(** ** Every history is safe and behaves as the abstract buffer *)

Lemma exec1_refines e s :
  WF s -> valid_event s e ->
  exists a s', exec1 e s = Some (a, s') /\ WF s' /\ mu s' = mu s /\ outs s' = outs s /\
    abs_exec (view_event s e) (abs s) = (a, abs s').
Proof.
  intros W V. destruct e as [c|b i v|l].
  - pose proof (do_call_sim s c W V) as S. cbn [exec1].
    destruct (run (do_call c) s) as [r s'|er s'|s'|]; cbn [sim] in S; try contradiction;
      destruct S as [E G]; eexists; exists s'; (split; [reflexivity|]); (split; [apply G|]);
      (split; [apply G|]); (split; [apply G|]); cbn [view_event abs_exec abs_exec1]; rewrite E; reflexivity.
  - destruct (store_exec s b i v W V) as (s' & E & W' & Es). exists [], s'.
    split; [exact E|]. split; [exact W'|]. split; [now rewrite Es|]. split; [now rewrite Es|].
    now apply store_abs.
  - destruct V as [V1 V2]. exists [], (alloc s l). split; [reflexivity|].
    split; [now apply alloc_WF|]. do 2 (split; [reflexivity|]). cbn. now rewrite abs_alloc.
Qed.

Theorem exec_refines es : forall s,
  WF s -> valid_events es s ->
  exists a s', exec es s = Some (a, s') /\ WF s' /\ mu s' = mu s /\ outs s' = outs s /\
    abs_exec (view_events es s) (abs s) = (a, abs s').
Proof.
  induction es as [|e r IH]; intros s W V; cbn [exec valid_events view_events] in *.
  - exists [], s. cbn. auto 6.
  - destruct V as [V1 V2]. destruct (exec1_refines e s W V1) as (a & s' & E & W' & M & O & R).
    rewrite E in *. destruct (IH s' W' V2) as (a' & s'' & E' & W'' & M' & O' & R'). rewrite E'.
    exists (a ++ a'), s''. split; [reflexivity|]. split; [exact W''|]. split; [congruence|]. split; [congruence|].
    rewrite abs_exec_app, R, R'. reflexivity.
Qed.

(** ** Isolation *)

(** Byte [i] of array [b] is not in the backing region of the buffer. *)
Definition outside (s : St) (b : nat) (i : Z) : Prop :=
  b <> s_blk (b_buf (bb s)) \/ i < s_off (b_buf (bb s)) \/
  s_off (b_buf (bb s)) + s_cap (b_buf (bb s)) <= i.

(** The caller does not itself write byte [i] of array [b]. *)
Definition caller_spares (b : nat) (i : Z) (es : list event) : Prop :=
  Forall (fun e => match e with EStore b' i' _ => b' <> b \/ i' <> i | _ => True end) es.

Lemma exec1_outside e s a s' b i :
  WF s -> valid_event s e -> exec1 e s = Some (a, s') ->
  (b < length (heap s))%nat -> 0 <= i -> outside s b i -> caller_spares b i [e] ->
  (b < length (heap s'))%nat /\ outside s' b i /\ mem (heap s') b i = mem (heap s) b i /\
  zlen (nth b (heap s') []) = zlen (nth b (heap s) []).
Proof.
  intros W V E Hb Hi O C. destruct e as [c|b' i' v|l].
  - pose proof (do_call_sim s c W V) as S. cbn [exec1] in E.
    assert (G : good s s').
    { destruct (run (do_call c) s); cbn [sim] in S; try contradiction; inversion E; subst; apply S. }
    destruct G as [W' _ _ [L F] R]. destruct (F b Hb) as [Z1 F1].
    split; [lia|]. pose proof (wf_lencap s W). split; [|split; [|exact Z1]].
    + unfold outside in *. destruct R as [(R1 & R2 & R3)|R]; [rewrite R1; lia|]. left. lia.
    + apply F1; auto. unfold outside in O. lia.
  - destruct (store_exec s b' i' v W V) as (s1 & E1 & W1 & Es). rewrite E in E1. inversion E1; subst s1.
    destruct V as (Vb & Vi & Vv). inversion C as [|? ? C1 _]; subst.
    unfold outside, mem, set_heap; cbn [heap bb]. rewrite length_put_heap, nth_put_heap by exact Vb.
    split; [exact Hb|]. split; [exact O|].
    destruct (Nat.eqb_spec b b') as [->|]; [|auto]. split.
    + rewrite byte_at_put by (change (zlen [v]) with 1; lia).
      replace ((i' <=? i) && (i <? i' + zlen [v])) with false; [reflexivity|].
      change (zlen [v]) with 1. lia.
    + apply put_length; change (zlen [v]) with 1; lia.
  - inversion E; subst. unfold alloc, set_heap, outside, mem in *; cbn [heap bb].
    rewrite app_length, app_nth1 by exact Hb. split; [lia|]. auto.
Qed.

Theorem exec_outside es : forall s a s' b i,
  WF s -> valid_events es s -> exec es s = Some (a, s') ->
  (b < length (heap s))%nat -> 0 <= i -> outside s b i -> caller_spares b i es ->
  (b < length (heap s'))%nat /\ outside s' b i /\ mem (heap s') b i = mem (heap s) b i /\
  zlen (nth b (heap s') []) = zlen (nth b (heap s) []).
Proof.
  induction es as [|e r IH]; intros s a s' b i W V E Hb Hi O C; cbn [exec valid_events] in *.
  - inversion E; subst. auto.
  - destruct V as [V1 V2]. destruct (exec1_refines e s W V1) as (a1 & s1 & E1 & W1 & _).
    inversion C as [|? ? C1 C2]; subst.
    destruct (exec1_outside e s a1 s1 b i W V1 E1 Hb Hi O) as (B1 & O1 & M1 & Z1).
    { constructor; auto. }
    rewrite E1 in *. destruct (exec r s1) as [[a2 s2]|] eqn:E2; [|discriminate].
    inversion E; subst. destruct (IH s1 a2 s' b i W1 V2 E2 B1 Hi O1 C2) as (B2 & O2 & M2 & Z2).
    split; [exact B2|]. split; [exact O2|]. split; congruence.
Qed.
