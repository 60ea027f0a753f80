(** * WorkOld: the accesses of the v1 and v2 methods. *)
From Coq Require Import ZArith List Bool Lia ZifyBool.
From Verif Require Import V1Lemmas GoSem Errors Spec GoLemmas GoEval Front Tables Typed Calls OldCalls V1Calls Abs MiniAbs Abs2 MiniAbs2 History MiniHistory AllocSpec IsolateSpec Conv WorkSpec Work.
From Verif Require GoBinary V1Buffer V2Buffer V3Buffer V1Mini V2Mini V3Mini.
Import ListNotations.
Open Scope Z_scope.
Open Scope go_scope.

Lemma local_buf2 pol s c o : local_old c = true -> valid_call2 s c ->
  cheap any (do2_call pol c) (20 + 10 * volume pol s (J2 c o)).
Proof.
  intros L V. destruct c as [off q|q| | | |off r|off r|off|off| | |n| | | | | | |]; try discriminate; cbn [volume];
    try (destruct q as [|n|data|data n| |d|v|n| |t d|t n]; try destruct t); try (destruct off as [off|]);
    cbn [names_old do2_call do2_at do2_next].
  all: try (assert (0 <= s_len d) by (clear - V; cbn in V; unfold wf_arg, wf_slice in V; intuition lia)).
  all: cost_tac.
Qed.

Lemma local_buf1 pol s c o p : local_old c = true -> valid_call2 s c -> do1_call pol c = Some p ->
  cheap any p (20 + 10 * volume pol s (J2 c o)).
Proof.
  intros L V E. destruct c as [off q|q| | | |off r|off r|off|off| | |n| | | | | | |]; try discriminate; cbn [volume];
    try (destruct q as [|n|data|data n| |d|v|n| |t d|t n]; try destruct t); try (destruct off as [off|]);
    cbn [names_old do1_call do1_at do1_next] in *; apply some_inj in E; subst p.
  all: try (assert (0 <= s_len d) by (clear - V; cbn in V; unfold wf_arg, wf_slice in V; intuition lia)).
  all: cost_tac.
Qed.

Lemma local_mini_old v pol s c o : local_old c = true -> valid_old_mini v s c o ->
  cheap any (old_mini v pol c) (20 + 10 * volume pol s (J2 c o)).
Proof.
  intros L [M [V _]]. destruct v;
  destruct c as [off q|q| | | |off r|off r|off|off| | |n| | | | | | |]; try discriminate; cbn [volume];
    try (destruct q as [|n|data|data n| |d|v|n| |t d|t n]; try discriminate; try destruct t); try (destruct off as [off|]);
    cbn [names_old old_mini mini1_call mini1_at mini1_next mini2_call mini2_at mini2_next] in *.
  all: try (assert (0 <= s_len d) by (clear - V; cbn in V; unfold wf_arg, wf_slice in V; intuition lia)).
  all: cost_tac.
Qed.


(** ** The calls on the whole buffer, and Grow *)

Lemma used_nonneg s : WF s -> 0 <= used s.
Proof. intros W. destruct W as [_ [_ [_ [H _]]] _ _ _ _]. unfold used. lia. Qed.

(** The loop over the buffer, however it is locked. *)
Lemma after_header {A} (f : slice -> prog A) k s : cheap any (f (b_buf (bb s))) k -> accesses (GetBuf f) s <= 1 + k.
Proof. intros H. rewrite accesses_getbuf. apply (cheap_sound _ _ _ s) in H. lia. Qed.
Lemma after_lock {A} (p : prog A) k s : accesses p (set_mu s true) <= k -> 0 <= k -> accesses (Lock p) s <= 1 + k.
Proof. intros H K. cbn [accesses]. destruct (mu s); lia. Qed.

Lemma whole_old v pol s c o : local_old c = false -> (forall n, c <> KGrow n) -> WF s ->
  accesses (job_body pol (BufOld v) (J2 c o)) s <= 20 + 10 * volume pol s (J2 c o) /\
  accesses (job_body pol (MiniOld v) (J2 c o)) s <= 20 + 10 * volume pol s (J2 c o).
Proof.
  intros L NG W. pose proof (used_nonneg _ W) as U.
  destruct v, c; try discriminate; try (exfalso; eapply NG; reflexivity);
    cbn [volume job_body do1_call do2_call old_mini mini1_call mini2_call]; split.
  all: unfold ret_unit, V1Buffer.ClearAllBits, V1Buffer.SetAllBits, V1Buffer.FlipAllBits, V1Buffer.clearallbits, V1Buffer.setallbits, V1Buffer.flipallbits,
    V2Buffer.ClearAllBits, V2Buffer.SetAllBits, V2Buffer.FlipAllBits, V2Buffer.clearallbits, V2Buffer.setallbits, V2Buffer.flipallbits,
    V1Mini.ClearAllBits, V1Mini.SetAllBits, V1Mini.FlipAllBits, V1Mini.clearallbits, V1Mini.setallbits, V1Mini.flipallbits,
    V2Mini.ClearAllBits, V2Mini.SetAllBits, V2Mini.FlipAllBits, V2Mini.clearallbits, V2Mini.setallbits, V2Mini.flipallbits, locked, lock, get_buf; cbn [bind finally].
  all: match goal with
       | |- accesses (Lock (GetBuf ?f)) _ <= _ => etransitivity; [apply after_lock; [apply after_header; work_tac|]|]
       | |- accesses (GetBuf ?f) _ <= _ => etransitivity; [apply after_header; work_tac|]
       end; known; cbn [bb set_mu]; fold (used s); unfold at_least_one; lia.
Qed.

Definition append_cost (pol : Z -> Z -> Z) (s z : slice) : Z :=
  2 + s_len z + if s_len s + s_len z <=? s_cap s then 0 else 1 + s_len s + new_cap pol (s_cap s) (s_len s + s_len z).
Lemma ch_append pol s z : 0 <= s_len s -> 0 <= s_len z -> cheap any (append pol s z) (append_cost pol s z).
Proof.
  intros H H'. unfold append, append_cost. destruct (_ <=? s_cap s) eqn:E; [cbn; split; [lia|exact I]|].
  destruct (_ <=? maxAlloc) eqn:E2.
  - intros b. cbn [cheap].
    assert (0 <= new_cap pol (s_cap s) (s_len s + s_len z)) by (unfold new_cap, maxAlloc; lia).
    replace (zlen (zeros _)) with (new_cap pol (s_cap s) (s_len s + s_len z)) by (unfold zlen, zeros; rewrite repeat_length; lia).
    split; [lia|exact I].
  - cbn. unfold new_cap, maxAlloc. lia.
Qed.

Lemma grow_old_rest pol n (rest : slice -> prog unit) s c : WF s -> is_i64 n -> 0 <= c <= 12 ->
  (forall x, cheap any (rest x) c) ->
  accesses (GetBuf (fun x => (z <- make_bytes n n ;; x' <- append pol x z ;; rest x') ;; Ret (@RUnit slice))) s <= 19 + 10 * Z.max 0 (grown_old pol s n).
Proof.
  intros W V HC HR. pose proof (used_nonneg _ W) as U. rewrite accesses_getbuf. unfold make_bytes.
  destruct (_ && _) eqn:E; cbn [bind]; [|cbn [accesses]; lia].
  assert (H : forall b, cheap any ((x' <- append pol (b_buf (bb s)) (mkSlice b 0 n n) ;; rest x') ;; Ret (@RUnit slice)) (append_cost pol (b_buf (bb s)) (mkSlice b 0 n n) + c + 0)).
  { intros b. apply (ch_bind tt); [|intros _; apply ch_ret; exact I]. apply (ch_bind some_slice); [|exact HR]. apply ch_append; [exact U|cbn; lia]. }
  cbn [accesses]. 
  replace (zlen (zeros n)) with n by (unfold zlen, zeros; rewrite repeat_length; lia).
  pose proof (cheap_sound _ _ _ (set_heap s (heap s ++ [zeros n])) (H (length (heap s)))) as K.
  unfold append_cost in K. cbn [s_len] in K. fold (used s) (room s) in K. unfold grown_old.
  destruct (used s + n <=? room s) eqn:F; [lia|].
  destruct (Z.leb_spec (used s + n) maxAlloc) as [G|G].
  - assert (used s + n <= new_cap pol (room s) (used s + n)) by (unfold new_cap; lia). lia.
  - assert (0 <= new_cap pol (room s) (used s + n)) by (unfold new_cap, maxAlloc; lia).
    assert (used s <= maxAlloc).
    { destruct W as [Hh (L & Ho & Hl & Hc) _ _ _ _]. unfold used. unfold wf_heap in Hh. rewrite Forall_forall in Hh.
      pose proof (Hh _ (nth_In _ [] L)) as [_ ?]. lia. }
    assert (new_cap pol (room s) (used s + n) = maxAlloc) by (unfold new_cap; lia). lia.
Qed.

Lemma grow_old v pol s n o : is_i64 n -> WF s ->
  accesses (job_body pol (BufOld v) (J2 (KGrow n) o)) s <= 20 + 10 * volume pol s (J2 (KGrow n) o) /\
  accesses (job_body pol (MiniOld v) (J2 (KGrow n) o)) s <= 20 + 10 * volume pol s (J2 (KGrow n) o).
Proof.
  intros V W. assert (W' : WF (set_mu s true)) by (destruct W; split; assumption).
  pose proof (fun rest c => grow_old_rest pol n rest s c W V) as G.
  pose proof (fun rest c => grow_old_rest pol n rest _ c W' V) as G'.
  destruct v; cbn [volume job_body do1_call do2_call old_mini mini1_call mini2_call]; split;
    unfold ret_unit, V1Buffer.Grow, V1Buffer.grow, V2Buffer.Grow, V2Buffer.grow, V1Mini.Grow, V1Mini.grow, V2Mini.Grow, V2Mini.grow, lock, get_buf; cbn [bind].
  - etransitivity; [apply after_lock; [eapply (G' _ 12); [lia|intros; cost_tac]|lia]|unfold grown_old, used, room; cbn [set_mu bb]; lia].
  - etransitivity; [eapply (G _ 12); [lia|intros; cost_tac]|lia].
  - etransitivity; [apply after_lock; [eapply (G' _ 12); [lia|intros; cost_tac]|lia]|unfold grown_old, used, room; cbn [set_mu bb]; lia].
  - etransitivity; [eapply (G _ 12); [lia|intros; cost_tac]|lia].
Qed.
