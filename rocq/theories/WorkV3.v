(** * WorkV3: the accesses of the v3 methods. *)
From Coq Require Import ZArith List Bool Lia ZifyBool.
From Verif Require Import V1Lemmas GoSem Errors Spec GoLemmas GoEval Front Tables Typed Calls OldCalls V1Calls Abs MiniAbs Abs2 MiniAbs2 History MiniHistory AllocSpec IsolateSpec Conv WorkSpec Work.
From Verif Require GoBinary V1Buffer V2Buffer V3Buffer V1Mini V2Mini V3Mini.
Import ListNotations.
Open Scope Z_scope.
Open Scope go_scope.

Lemma local_buf3 pol s c o : local3 c = true -> valid_call s c ->
  cheap any (do_call c) (20 + 5 * volume pol s (J3 c o)).
Proof.
  intros L V. destruct c as [off q|q| | | |off r|off r|off|off| | |n|n|n| | | | | | |]; try discriminate; cbn [volume];
    try (destruct q as [| | | | |data n|d|v|n| |t d|t n]; try destruct t); try (destruct off as [off|]);
    cbn [names3 do_call do_at do_next].
  all: try (assert (0 <= s_len d) by (clear - V; cbn in V; unfold wf_arg, wf_slice in V; intuition lia)).
  all: cost_tac.
Qed.

Lemma local_mini3 pol s c o : local3 c = true -> valid_mini s c o ->
  cheap any (mini_call c) (20 + 5 * volume pol s (J3 c o)).
Proof.
  intros L [M [V _]]. destruct c as [off q|q| | | |off r|off r|off|off| | |n|n|n| | | | | | |]; try discriminate; cbn [volume];
    try (destruct q as [| | | | |data n|d|v|n| |t d|t n]; try discriminate; try destruct t); try (destruct off as [off|]);
    cbn [names3 mini_call mini_at mini_next].
  all: try (assert (0 <= s_len d) by (clear - V; cbn in V; unfold wf_arg, wf_slice in V; intuition lia)).
  all: cost_tac.
Qed.


(** ** The calls on the whole buffer, and Grow *)

Lemma used_nonneg s : WF s -> 0 <= used s.
Proof. intros W. destruct W as [_ [_ [_ [H _]]] _ _ _ _]. unfold used. lia. Qed.

Lemma whole_loop s (body : Z -> unit -> prog unit) c :
  (forall i a, cheap any (body i a) c) -> 0 <= used s -> 0 <= c <= 4 ->
  accesses (ret_unit (s <- get_buf ;; goto_loop (s_len s) body tt)) s <= 20 + 5 * at_least_one (used s).
Proof.
  intros HB U HC. cbn [ret_unit get_buf bind]. rewrite accesses_getbuf.
  assert (H : cheap any (bind (goto_loop (s_len (b_buf (bb s))) body tt) (fun _ => Ret (@RUnit slice))) (c * (Z.max 0 (used s) + 1) + 0)).
  { apply (ch_bind tt); [apply cheap_goto_loop; exact HB|]. intros _. apply ch_ret. exact I. }
  apply (cheap_sound _ _ _ s) in H. unfold at_least_one. nia.
Qed.

Lemma whole3 pol s c o : local3 c = false -> (forall n, c <> CGrow n) -> WF s ->
  accesses (do_call c) s <= 20 + 5 * volume pol s (J3 c o) /\
  accesses (mini_call c) s <= 20 + 5 * volume pol s (J3 c o).
Proof.
  intros L NG W. pose proof (used_nonneg _ W) as U.
  destruct c; try discriminate; try (exfalso; eapply NG; reflexivity); cbn [volume do_call mini_call]; split.
  all: try (unfold V3Buffer.ClearAllBits, V3Buffer.SetAllBits, V3Buffer.FlipAllBits, V3Mini.ClearAllBits, V3Mini.SetAllBits, V3Mini.FlipAllBits;
    apply (whole_loop s _ 4); [intros; cost_tac|exact U|lia]).
Qed.

Lemma accesses_getf {A} fd (f : Z -> prog A) s : accesses (GetF fd f) s = 1 + accesses (f (get_fld (bb s) fd)) s.
Proof. reflexivity. Qed.
Lemma accesses_alloc {A} l (f : nat -> prog A) s :
  accesses (Alloc l f) s = 1 + zlen l + accesses (f (length (heap s))) (set_heap s (heap s ++ [l])).
Proof. reflexivity. Qed.
Lemma wrap_cases x : - 2 ^ 63 <= x < 2 ^ 63 + 2 ^ 64 -> wrap64 x = x \/ (wrap64 x = x - 2 ^ 64 /\ 2 ^ 63 <= x).
Proof.
  intros H. unfold wrap64. destruct (Z.lt_ge_cases x (2 ^ 63)).
  - left. rewrite Z.mod_small; lia.
  - right. replace (x + 2 ^ 63) with (x - 2 ^ 63 + 1 * 2 ^ 64) by lia. rewrite Z.mod_add by lia. rewrite Z.mod_small; lia.
Qed.
Lemma wrap_double x : wrap64 (wrap64 x * 2) = wrap64 (x * 2).
Proof.
  unfold wrap64. f_equal.
  assert (E : exists q, (x + 2 ^ 63) mod 2 ^ 64 = x + 2 ^ 63 + q * 2 ^ 64).
  { exists (- ((x + 2 ^ 63) / 2 ^ 64)). rewrite Z.mod_eq by lia. lia. }
  destruct E as [q ->]. replace ((x + 2 ^ 63 + q * 2 ^ 64 - 2 ^ 63) * 2 + 2 ^ 63) with (x * 2 + 2 ^ 63 + (2 * q) * 2 ^ 64) by lia.
  now rewrite Z.mod_add by lia.
Qed.
Lemma double_fits r u n : 0 <= u <= r -> r <= 2 ^ 48 -> 0 <= n < 2 ^ 63 ->
  0 <= u +! n <= (r +! n) *! 2 -> (r +! n) *! 2 <= 2 ^ 48 ->
  (r +! n) *! 2 = 2 * (r + n) /\ 2 * (r + n) <= 2 ^ 48.
Proof.
  intros H1 H2 H3. unfold mul64, add64. rewrite wrap_double.
  destruct (wrap_cases (u + n)) as [->|[-> ?]]; [lia| |lia].
  destruct (wrap_cases ((r + n) * 2)) as [->|[-> ?]]; lia.
Qed.

Definition grow_rest (n : Z) : prog (rv slice) :=
  s <- get_buf ;;
  cap <- get FCap ;;
  if n <=? s_cap s -! cap then
    s <- get_buf ;;
    cap <- get FCap ;;
    s' <- reslice s 0 (cap +! n) ;;
    set_buf s' ;; V3Buffer.Refresh ;; Ret RUnit
  else
    cap <- get FCap ;;
    s <- get_buf ;;
    tmp <- make_bytes (cap +! n) ((s_cap s +! n) *! 2) ;;
    s <- get_buf ;;
    copy tmp s ;;
    set_buf tmp ;; V3Buffer.Refresh ;; Ret RUnit.

Lemma grow_rest_cost s n : is_i64 n -> WF s -> accesses (grow_rest n) s <= 20 + 2 * grown3 s n.
Proof.
  intros V [Hh (_ & Ho & Hl & Hc) Hcap _ _ _].
  assert (M : room s <= maxAlloc).
  { unfold room. unfold wf_heap in Hh. rewrite Forall_forall in Hh.
    destruct (Nat.lt_ge_cases (s_blk (b_buf (bb s))) (length (heap s))) as [L|L].
    - pose proof (Hh _ (nth_In _ [] L)) as [_ ?]. lia.
    - rewrite nth_overflow in Hc by lia. unfold maxAlloc. cbn in Hc. unfold zlen in Hc. cbn in Hc. lia. }
  unfold grown3. fold (room s) in *. fold (used s) in *.
  unfold grow_rest, get_buf, get. cbn [bind]. rewrite accesses_getbuf, accesses_getf. cbn [get_fld]. rewrite Hcap.
  fold (room s) (used s).
  assert (E : room s -! used s = room s - used s) by (apply wrap64_id; unfold is_i64, maxAlloc in *; lia). rewrite E.
  destruct (Z.leb_spec n (room s - used s)) as [L|L].
  - replace (room s - used s <? n) with false by lia. cbn [andb].
    match goal with |- 1 + (1 + accesses ?p s) <= _ => assert (H : cheap any p 10) by cost_tac; apply (cheap_sound _ _ _ s) in H; lia end.
  - replace (room s - used s <? n) with true by lia. cbn [andb]. rewrite accesses_getf, accesses_getbuf. cbn [get_fld]. rewrite Hcap. fold (room s) (used s).
    unfold make_bytes. destruct (_ && _) eqn:G; [|cbn [bind accesses]; match goal with |- context [if ?b then _ else 0] => destruct b end; lia]. cbn [bind]. rewrite accesses_alloc, accesses_getbuf.
    assert (D : (room s +! n) *! 2 = 2 * (room s + n) /\ 2 * (room s + n) <= maxAlloc).
    { apply (double_fits (room s) (used s) n); unfold is_i64, maxAlloc in *; lia. }
    destruct D as [D D2]. rewrite D in *. replace (_ <=? maxAlloc) with true by lia.
    replace (zlen (zeros (2 * (room s + n)))) with (2 * (room s + n)) by (unfold zlen, zeros; rewrite repeat_length; lia).
    cbn [set_heap bb].
    match goal with |- 1 + (1 + (1 + (1 + (1 + _ + (1 + accesses ?p ?s1))))) <= _ => assert (H : cheap any p (10 + used s)) by
      (eapply cheap_le; [apply (ch_bind tt); [apply (ch_copy _ _ (used s)); [apply Z.le_refl|apply Hl]|work_tac]|known; lia]); apply (cheap_sound _ _ _ s1) in H; lia end.
Qed.

Lemma grown3_nonneg s n : WF s -> 0 <= grown3 s n.
Proof.
  intros [_ (_ & _ & H & _) _ _ _ _]. unfold grown3, room, used. destruct (_ && _) eqn:E; lia.
Qed.

Lemma grow3 pol s n o : is_i64 n -> WF s ->
  accesses (do_call (CGrow n)) s <= 20 + 2 * volume pol s (J3 (CGrow n) o) /\
  accesses (mini_call (CGrow n)) s <= 20 + 2 * volume pol s (J3 (CGrow n) o).
Proof.
  intros V W. pose proof (grow_rest_cost s n V W) as G. cbn [volume do_call mini_call]. split.
  - unfold ret_unit, V3Buffer.Grow, panic_if. destruct (n <? 0) eqn:E; [cbn [bind accesses]; pose proof (grown3_nonneg s n W); lia|].
    etransitivity; [|exact G]. apply Z.eq_le_incl. unfold grow_rest. cbn [bind get_buf get]. rewrite !accesses_getbuf, !accesses_getf.
    do 2 f_equal. unfold reslice, make_bytes. destruct (_ <=? _); cbn [bind].
    + rewrite !accesses_getbuf, !accesses_getf. do 2 f_equal. destruct (_ && _); reflexivity.
    + rewrite !accesses_getf, !accesses_getbuf. do 2 f_equal. destruct (_ && _); reflexivity.
  - unfold ret_unit, V3Mini.Grow.
    etransitivity; [|exact G]. apply Z.eq_le_incl. unfold grow_rest. cbn [bind get_buf get]. rewrite !accesses_getbuf, !accesses_getf.
    do 2 f_equal. unfold reslice, make_bytes. destruct (_ <=? _); cbn [bind].
    + rewrite !accesses_getbuf, !accesses_getf. do 2 f_equal. destruct (_ && _); reflexivity.
    + rewrite !accesses_getf, !accesses_getbuf. do 2 f_equal. destruct (_ && _); reflexivity.
Qed.
