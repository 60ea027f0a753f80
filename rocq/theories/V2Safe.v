(** * V2Safe: what any v2 [Buffer] call does to well-formedness and to the mutex. *)
From Coq Require Import ZArith List Bool Lia ZifyBool.
From Verif Require Import GoSem Errors Spec GoLemmas BitLemmas CodecLemmas Typed V3BitLemmas V3ByteLemmas
  TypedCanon TypedLemmas TypedReadLemmas Calls Abs Frame Sim LockLemmas OldCalls V2Lemmas V2Agree.
From Verif Require V3Buffer V3Mini V2Buffer V2BufferTyped V2Mini.
Import ListNotations.
Open Scope Z_scope.

Lemma lf_Refresh : lockfree V3Buffer.Refresh.
Proof. unfold V3Buffer.Refresh. lockfree_tac. Qed.

(** The constructor is that of v3. *)
Theorem v2_NewBuffer pol slices s : mu s = false -> zlen slices < 2 ^ 63 ->
  run (V2Buffer.NewBuffer pol slices) s = run (V3Buffer.NewBuffer pol slices) s.
Proof.
  intros M Hz. unfold V2Buffer.NewBuffer, V3Buffer.NewBuffer. cbn [empty_slice bind run set_buf set].
  rewrite !run_bind.
  match goal with |- context [run _ ?st] => set (t := st) end.
  assert (Mt : mu t = false) by exact M. clearbody t.
  destruct slices as [|s1 [|s2 r]].
  - cbn [run]. now apply v2_Refresh.
  - cbn [run set_buf]. now apply v2_Refresh.
  - rewrite for_loop_goto by (split; [|exact Hz]; unfold zlen; simpl length; lia).
    match goal with |- context [run (goto_loop ?n ?b ?a) t] =>
      pose proof (run_keeps_mu (goto_loop n b a) ltac:(apply lockfree_goto_loop; intros; unfold append; lockfree_tac; intros; lockfree_tac) t) as K;
      destruct (run (goto_loop n b a) t) as [x t'|x t'|t'|]
    end; auto.
    cbn in K. apply v2_Refresh. congruence.
Qed.

(** The outcome of a call on an unlocked buffer: it returns or panics in a
    well-formed state; only a Go runtime panic in a method without [defer] keeps
    the mutex. *)
Definition lock_ok {A} (w : bool) (r : res A) : Prop :=
  match r with
  | Done _ s' => WF s' /\ mu s' = false
  | Panicked (CrunchError _ _) s' => WF s' /\ mu s' = false
  | Panicked (RuntimeError _) s' => WF s' /\ mu s' = w
  | Deadlock _ | Stuck => False
  end.

Lemma lock_ok_as_v2 s r o w : mu s = false -> sim s r o -> lock_ok w (as_v2 w r).
Proof.
  intros M S. destruct r as [v s'|[|k] s'|s'|]; cbn [sim as_v2 lock_ok] in *; try contradiction;
    destruct S as [_ G]; pose proof (g_wf _ _ G); pose proof (g_mu _ _ G).
  - split; congruence.
  - split; congruence.
  - destruct w; cbn [lock_ok]; split; auto. now apply set_mu_WF. congruence.
Qed.

Lemma lock_ok_bind {A B} w (p : prog A) (f : A -> B) s :
  lock_ok w (run p s) -> lock_ok w (run (x <- p ;; Ret (f x)) s).
Proof. rewrite run_bind. destruct (run p s); auto. Qed.

Lemma valid_op3 s o o3 : valid_op2 s o -> op3 o = Some o3 -> valid_opn s o3.
Proof.
  destruct o; cbn; intros V E; try (injection E as <-; cbn; auto; fail).
  destruct (_ =? _). injection E as <-; exact I. destruct (_ =? _); [|discriminate]. injection E as <-; exact I.
Qed.

Theorem v2_at_safe s off o : WF s -> mu s = false -> is_i64 off -> valid_op2 s o ->
  lock_ok (writes_op o) (run (do2_at off o) s).
Proof.
  intros W M Ho V.
  assert (A : forall o3, op3 o = Some o3 -> plain_op s off o -> lock_ok (writes_op o) (run (do2_at off o) s)).
  { intros o3 E P. rewrite (v2_at_agrees s off o o3) by auto.
    eapply lock_ok_as_v2; eauto. apply do_at_sim; auto. eapply valid_op3; eauto. }
  destruct o as [ | n | data | data n | | d | v | n | | t d | t n];
    try (eapply A; [reflexivity|exact I]).
  - destruct (Z.eqb_spec data 0) as [->|N0]; [eapply A; [reflexivity|exact I]|].
    destruct (Z.eqb_spec data 1) as [->|N1]; [eapply A; [reflexivity|exact I]|].
    cbn [do2_at writes_op]. unfold ret_unit. apply lock_ok_bind. rewrite v2_SetBit_bad by auto.
    destruct (_ <=? _); [now split|]. destruct (_ <? _); now split.
  - cbn [do2_at writes_op valid_op2] in *. unfold ret_unit. apply lock_ok_bind. rewrite v2_WriteBytes by auto.
    destruct (Z.ltb_spec (zlen (content s)) (off + s_len d)).
    { destruct (_ <? _); split; auto. now apply set_mu_WF. }
    destruct (Z.ltb_spec off 0); [now split|]. destruct (_ =? _). { split; auto. now apply set_mu_WF. }
    split; auto.
    pose proof (zlen_smear (lag s off d) (slice_bytes (heap s) d)) as Z1. rewrite wf_slice_bytes_zlen in Z1 by auto.
    pose proof (wf_slice_bytes_zlen _ _ V).
    apply with_content_WF; auto.
    + apply put_length; lia.
    + apply Forall_put. now apply content_bytes. apply smear_bytes. apply wf_slice_bytes; auto. apply (wf_h s W).
Qed.

Lemma with_cursor_WF s b x : WF s -> is_i64 x -> WF (with_cursor s b x).
Proof. destruct b; [apply with_boff_WF|apply with_off_WF]. Qed.

Theorem v2_next_safe s o : WF s -> mu s = false -> valid_op2 s o -> lock_ok (writes_op o) (run (do2_next o) s).
Proof.
  intros W M V. rewrite run_do2_next.
  pose proof (v2_at_safe s (cursor s (bit_addressed2 o)) o W M (cursor_i64 _ _ W) V) as H.
  destruct (run _ s) as [v s'|e s'|s'|]; auto. cbn [lock_ok] in H. destruct H as [W' M']. rewrite M'.
  split. apply with_cursor_WF; auto. apply wrap64_range. destruct (bit_addressed2 o); exact M'.
Qed.

Theorem v2_call_safe pol s c : WF s -> mu s = false -> valid_call2 s c ->
  lock_ok (undeferred c) (run (do2_call pol c) s).
Proof.
  intros W M V.
  assert (A : forall c3, call3 c = Some c3 -> valid_call s c3 -> plain_call s c -> lock_ok (undeferred c) (run (do2_call pol c) s)).
  { intros c3 E V3 P. rewrite (v2_call_agrees pol s c c3) by auto.
    eapply lock_ok_as_v2; eauto. apply do_call_sim; auto. }
  destruct c; cbn [valid_call2] in *; try (eapply A; [reflexivity| | ]; try exact I; try exact V).
  - destruct V. now apply v2_at_safe.
  - now apply v2_next_safe.
  - cbn [do2_call undeferred]. unfold ret_unit. apply lock_ok_bind. rewrite v2_Grow by auto.
    destruct (_ || _) eqn:E1. { split; auto. now apply set_mu_WF. }
    destruct (Z.leb_spec (zlen (content s) + n) maxAlloc).
    + split. apply v2_grown_wf; auto; lia. unfold v2_grown. destruct (_ <=? _); exact M.
    + split; auto. apply set_mu_WF. apply alloc_WF; auto. apply Forall_zeros. rewrite zlen_zeros; lia.
  - cbn [do2_call undeferred]. unfold ret_unit. apply lock_ok_bind. rewrite v2_Reset by auto.
    split. now apply reset2_WF. exact M.
Qed.

(** ** On a mutex that is never released *)

(** On a locked buffer a program either blocks or does not touch the mutex, and
    then it does what it does on the unlocked buffer. *)
Lemma run_when_locked {A} (p : prog A) : forall st, mu st = true -> run p (set_mu st false) <> Stuck ->
  (exists t, run p st = Deadlock t) \/ run p st = res_mu true (run p (set_mu st false)).
Proof.
  assert (ID : forall st, mu st = true -> set_mu (set_mu st false) true = st).
  { intros st M. change (set_mu (set_mu st false) true) with (set_mu st true). now apply set_mu_id. }
  induction p; intros st M NS; cbn [run] in *;
    change (bb (set_mu st false)) with (bb st) in *; change (heap (set_mu st false)) with (heap st) in *;
    change (outs (set_mu st false)) with (outs st) in *.
  - right; cbn [res_mu]. now rewrite ID.
  - right; cbn [res_mu]. now rewrite ID.
  - congruence.
  - now apply H.
  - exact (IHp (set_bb st _) M NS).
  - now apply H.
  - exact (IHp (set_bb st _) M NS).
  - destruct (heap_read _ _ _ _) as [[|x [|? ?]]|]; try congruence. now apply H.
  - destruct (heap_write _ _ _ _) as [h|]; try congruence. exact (IHp (set_heap st h) M NS).
  - destruct (heap_read _ _ _ _) as [d|]; try congruence.
    destruct (heap_write _ _ _ _) as [h|]; try congruence. exact (IHp (set_heap st h) M NS).
  - exact (H _ (set_heap st _) M NS).
  - now apply H.
  - exact (IHp (set_outs st _) M NS).
  - rewrite M. left. eauto.
  - cbn in NS. congruence.
Qed.

Definition noret {A} (r : res A) : Prop := match r with Done _ _ => False | _ => True end.

Lemma noret_locked {A} (p : prog A) s : mu s = true -> noret (run (locked p) s).
Proof. intro M. rewrite run_locked_deadlock by auto. exact I. Qed.
Lemma noret_lock {A} (p : prog A) s : mu s = true -> noret (run (lock ;; p) s).
Proof. intro M. rewrite run_lock_deadlock by auto. exact I. Qed.
Lemma noret_bind {A B} (p : prog A) (k : A -> prog B) s : noret (run p s) -> noret (run (bind p k) s).
Proof. rewrite run_bind. destruct (run p s); auto. intros []. Qed.
Lemma noret_checks {A} f c e1 off e2 (k : prog A) s :
  noret (run k s) ->
  noret (run (bind (get f) (fun cap => bind (panic_if (c cap) e1) (fun _ => bind (panic_if (off <? 0) e2) (fun _ => k)))) s).
Proof.
  intro H. cbn [bind get run]. rewrite !run_panic_if_bind. destruct (c _); [exact I|]. destruct (_ <? _); [exact I|]. exact H.
Qed.
Lemma noret_goto {S} n (b : Z -> S -> prog S) a s : noret (run (b 0 a) s) -> noret (run (goto_loop n b a) s).
Proof. intro H. unfold goto_loop. cbn [dw]. now apply noret_bind. Qed.

Lemma noret_readbit off s : mu s = true -> noret (run (V2Buffer.readbit off) s).
Proof.
  intro M. exact (noret_checks FBcap (fun bcap => off >? (bcap -! 1)) _ off _ _ s (noret_locked _ s M)).
Qed.
Lemma noret_setbit off d s : mu s = true -> noret (run (V2Buffer.setbit off d) s).
Proof.
  intro M. exact (noret_checks FBcap (fun bcap => off >? (bcap -! 1)) _ off _ _ s (noret_locked _ s M)).
Qed.
Lemma noret_write off d s : mu s = true -> noret (run (V2Buffer.write off d) s).
Proof.
  intro M. exact (noret_checks FCap (fun cap => (off +! s_len d) >? cap) _ off _ _ s (noret_lock _ s M)).
Qed.
Lemma noret_read off n s : mu s = true -> noret (run (V2Buffer.read off n) s).
Proof.
  intro M. exact (noret_checks FCap (fun cap => (off +! n) >? cap) _ off _ _ s (noret_locked _ s M)).
Qed.

Lemma noret_at off o s : mu s = true -> noret (run (do2_at off o) s).
Proof.
  intro M. destruct o; cbn [do2_at]; unfold ret_int, ret_unit, ret_bytes, ret_nums; apply noret_bind.
  - now apply noret_readbit.
  - apply noret_goto. apply noret_bind. now apply noret_readbit.
  - now apply noret_setbit.
  - apply noret_goto. now apply noret_setbit.
  - exact (noret_checks FBcap (fun bcap => off >? (bcap -! 1)) _ off _ _ s (noret_locked _ s M)).
  - now apply noret_write.
  - unfold V2Buffer.WriteByte. rewrite run_lit_bytes. now apply noret_write.
  - now apply noret_read.
  - apply noret_bind. now apply noret_read.
  - rewrite WriteU_canon.
    exact (noret_checks FCap (fun cap => (off +! zlen d *! tsize (fmt t)) >? cap) _ off _ _ s (noret_lock _ s M)).
  - rewrite ReadU_canon.
    refine (noret_checks FCap (fun cap => (off +! n *! tsize (fmt t)) >? cap) _ off _ _ s _).
    unfold make_elems. destruct (_ && _); cbn [bind run]; [|exact I]. now apply noret_locked.
Qed.

Theorem noret_call pol c s : mu s = true -> locks c = true -> noret (run (do2_call pol c) s).
Proof.
  intros M L. destruct c; cbn [locks] in L; try discriminate; cbn [do2_call].
  1: now apply noret_at.
  1: { rewrite run_do2_next. pose proof (noret_at (cursor s (bit_addressed2 o)) o s M) as H.
       destruct (run _ s); auto. destruct H. }
  all: unfold ret_int, ret_unit, ret_bytes, ret_nums; apply noret_bind;
    first [now apply noret_locked | now apply noret_lock].
Qed.
