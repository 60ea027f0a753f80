(** * Work: bounds on the accesses of the models. *)
From Coq Require Import ZArith List Bool Lia ZifyBool.
From Verif Require Import V1Lemmas GoSem Errors Spec GoLemmas GoEval Front Tables Typed Calls OldCalls V1Calls Abs MiniAbs Abs2 MiniAbs2 History MiniHistory AllocSpec IsolateSpec Conv WorkSpec.
From Verif Require GoBinary V1Buffer V2Buffer V3Buffer V1Mini V2Mini V3Mini.
Import ListNotations.
Open Scope Z_scope.
Open Scope go_scope.

(** Whatever the state answers, at most [k] accesses, and a result in [Q]. *)
Fixpoint cheap {A} (Q : A -> Prop) (p : prog A) (k : Z) : Prop :=
  match p with
  | Ret a => 0 <= k /\ Q a
  | Panic _ | OutOfFuel => 0 <= k
  | GetBuf f => forall s, cheap Q (f s) (k - 1)
  | SetBuf _ p => cheap Q p (k - 1)
  | GetF _ f => forall v, cheap Q (f v) (k - 1)
  | SetF _ _ p => cheap Q p (k - 1)
  | Load _ _ f => forall v, cheap Q (f v) (k - 1)
  | Store _ _ _ p => cheap Q p (k - 1)
  | Move _ _ _ _ n p => cheap Q p (k - 1 - Z.max 0 n)
  | Alloc l f => forall b, cheap Q (f b) (k - 1 - zlen l)
  | GetOuts f => forall l, cheap Q (f l) (k - 1)
  | SetOuts _ p => cheap Q p (k - 1)
  | Lock p => cheap Q p (k - 1)
  | Unlock p => cheap Q p (k - 1)
  end.

Definition some_slice : slice := mkSlice 0 0 0 0.

Lemma cheap_nonneg {A} (Q : A -> Prop) p : forall k, cheap Q p k -> 0 <= k.
Proof.
  conv_cases p IH; cbn [cheap]; intros K H; try tauto; try (pose proof (IH _ H); lia).
  - pose proof (IH some_slice _ (H some_slice)); lia.
  - pose proof (IH 0 _ (H 0)); lia.
  - pose proof (IH 0 _ (H 0)); lia.
  - pose proof (IH 0%nat _ (H 0%nat)). unfold zlen in *. lia.
  - pose proof (IH nil _ (H nil)); lia.
Qed.

Lemma heap_read_size h b i n d : heap_read h b i n = Some d -> 0 <= n.
Proof.
  unfold heap_read. destruct (nth_error h b); [|discriminate]. destruct (_ && _) eqn:E; [lia|discriminate].
Qed.

Lemma cheap_sound {A} (Q : A -> Prop) p : forall k s, cheap Q p k -> accesses p s <= k.
Proof.
  intros k s H. revert k s H.
  conv_cases p IH; cbn [cheap accesses]; intros K s H; try lia.
  - pose proof (IH _ _ s (H (b_buf (bb s)))); lia.
  - pose proof (IH _ (set_bb s (upd_buf (bb s) sl)) H); lia.
  - pose proof (IH _ _ s (H (get_fld (bb s) fd))); lia.
  - pose proof (IH _ (set_bb s (upd_fld (bb s) fd v)) H); lia.
  - pose proof (cheap_nonneg _ _ _ (H 0)). destruct (heap_read _ _ _ _) as [[|x [|]]|]; try lia. pose proof (IH _ _ s (H x)); lia.
  - pose proof (cheap_nonneg _ _ _ H). destruct (heap_write _ _ _ _) as [h|]; [|lia]. pose proof (IH _ (set_heap s h) H); lia.
  - pose proof (cheap_nonneg _ _ _ H). destruct (heap_read _ _ _ _) as [d|] eqn:E; [|lia]. apply heap_read_size in E.
    destruct (heap_write _ _ _ _) as [h|]; [|lia]. pose proof (IH _ (set_heap s h) H); lia.
  - pose proof (IH _ _ (set_heap s (heap s ++ [l])) (H (length (heap s)))). lia.
  - pose proof (IH _ _ s (H (outs s))); lia.
  - pose proof (IH _ (set_outs s l) H); lia.
  - pose proof (cheap_nonneg _ _ _ H). destruct (mu s); [lia|]. pose proof (IH _ (set_mu s true) H); lia.
  - pose proof (cheap_nonneg _ _ _ H). destruct (mu s); [|lia]. pose proof (IH _ (set_mu s false) H); lia.
Qed.

Definition any {A : Type} : A -> Prop := fun _ => True.

Lemma cheap_le {A} (Q : A -> Prop) p : forall a b, cheap Q p a -> a <= b -> cheap Q p b.
Proof.
  conv_cases p IH; cbn [cheap]; intros x y H L; try (split; [lia|tauto]); try lia;
    try (intros z; eapply IH; [apply H|lia]); (eapply IH; [exact H|lia]).
Qed.
Lemma cheap_impl {A} (Q R : A -> Prop) p : (forall a, Q a -> R a) -> forall k, cheap Q p k -> cheap R p k.
Proof.
  intros I. conv_cases p IH; cbn [cheap]; intros K H; auto; try (split; [lia|apply I; tauto]); intros; apply IH; apply H.
Qed.
Lemma cheap_any {A} (Q : A -> Prop) p k : cheap Q p k -> cheap any p k.
Proof. apply cheap_impl. intros; exact I. Qed.

Lemma cheap_bind {A B} (Q : A -> Prop) (R : B -> Prop) (f : A -> prog B) b :
  0 <= b -> (forall x, Q x -> cheap R (f x) b) -> forall p a, cheap Q p a -> cheap R (bind p f) (a + b).
Proof.
  intros Hb F p. conv_cases p IH; cbn [cheap bind]; intros K H;
    try (intros z; eapply cheap_le; [apply IH, H|lia]);
    try (eapply cheap_le; [apply IH, H|lia]); try lia.
  eapply cheap_le; [apply F; tauto|lia].
Qed.
Lemma cheap_finally {A} (Q : A -> Prop) (c : prog unit) b : cheap any c b -> forall p a,
  cheap Q p a -> cheap Q (finally p c) (a + b).
Proof.
  intros C p. pose proof (cheap_nonneg _ _ _ C) as Hb. conv_cases p IH; cbn [cheap finally]; intros K H;
    try (intros z; eapply cheap_le; [apply IH, H|lia]);
    try (eapply cheap_le; [apply IH, H|lia]); try lia.
  - eapply cheap_le; [apply (cheap_bind any Q _ 0); [lia| |exact C]|lia]. intros; split; [lia|tauto].
  - eapply cheap_le; [apply (cheap_bind any Q _ 0); [lia| |exact C]|lia]. intros; cbn; lia.
Qed.
Lemma cheap_locked {A} (Q : A -> Prop) (p : prog A) a : cheap Q p a -> cheap Q (locked p) (a + 2).
Proof.
  intros H. unfold locked. cbn [bind lock cheap]. eapply cheap_le; [apply (cheap_finally Q unlock 1); [|exact H]|lia].
  cbn. split; [lia|exact I].
Qed.
Lemma cheap_dw {S} n (body : Z -> S -> prog S) c : 0 <= c -> (forall i a, cheap any (body i a) c) ->
  forall f i a, cheap any (dw f n body i a) (c * Z.of_nat f).
Proof.
  intros Hc HB. induction f as [|f IH]; intros i a; cbn [dw]; [cbn; lia|].
  eapply cheap_le; [apply (cheap_bind any any _ (c * Z.of_nat f)); [nia| |apply HB]|nia].
  intros b _. destruct (_ <? _); [apply IH|]. cbn. split; [nia|exact I].
Qed.
Lemma cheap_goto_loop {S} n (body : Z -> S -> prog S) c a : (forall i a, cheap any (body i a) c) ->
  cheap any (goto_loop n body a) (c * (Z.max 0 n + 1)).
Proof.
  intros HB. pose proof (cheap_nonneg _ _ _ (HB 0 a)) as Hc.
  eapply cheap_le; [apply (cheap_dw n body c Hc HB)|]. nia.
Qed.
Lemma cheap_fl {S} n (body : Z -> S -> prog S) c : 0 <= c -> (forall i a, cheap any (body i a) c) ->
  forall f i a, cheap any (fl f n body i a) (c * Z.of_nat f).
Proof.
  intros Hc HB. induction f as [|f IH]; intros i a; cbn [fl]; destruct (_ <? _); try (cbn; split; [nia|exact I]); [cbn; lia|].
  eapply cheap_le; [apply (cheap_bind any any _ (c * Z.of_nat f)); [nia| |apply HB]|nia]. intros b _. apply IH.
Qed.
Lemma cheap_for_loop {S} n (body : Z -> S -> prog S) c a : (forall i a, cheap any (body i a) c) ->
  cheap any (for_loop n body a) (c * Z.max 0 n).
Proof.
  intros HB. pose proof (cheap_nonneg _ _ _ (HB 0 a)) as Hc.
  eapply cheap_le; [apply (cheap_fl n body c Hc HB)|]. nia.
Qed.

(** ** One node at a time, with a cost to be found *)
Lemma ch_ret {A} (Q : A -> Prop) a : Q a -> cheap Q (Ret a) 0.
Proof. cbn; split; [lia|assumption]. Qed.
Lemma ch_panic {A} (Q : A -> Prop) e : cheap Q (Panic e) 0.
Proof. cbn; lia. Qed.
Lemma ch_getbuf {A} (Q : A -> Prop) f k : (forall s, cheap Q (f s) k) -> cheap Q (GetBuf f) (1 + k).
Proof. cbn; intros H s. eapply cheap_le; [apply H|lia]. Qed.
Lemma ch_setbuf {A} (Q : A -> Prop) sl p k : cheap Q p k -> cheap Q (SetBuf sl p) (1 + k).
Proof. cbn; intros H. eapply cheap_le; [apply H|lia]. Qed.
Lemma ch_getf {A} (Q : A -> Prop) fd f k : (forall s, cheap Q (f s) k) -> cheap Q (GetF fd f) (1 + k).
Proof. cbn; intros H s. eapply cheap_le; [apply H|lia]. Qed.
Lemma ch_setf {A} (Q : A -> Prop) fd v p k : cheap Q p k -> cheap Q (SetF fd v p) (1 + k).
Proof. cbn; intros H. eapply cheap_le; [apply H|lia]. Qed.
Lemma ch_load {A} (Q : A -> Prop) b i f k : (forall s, cheap Q (f s) k) -> cheap Q (Load b i f) (1 + k).
Proof. cbn; intros H s. eapply cheap_le; [apply H|lia]. Qed.
Lemma ch_store {A} (Q : A -> Prop) b i v p k : cheap Q p k -> cheap Q (Store b i v p) (1 + k).
Proof. cbn; intros H. eapply cheap_le; [apply H|lia]. Qed.
Lemma ch_alloc {A} (Q : A -> Prop) l f k : (forall b, cheap Q (f b) k) -> cheap Q (Alloc l f) (1 + zlen l + k).
Proof. cbn; intros H b. eapply cheap_le; [apply H|lia]. Qed.
Lemma ch_getouts {A} (Q : A -> Prop) f k : (forall s, cheap Q (f s) k) -> cheap Q (GetOuts f) (1 + k).
Proof. cbn; intros H s. eapply cheap_le; [apply H|lia]. Qed.
Lemma ch_setouts {A} (Q : A -> Prop) l p k : cheap Q p k -> cheap Q (SetOuts l p) (1 + k).
Proof. cbn; intros H. eapply cheap_le; [apply H|lia]. Qed.
Lemma ch_lock {A} (Q : A -> Prop) p k : cheap Q p k -> cheap Q (Lock p) (1 + k).
Proof. cbn; intros H. eapply cheap_le; [apply H|lia]. Qed.
Lemma ch_unlock {A} (Q : A -> Prop) p k : cheap Q p k -> cheap Q (Unlock p) (1 + k).
Proof. cbn; intros H. eapply cheap_le; [apply H|lia]. Qed.
Lemma ch_if {A} (Q : A -> Prop) (b : bool) p q k l : cheap Q p k -> cheap Q q l -> cheap Q (if b then p else q) (Z.max k l).
Proof. intros H H'. destruct b; eapply cheap_le; eauto; lia. Qed.
Lemma ch_bind {A B} (x0 : A) (R : B -> Prop) p (f : A -> prog B) a b :
  cheap any p a -> (forall x, cheap R (f x) b) -> cheap R (bind p f) (a + b).
Proof.
  intros H F. apply (cheap_bind any); auto. exact (cheap_nonneg _ _ _ (F x0)).
Qed.
Lemma ch_bindq {A B} (x0 : A) (Q : A -> Prop) (R : B -> Prop) p (f : A -> prog B) a b :
  Q x0 -> cheap Q p a -> (forall x, Q x -> cheap R (f x) b) -> cheap R (bind p f) (a + b).
Proof.
  intros H0 H F. apply (cheap_bind Q); auto. exact (cheap_nonneg _ _ _ (F x0 H0)).
Qed.
Lemma ch_copy d s L : s_len s <= L -> 0 <= L -> cheap any (copy d s) (1 + L).
Proof. intros. cbn. split; [lia|exact I]. Qed.

Ltac head_of t := lazymatch t with ?f _ => head_of f | _ => t end.
Ltac bind_tac := first
  [ eapply (ch_bind tt) | eapply (ch_bind 0) | eapply (ch_bind some_slice) | eapply (ch_bind (@nil Z))
  | eapply (ch_bind true) | eapply (ch_bind V1Buffer.IOther) ].
Lemma ch_lit_bytes l : cheap (fun s => s_len s = zlen l) (lit_bytes l) (1 + zlen l).
Proof. intros b. cbn. split; [lia|reflexivity]. Qed.
Lemma cheap_goto_loop_le {S} n L (body : Z -> S -> prog S) c a : n <= L -> (forall i a, cheap any (body i a) c) ->
  cheap any (goto_loop n body a) (c * (Z.max 0 L + 1)).
Proof.
  intros HL HB. pose proof (cheap_nonneg _ _ _ (HB 0 a)) as Hc. eapply cheap_le; [apply (cheap_goto_loop n body c a HB)|]. nia.
Qed.
Lemma ch_store_all b k l : cheap any (GoBinary.store_all b k l) (zlen l).
Proof.
  revert k. induction l as [|x l IH]; intros k; cbn [GoBinary.store_all]; [cbn; split; [apply Z.leb_le; reflexivity|exact I]|].
  apply (cheap_le _ _ (1 + zlen l)); [apply (ch_bind tt); [|intros; apply IH]|unfold zlen; cbn [length]; lia].
  unfold slice_set. destruct (_ && _); cbn; [split; [lia|exact I]|lia].
Qed.
Lemma ch_copy_digits a b w i l : cheap any (V1Buffer.copy_digits a b w i l) (2 * zlen l).
Proof.
  induction l as [|x l IH]; cbn [V1Buffer.copy_digits]; [cbn; split; [apply Z.leb_le; reflexivity|exact I]|].
  apply (cheap_le _ _ (1 + (1 + 2 * zlen l))); [|unfold zlen; cbn [length]; lia].
  apply (ch_bind 0); [unfold slice_get; destruct (_ && _); cbn; [intros z; split; [lia|exact I]|lia]|intros y].
  apply (ch_bind tt); [unfold slice_set; destruct (_ && _); cbn; [split; [lia|exact I]|lia]|intros; apply IH].
Qed.
Lemma ch_put_loop w ks put data a : (forall b x, cheap any (put b x) (zlen ks)) ->
  cheap any (V1Buffer.put_loop w ks put data a) ((4 * zlen ks + 1) * zlen a).
Proof.
  intros HP. unfold V1Buffer.put_loop.
  apply (cheap_le _ _ ((1 + zlen ks + (0 + (zlen ks + 2 * zlen ks))) * Z.max 0 (zlen a))); [|unfold zlen; nia].
  apply cheap_for_loop. intros i acc. apply (ch_bind some_slice).
  - eapply cheap_any, cheap_le; [apply ch_lit_bytes|]. unfold zlen. rewrite map_length. lia.
  - intros b. apply (ch_bind 0).
    + unfold elem. destruct (_ && _); cbn; [split; [lia|exact I]|lia].
    + intros x. apply (ch_bind tt); [apply HP|intros _; apply ch_copy_digits].
Qed.
Lemma ch_make_bytes n : cheap (fun s => s_len s <= Z.max 0 n) (make_bytes n n) (1 + Z.max 0 n).
Proof.
  unfold make_bytes. destruct (_ && _) eqn:E; [|cbn; lia]. intros b. cbn [cheap s_len].
  replace (zlen (zeros n)) with (Z.max 0 n) by (unfold zlen, zeros; rewrite repeat_length; lia). lia.
Qed.
Lemma wrap_le x : - 2 ^ 63 <= x -> wrap64 x <= x.
Proof.
  intros H. unfold wrap64. pose proof (Z.mod_le (x + 2 ^ 63) (2 ^ 64)). lia.
Qed.
Lemma complex_zero t (l : list Z) : s_len some_slice <= tsize (fmt t) * zlen l.
Proof. assert (0 <= zlen l) by (unfold zlen; lia). unfold tsize. destruct t; cbn [fmt ty_bytes some_slice s_len]; lia. Qed.
Lemma ch_complex_part w ks put a : zlen ks = w -> (forall b x, cheap any (put b x) w) -> 0 <= w ->
  cheap (fun s => s_len s <= w * zlen a)
    (data <- make_bytes (w *! zlen a) (w *! zlen a) ;; V1Buffer.put_loop w ks put data a ;; Ret data)
    (1 + w * zlen a + (4 * w + 1) * zlen a).
Proof.
  intros <- HP Hw. assert (W : Z.max 0 (zlen ks *! zlen a) <= zlen ks * zlen a).
  { pose proof (wrap_le (zlen ks * zlen a)). unfold mul64. unfold zlen in *. nia. }
  assert (0 <= zlen a) by (unfold zlen; lia).
  apply (cheap_bind (fun s => s_len s <= zlen ks * zlen a)); [nia| |].
  - intros s Hs. replace ((4 * zlen ks + 1) * zlen a) with ((4 * zlen ks + 1) * zlen a + 0) by lia.
    apply (ch_bind tt); [now apply ch_put_loop|]. intros _. apply ch_ret. exact Hs.
  - eapply cheap_impl; [|eapply cheap_le; [apply ch_make_bytes|lia]]. cbn. lia.
Qed.
Lemma ch_complex_bytes t l : cheap (fun s => s_len s <= tsize (fmt t) * zlen l)
  (V1Buffer.complex_bytes (idata_of t l) (tsize (fmt t)) (order_of t))
  (1 + tsize (fmt t) * zlen l + (4 * tsize (fmt t) + 1) * zlen l).
Proof.
  destruct t; [apply (ch_complex_part 2 [0; 1])|apply (ch_complex_part 2 [0; 1])
    |apply (ch_complex_part 4 [0; 1; 2; 3])|apply (ch_complex_part 4 [0; 1; 2; 3])
    |apply (ch_complex_part 8 [0; 1; 2; 3; 4; 5; 6; 7])|apply (ch_complex_part 8 [0; 1; 2; 3; 4; 5; 6; 7])];
    try reflexivity; try lia; intros b x; apply ch_store_all.
Qed.

Ltac work1 :=
  lazymatch goal with
  | |- forall _, _ => intro
  | |- cheap _ (Ret _) _ => eapply ch_ret; exact I
  | |- cheap _ (Panic _) _ => eapply ch_panic
  | |- cheap _ (bind (V1Buffer.as_bytes _) _) _ => cbn [V1Buffer.as_bytes idata_of bind]
  | |- cheap _ (bind (V1Buffer.as_u16 _) _) _ => cbn [V1Buffer.as_u16 idata_of bind]
  | |- cheap _ (bind (V1Buffer.as_u32 _) _) _ => cbn [V1Buffer.as_u32 idata_of bind]
  | |- cheap _ (bind (V1Buffer.as_u64 _) _) _ => cbn [V1Buffer.as_u64 idata_of bind]
  | |- cheap _ (bind (lit_bytes ?l) _) _ =>
      eapply (ch_bindq (mkSlice 0 0 (zlen l) 0) (fun s => s_len s = zlen l)); [reflexivity|apply ch_lit_bytes|intros ? ?]
  | |- cheap _ (bind (V1Buffer.complex_bytes (idata_of ?t ?l) _ _) _) _ =>
      eapply (ch_bindq some_slice (fun s => s_len s <= tsize (fmt t) * zlen l)); [apply complex_zero|apply ch_complex_bytes|intros ? ?]
  | |- cheap _ (bind _ _) _ => bind_tac
  | |- cheap _ (GoBinary.store_all _ _ _) _ => eapply ch_store_all
  | H : s_len ?d = _ |- cheap _ (goto_loop (s_len ?d) _ _) _ => rewrite H
  | H : s_len ?d <= ?L |- cheap _ (goto_loop (s_len ?d) _ _) _ => eapply (cheap_goto_loop_le _ L); [exact H|]
  | |- cheap _ (locked _) _ => eapply cheap_locked
  | |- cheap _ (finally _ unlock) _ => eapply (cheap_finally _ unlock 1); [cbn; split; [lia|exact I]|]
  | |- cheap _ (goto_loop _ _ _) _ => eapply cheap_goto_loop
  | |- cheap _ (for_loop _ _ _) _ => eapply cheap_for_loop
  | |- cheap _ (if ?b then _ else _) _ => eapply ch_if
  | |- cheap _ (match nums_of ?t ?x with _ => _ end) _ => destruct (nums_of t x)
  | |- cheap _ (GetBuf _) _ => eapply ch_getbuf
  | |- cheap _ (SetBuf _ _) _ => eapply ch_setbuf
  | |- cheap _ (GetF _ _) _ => eapply ch_getf
  | |- cheap _ (SetF _ _ _) _ => eapply ch_setf
  | |- cheap _ (Load _ _ _) _ => eapply ch_load
  | |- cheap _ (Store _ _ _ _) _ => eapply ch_store
  | |- cheap _ (Alloc _ _) _ => eapply ch_alloc
  | |- cheap _ (GetOuts _) _ => eapply ch_getouts
  | |- cheap _ (SetOuts _ _) _ => eapply ch_setouts
  | |- cheap _ (Lock _) _ => eapply ch_lock
  | |- cheap _ (Unlock _) _ => eapply ch_unlock
  | H : s_len ?d = ?L |- cheap _ (copy _ ?d) _ => eapply (ch_copy _ d L); [rewrite H; apply Z.le_refl|apply Z.leb_le; reflexivity]
  | H : 0 <= s_len ?d |- cheap _ (copy _ ?d) _ => eapply (ch_copy _ d (s_len d)); [apply Z.le_refl|exact H]
  | |- cheap _ ?t _ => progress (cbv beta iota zeta) || (let h := head_of t in unfold h; cbv beta iota zeta)
  end.
Ltac work_tac := repeat work1.


Ltac known := repeat first
  [ progress change (Z.max 0 0) with 0 | progress change (1 + 0) with 1 | progress change (Z.max 1 0) with 1
  | progress change (zlen [_]) with 1 | progress change (@zlen Z []) with 0
  | match goal with |- context [tsize ?t] => let v := eval vm_compute in (tsize t) in change (tsize t) with v end ].
Ltac cost_tac := eapply cheap_le; [work_tac|unfold at_least_one; known; lia].

(** All calls but those on the whole buffer and Grow: the bound does not depend on
    the state. *)
Definition local3 (c : call slice) : bool :=
  match c with CClearAllBits | CSetAllBits | CFlipAllBits | CGrow _ => false | _ => true end.
Definition local_old (c : call2 slice) : bool :=
  match c with KClearAllBits | KSetAllBits | KFlipAllBits | KGrow _ => false | _ => true end.

Lemma some_inj {A} (a b : A) : Some a = Some b -> a = b.
Proof. congruence. Qed.
Lemma accesses_getbuf {A} (f : slice -> prog A) s : accesses (GetBuf f) s = 1 + accesses (f (b_buf (bb s))) s.
Proof. reflexivity. Qed.
