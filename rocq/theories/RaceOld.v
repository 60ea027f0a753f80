(** * RaceOld: the methods of the v1 and v2 [Buffer] keep a locking discipline. *)
From Coq Require Import ZArith List Bool Lia Arith ZifyBool.
From Verif Require Import GoSem Errors Spec GoBinary Calls OldCalls V1Lemmas V1Calls Conc ConcSched Race RaceSpec RaceLemmas.
From Verif Require V2Buffer V2BufferTyped V1Buffer.
Import ListNotations.
Open Scope Z_scope.
Open Scope list_scope.

Section Discipline.
Variables (blk0 h0 : nat) (m : item -> mode) (t : nat).

(** Memory that only the callers know is not written. *)
Definition foreign (b : nat) : bool := (b <? h0)%nat && negb (b =? blk0)%nat.
Definition modes (l : location) : mode :=
  match l with
  | LHeader => m Header
  | LField f => m (Field f)
  | LByte b _ => if foreign b then Frozen else m Contents
  | LOut => Frozen
  end.
Definition headers (s : slice) : Prop := foreign (s_blk s) = false.

Hypothesis locked_reads : forall g, may_read (m g) t true.

Notation disc := (disc modes headers t).

Lemma fresh_headers (K : nat -> Prop) b n c o : RaceLemmas.incl (initial h0) K -> ~ K b -> headers (mkSlice b o n c).
Proof.
  intros H N. unfold headers, foreign. cbn [s_blk]. destruct (Nat.ltb_spec b h0); [|reflexivity].
  destruct N. now apply H.
Qed.
Lemma headers_same s b o n c : headers s -> b = s_blk s -> headers (mkSlice b o n c).
Proof. intros H ->. exact H. Qed.
Lemma read_cell s b i held : headers s -> b = s_blk s -> may_read (m Contents) t held -> may_read (modes (LByte b i)) t held.
Proof. intros H -> X. cbn. unfold headers in H. now rewrite H. Qed.
Lemma write_cell s b i held : headers s -> b = s_blk s -> may_write (m Contents) t held -> may_write (modes (LByte b i)) t held.
Proof. intros H -> X. cbn. unfold headers in H. now rewrite H. Qed.
Lemma read_any b i : may_read (modes (LByte b i)) t true.
Proof. cbn. destruct (foreign b); [exact I|apply locked_reads]. Qed.

Lemma disc_store_all (P K : nat -> Prop) held (Q : (nat -> Prop) -> (nat -> Prop) -> bool -> unit -> Prop) (R : bool -> Prop) b :
  P (s_blk b) -> R held -> Q P K held tt -> forall l k, disc P K held Q R (GoBinary.store_all b k l).
Proof.
  intros HP HR HQ. induction l as [|x l IH]; intro k; cbn [GoBinary.store_all]; [exact HQ|].
  apply disc_bind. unfold slice_set. destruct (_ && _); cbn [RaceLemmas.disc]; [|exact HR].
  split; [now left|]. apply IH.
Qed.
Lemma disc_copy_digits (P K : nat -> Prop) held (Q : (nat -> Prop) -> (nat -> Prop) -> bool -> unit -> Prop) (R : bool -> Prop) b d w i :
  P (s_blk b) -> P (s_blk d) -> R held -> Q P K held tt ->
  forall l, disc P K held Q R (V1Buffer.copy_digits b d w i l).
Proof.
  intros HP HD HR HQ. induction l as [|x l IH]; cbn [V1Buffer.copy_digits]; [exact HQ|].
  apply disc_bind. unfold slice_get. destruct (_ && _); cbn [RaceLemmas.disc]; [|exact HR].
  split; [now left|]. intro y. apply disc_bind.
  unfold slice_set. destruct (_ && _); cbn [RaceLemmas.disc]; [|exact HR].
  split; [now left|]. apply IH.
Qed.

Ltac own_tac :=
  repeat match goal with
  | H : ?G |- ?G => exact H
  | |- RaceLemmas.incl ?X ?X => apply RaceLemmas.incl_refl
  | |- RaceLemmas.incl _ _ => intros ? ?
  | |- add _ ?b ?b => right; reflexivity
  | |- add _ ?b (s_blk (mkSlice ?b _ _ _)) => right; reflexivity
  | |- add _ _ _ => left
  | H : RaceLemmas.incl _ ?Y |- ?Y _ => apply H
  end; try assumption; fail.
Ltac hdr_tac :=
  first [ eassumption
        | eapply headers_same; [eassumption|reflexivity]
        | eapply fresh_headers; [|eassumption]; own_tac ].
Ltac cell :=
  cbn [s_blk];
  first [ left; solve [own_tac]
        | right; split; [solve [own_tac] | first [ apply read_any | eapply read_cell; [eassumption|reflexivity|assumption] | eapply write_cell; [eassumption|reflexivity|assumption]]]].
Ltac head_of t := lazymatch t with ?f _ => head_of f | _ => t end.
Ltac disc1 :=
  lazymatch goal with
  | |- RaceLemmas.disc _ _ _ _ _ _ _ _ ?p =>
      lazymatch p with
      | Ret _ => cbn [RaceLemmas.disc]
      | Panic _ => cbn [RaceLemmas.disc]
      | OutOfFuel => exact I
      | bind _ _ => apply disc_bind
      | locked _ => apply disc_locked
      | GoBinary.store_all _ _ _ => apply disc_store_all; [cbn [s_blk]; own_tac|..]
      | V1Buffer.copy_digits _ _ _ _ _ => apply disc_copy_digits; [cbn [s_blk]; own_tac|cbn [s_blk]; own_tac|..]
      | goto_loop _ _ _ => apply (disc_goto _ _ _ (fun _ => True)); [exact I| |]
      | for_loop _ _ _ => apply (disc_for _ _ _ (fun _ => True)); [exact I| |]
      | (if ?b then _ else _) => destruct b
      | (match ?x with _ => _ end) => destruct x
      | _ => first [progress cbv beta zeta | progress cbn [RaceLemmas.disc] | let h := head_of p in unfold h]
      end
  | |- _ /\ _ => split
  | |- ~ _ => idtac
  | |- forall _, _ => intros ?
  | |- _ = _ => reflexivity
  | |- True => exact I
  | |- yes _ _ _ _ => exact I
  | |- keeps _ _ _ _ _ _ _ _ => unfold keeps
  | |- RaceLemmas.incl _ _ => own_tac
  | |- headers _ => hdr_tac
  | |- _ \/ _ =>
      cbn [s_blk];
      first [ left; solve [own_tac]
            | right; solve [own_tac]
            | right; split; [solve [own_tac]|intros; match goal with |- may_write (modes (LByte ?b _)) _ _ => eapply (write_cell (mkSlice b 0 0 0)); [hdr_tac|reflexivity|assumption] end] ]
  | |- can_read _ _ _ _ _ _ _ => cell
  | |- can_write _ _ _ _ _ _ _ => cell
  | |- may_read (modes (LByte _ _)) _ _ => idtac
  | |- may_read (modes _) _ _ => cbn [modes]
  | |- may_write (modes _) _ _ => cbn [modes]
  | |- may_read (m _) _ true => apply locked_reads
  | |- may_read (m _) _ false => assumption
  | |- may_write (m _) _ _ => assumption
  end.
Ltac disc_tac := repeat disc1.

Ltac each H :=
  repeat match type of H with
  | Forall _ (_ :: _) => let A := fresh "A" in let B := fresh "B" in inversion_clear H as [|? ? A B]; rename B into H
  | Forall _ [] => clear H
  end.

Notation call_disc := (RaceLemmas.disc modes headers t RaceLemmas.none (initial h0) false yes (fun _ => True)).

Lemma disc_call2 pol s c : length (heap s) = h0 -> valid_call2 s c ->
  Forall (fun g => may_read (m g) t false) (bare false c) ->
  Forall (fun g => may_write (m g) t true) (written c) ->
  call_disc (do2_call pol c).
Proof.
  intros E V R W. destruct c as [off o|o| | | |off r|off r|off|off| | |n| | | | | | |].
  1, 2: destruct o as [ | n | data | data n | | d | v | n | | ty d | ty n]; try (destruct ty); cbn [bare written bare_op written_op bits_op] in R, W; each R; each W; cbn [do2_call do2_at do2_next].
  all: try (destruct off as [off|]); try (cbn [bare written] in R, W; each R; each W); cbn [do2_call].
  all: try (assert (Hd : initial h0 (s_blk d)) by (unfold initial; rewrite <- E; apply V)).
  all: disc_tac.
Qed.

Lemma disc_call1 pol s c p : length (heap s) = h0 -> valid_call2 s c -> do1_call pol c = Some p ->
  Forall (fun g => may_read (m g) t false) (bare true c) ->
  Forall (fun g => may_write (m g) t true) (written c) ->
  call_disc p.
Proof.
  intros E V X R W. destruct c as [off o|o| | | |off r|off r|off|off| | |n| | | | | | |]; cbn [do1_call] in X;
    try discriminate X; injection X as <-.
  1, 2: destruct o as [ | n | data | data n | | d | v | n | | ty d | ty n];
    cbn [bare written bare_op written_op bits_op] in R, W; each R; each W; cbn [do1_at do1_next];
    unfold V1Buffer.WriteComplex, V1Buffer.WriteComplexNext, V1Buffer.writeComplex; rewrite ?complex_bytes_canon; try (destruct ty).
  all: try (destruct off as [off|]); try (cbn [bare written] in R, W; each R; each W).
  all: try (assert (Hd : initial h0 (s_blk d)) by (unfold initial; rewrite <- E; apply V)).
  all: disc_tac.
Qed.
End Discipline.

(** ** From the table to the modes *)

Definition item_eqb (a b : item) : bool :=
  match a, b with
  | Header, Header | Contents, Contents => true
  | Field f, Field g =>
      match f, g with FOff, FOff | FCap, FCap | FBoff, FBoff | FBcap, FBcap => true | _, _ => false end
  | _, _ => false
  end.
Lemma item_eqb_true a b : item_eqb a b = true <-> a = b.
Proof. destruct a as [|[]|], b as [|[]|]; cbn; split; intro; congruence. Qed.

Definition writes_item (g : item) (c : call2 slice) : bool := existsb (item_eqb g) (written c).
Lemma writes_item_true g c : writes_item g c = true <-> In g (written c).
Proof.
  unfold writes_item. rewrite existsb_exists. split.
  - intros (x & H & E). apply item_eqb_true in E. now subst.
  - intro H. exists g. split; auto. now apply item_eqb_true.
Qed.

Definition writers (programs : list (list (call2 slice))) (g : item) : list nat :=
  filter (fun t => existsb (writes_item g) (nth t programs [])) (seq 0 (length programs)).
Lemma writers_in programs g t : In t (writers programs g) <->
  exists cs c, nth_error programs t = Some cs /\ In c cs /\ In g (written c).
Proof.
  unfold writers. rewrite filter_In, in_seq, existsb_exists. split.
  - intros [[_ L] (c & H & E)]. apply writes_item_true in E. cbn in L.
    exists (nth t programs []), c. split; [|auto]. now apply nth_error_nth'.
  - intros (cs & c & E & H1 & H2). split.
    + split; [lia|]. cbn. apply nth_error_Some. congruence.
    + exists c. rewrite (nth_error_nth _ _ _ E). split; auto. now apply writes_item_true.
Qed.

(** One writer owns what it writes; several share it under the mutex. *)
Definition mode_of (programs : list (list (call2 slice))) (g : item) : mode :=
  match writers programs g with [] => Frozen | [t] => Owned t | _ => Guarded end.

Lemma mode_locked programs g t : may_read (mode_of programs g) t true.
Proof. unfold mode_of. destruct (writers programs g) as [|u [|v l]]; cbn; auto. Qed.

Lemma mode_written programs g t cs c : nth_error programs t = Some cs -> In c cs -> In g (written c) ->
  may_write (mode_of programs g) t true.
Proof.
  intros E H1 H2. assert (W : In t (writers programs g)) by (apply writers_in; eauto).
  unfold mode_of. destruct (writers programs g) as [|u [|v l]]; cbn; auto. destruct W as [->|[]]; auto.
Qed.

Lemma mode_bare v1 programs g t cs c : compatible v1 programs ->
  nth_error programs t = Some cs -> In c cs -> In g (bare v1 c) -> may_read (mode_of programs g) t false.
Proof.
  intros X E H1 H2.
  assert (A : forall u, In u (writers programs g) -> u = t).
  { intros u W. apply writers_in in W as (ds & d & E' & D1 & D2).
    destruct (Nat.eq_dec u t) as [|N]; auto. exfalso. eapply (X u t); eauto. exists g. auto. }
  unfold mode_of. destruct (writers programs g) as [|u [|v l]] eqn:Ew; cbn; auto.
  - right. symmetry. apply A. now left.
  - exfalso. assert (ND : NoDup (writers programs g)) by (apply NoDup_filter, seq_NoDup).
    rewrite Ew in ND. inversion ND as [|? ? N1 _]; subst. apply N1.
    rewrite (A u), <- (A v); [left; reflexivity|right; left; reflexivity|left; reflexivity].
Qed.

Section Programs.
Variables (v1 : bool) (body : call2 slice -> prog (rv slice)) (s : St) (programs : list (list (call2 slice))).
Hypothesis body_disc : forall m t c, (forall g, may_read (m g) t true) -> valid_call2 s c -> In c (concat programs) ->
  Forall (fun g => may_read (m g) t false) (bare v1 c) ->
  Forall (fun g => may_write (m g) t true) (written c) ->
  disc (modes (s_blk (b_buf (bb s))) (length (heap s)) m) (headers (s_blk (b_buf (bb s))) (length (heap s))) t
    RaceLemmas.none (initial (length (heap s))) false yes (fun _ => True) (body c).

Theorem compatible_race_free tr c : (s_blk (b_buf (bb s)) < length (heap s))%nat ->
  Forall (Forall (valid_call2 s)) programs -> compatible v1 programs ->
  traced body (start s programs) tr c -> race_free tr.
Proof.
  intros B V X T.
  set (h := length (heap s)) in *.
  apply (disciplined (modes (s_blk (b_buf (bb s))) h (mode_of programs)) (headers (s_blk (b_buf (bb s))) h) body h s programs tr c);
    auto.
  - unfold headers, foreign. now rewrite Nat.eqb_refl, andb_false_r.
  - intros t cs E. apply Forall_forall. intros d D. unfold good.
    assert (V' : valid_call2 s d).
    { apply nth_error_In in E as I. rewrite Forall_forall in V. specialize (V _ I). rewrite Forall_forall in V. auto. }
    apply (body_disc (mode_of programs)); auto.
    + intro g. apply mode_locked.
    + apply in_concat. exists cs. split; [eapply nth_error_In; eauto|auto].
    + apply Forall_forall. intros g G. eapply mode_bare; eauto.
    + apply Forall_forall. intros g G. eapply mode_written; eauto.
Qed.
End Programs.

(** ** Finding races *)

Section Search.
Context {call : Type} (body : call -> prog (rv slice)).

(** Accesses to one struct field, header or byte, at least one of them a write. *)
Definition loc_eqb (a b : location) : bool :=
  match a, b with
  | LHeader, LHeader => true
  | LField f, LField g => item_eqb (Field f) (Field g)
  | LByte b i, LByte c j => (b =? c)%nat && (i =? j)
  | _, _ => false
  end.
Definition in_range (b : nat) (lo n : Z) (l : location) : bool :=
  match l with LByte c i => (b =? c)%nat && ((lo <=? i) && (i <? lo + n)) | _ => false end.
Definition overlap (b : nat) (lo n : Z) (c : nat) (lo' n' : Z) : bool :=
  (b =? c)%nat && (Z.max lo lo' <? Z.min (lo + n) (lo' + n')).
Definition clash (a b : access) : bool :=
  match a, b with
  | Wr l, Rd k | Rd l, Wr k | Wr l, Wr k => loc_eqb l k
  | Mv db di _ _ n, Rd k | Rd k, Mv db di _ _ n => in_range db di n k
  | Mv db di sb si n, Wr k | Wr k, Mv db di sb si n => in_range db di n k || in_range sb si n k
  | Mv db di sb si n, Mv db' di' sb' si' n' =>
      overlap db di n db' di' n' || overlap db di n sb' si' n' || overlap sb si n db' di' n'
  | _, _ => false
  end.
Lemma loc_eqb_true a b : loc_eqb a b = true -> a = b.
Proof.
  destruct a, b; cbn; try discriminate; auto.
  - intro H. apply (item_eqb_true (Field f) (Field f0)) in H. congruence.
  - intro H. apply andb_true_iff in H as [H1 H2]. apply Nat.eqb_eq in H1. apply Z.eqb_eq in H2. congruence.
Qed.
Lemma in_range_true b lo n l : in_range b lo n l = true -> exists i, lo <= i < lo + n /\ l = LByte b i.
Proof.
  destruct l as [| |c i|]; try discriminate. cbn. intro H. apply andb_true_iff in H as [H1 H2]. apply Nat.eqb_eq in H1. subst c.
  exists i. split; [lia|reflexivity].
Qed.
Lemma overlap_true b lo n c lo' n' : overlap b lo n c lo' n' = true ->
  exists l, (exists i, lo <= i < lo + n /\ l = LByte b i) /\ exists i, lo' <= i < lo' + n' /\ l = LByte c i.
Proof.
  intro H. apply andb_true_iff in H as [H1 H2]. apply Nat.eqb_eq in H1. subst c.
  exists (LByte b (Z.max lo lo')). split; exists (Z.max lo lo'); split; auto; lia.
Qed.
Lemma clash_true a b : clash a b = true -> conflict a b /\ a <> Release.
Proof.
  destruct a as [l|l|db di sb si n| | |], b as [k|k|db' di' sb' si' n'| | |]; try discriminate; cbn [clash]; intro H;
    (split; [|discriminate]);
    repeat match goal with
    | H : _ || _ = true |- _ => apply orb_true_iff in H as [H|H]
    | H : loc_eqb _ _ = true |- _ => apply loc_eqb_true in H; subst
    | H : in_range _ _ _ _ = true |- _ => apply in_range_true in H
    | H : overlap _ _ _ _ _ _ = true |- _ => apply overlap_true in H as (l & X & Y)
    end;
    match goal with
    | H : exists i, _ /\ ?k = _ |- _ => exists k
    | X : exists i, _ /\ ?l = _ |- _ => exists l
    | |- conflict (_ ?k) _ => exists k
    end; cbn [reads writes]; auto.
Qed.

(** The accesses of a schedule: goroutine [t] makes up to [n] steps, for each
    [(t, n)] in turn. *)
Fixpoint tschedn (t n : nat) (c : config call) : trace * config call :=
  match n with
  | O => ([], c)
  | S n =>
      match sched1 body t c with
      | Some (_, c') => let (tr, c2) := tschedn t n c' in (next_access c t ++ tr, c2)
      | None => ([], c)
      end
  end.
Fixpoint tsched (l : list (nat * nat)) (c : config call) : trace * config call :=
  match l with
  | [] => ([], c)
  | (t, n) :: l => let (tr, c1) := tschedn t n c in let (tr2, c2) := tsched l c1 in (tr ++ tr2, c2)
  end.
Lemma traced_trans c0 tr c : traced body c0 tr c -> forall tr2 c2, traced body c tr2 c2 -> traced body c0 (tr ++ tr2) c2.
Proof.
  intros T tr2 c2 T2. induction T2 as [|tr2 c1 t h c2 T2 IH G].
  - now rewrite app_nil_r.
  - rewrite app_assoc. eapply tr_step; eauto.
Qed.
Lemma tschedn_sound t n : forall c tr c', tschedn t n c = (tr, c') -> traced body c tr c'.
Proof.
  induction n as [|n IH]; intros c tr c' E; cbn [tschedn] in E.
  - injection E as <- <-. constructor.
  - destruct (sched1 body t c) as [[h c1]|] eqn:E1; [|injection E as <- <-; constructor].
    destruct (tschedn t n c1) as [tr1 c2] eqn:E2. injection E as <- <-.
    eapply traced_trans; [|eapply IH; exact E2].
    rewrite <- (app_nil_l (next_access c t)). eapply tr_step; [constructor|apply sched1_sound; exact E1].
Qed.
Lemma tsched_sound l : forall c tr c', tsched l c = (tr, c') -> traced body c tr c'.
Proof.
  induction l as [|[t n] l IH]; intros c tr c' E; cbn [tsched] in E.
  - injection E as <- <-. constructor.
  - destruct (tschedn t n c) as [tr1 c1] eqn:E1. destruct (tsched l c1) as [tr2 c2] eqn:E2. injection E as <- <-.
    eapply traced_trans; [eapply tschedn_sound; exact E1|eapply IH; exact E2].
Qed.

(** [p] runs until its next access clashes with the next access of [q]. *)
Fixpoint meet (fuel : nat) (p q : prog (rv slice)) (s : St) : bool :=
  match fuel with
  | O => false
  | S f =>
      match access_of p s, step1 p s with
      | Some a, Some (p', s') =>
          match access_of q s' with
          | Some b => if clash a b then match step1 q s' with Some _ => true | None => false end else meet f p' q s'
          | None => false
          end
      | _, _ => false
      end
  end.
(** [q] first makes some steps. *)
Fixpoint racy (fuel : nat) (p q : prog (rv slice)) (s : St) : bool :=
  match fuel with
  | O => false
  | S f =>
      if (if mu s then false else meet 99 p q s) then true
      else match step1 q s with Some (q', s') => racy f p q' s' | None => false end
  end.

Definition pair (s : St) (c d : call) (p q : prog (rv slice)) : config call :=
  mkC s [mkG [] (Some (c, p)); mkG [] (Some (d, q))].

Lemma meet_sound c0 c d q fuel : forall p s tr, traced body c0 tr (pair s c d p q) -> meet fuel p q s = true ->
  exists tr c', traced body c0 tr c' /\ ~ race_free tr.
Proof.
  induction fuel as [|f IH]; intros p s tr T H; cbn [meet] in H; [discriminate|].
  destruct (access_of p s) as [a|] eqn:Ea; [|discriminate].
  destruct (step1 p s) as [[p' s']|] eqn:Ep; [|discriminate].
  assert (T1 : traced body c0 (tr ++ [(0%nat, a)]) (pair s' c d p' q)).
  { replace [(0%nat, a)] with (next_access (pair s c d p q) 0) by (unfold next_access, pair; cbn; now rewrite Ea).
    eapply tr_step; [exact T|]. exact (g_step body 0 (pair s c d p q) c [] p p' s' eq_refl Ep). }
  destruct (access_of q s') as [b|] eqn:Eb; [|discriminate].
  destruct (clash a b) eqn:C.
  - destruct (step1 q s') as [[q' s'']|] eqn:Eq; [|discriminate].
    exists ((tr ++ [(0%nat, a)]) ++ [(1%nat, b)]), (pair s'' c d p' q'). split.
    + replace [(1%nat, b)] with (next_access (pair s' c d p' q) 1) by (unfold next_access, pair; cbn; now rewrite Eb).
      eapply tr_step; [exact T1|]. exact (g_step body 1 (pair s' c d p' q) d [] q q' s'' eq_refl Eq).
    + intro F. apply clash_true in C as [C N].
      assert (E1 : nth_error ((tr ++ [(0%nat, a)]) ++ [(1%nat, b)]) (length tr) = Some (0%nat, a)).
      { rewrite <- app_assoc. rewrite nth_error_app2, Nat.sub_diag by lia. reflexivity. }
      assert (E2 : nth_error ((tr ++ [(0%nat, a)]) ++ [(1%nat, b)]) (S (length tr)) = Some (1%nat, b)).
      { replace (S (length tr)) with (length (tr ++ [(0%nat, a)])) by (rewrite app_length; cbn; lia).
        rewrite nth_error_app2, Nat.sub_diag by lia. reflexivity. }
      apply (F (length tr) (S (length tr))). exists 0%nat, a, 1%nat, b. repeat split; auto.
      eapply not_before_next; eauto.
  - eapply IH; eauto.
Qed.

Lemma racy_sound c0 c d p fuel : forall q s tr, traced body c0 tr (pair s c d p q) -> racy fuel p q s = true ->
  exists tr c', traced body c0 tr c' /\ ~ race_free tr.
Proof.
  induction fuel as [|f IH]; intros q s tr T H; cbn [racy] in H; [discriminate|].
  destruct (if mu s then false else meet 99 p q s) eqn:Em.
  { destruct (mu s); [discriminate|]. eapply meet_sound; eauto. }
  destruct (step1 q s) as [[q' s']|] eqn:Eq; [|discriminate].
  eapply IH; [|exact H].
  eapply tr_step; [exact T|]. exact (g_step body 1 (pair s c d p q) d [] q q' s' eq_refl Eq).
Qed.

Theorem racy_start fuel c d s : racy fuel (body c) (body d) s = true ->
  exists tr c', traced body (start s [[c]; [d]]) tr c' /\ ~ race_free tr.
Proof.
  intro H. eapply (racy_sound _ c d (body c) fuel (body d) s); [|exact H].
  eapply tr_step; [eapply tr_step; [apply tr_start|]|].
  - exact (g_call body 0 (start s [[c]; [d]]) c [] eq_refl).
  - exact (g_call body 1 (mkC s [mkG [] (Some (c, body c)); mkG [d] None]) d [] eq_refl).
Qed.
End Search.
