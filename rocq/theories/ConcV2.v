(** * ConcV2: the v2 [Buffer] methods as locked sections. *)
From Coq Require Import ZArith List Bool Lia ZifyBool.
From Verif Require Import GoSem Errors Spec GoLemmas BitLemmas CodecLemmas Typed V3BitLemmas V3ByteLemmas
  TypedCanon TypedLemmas TypedReadLemmas Calls Abs Frame Sim History LockLemmas OldCalls V2Lemmas V2Agree
  V2Safe Conc ConcLemmas ConcInv ConcSpec.
From Verif Require V3Buffer V3Mini V2Buffer V2BufferTyped V2Mini.
Import ListNotations.
Open Scope Z_scope.

(** ** Sequential behaviour *)

Definition outcome_of (r : res (rv slice)) (o : outcome) : Prop :=
  match r with
  | Done v s' => o = Ok (view_rv s' v) (abs s') /\ WF s' /\ mu s' = false
  | Panicked e s' => o = Fail e (abs s') /\ WF s' /\ (mu s' = true -> exists k, e = RuntimeError k)
  | _ => False
  end.

Lemma sim_outcome s r o : mu s = false -> sim s r o -> outcome_of r o.
Proof.
  intros M. destruct r as [v s'|e s'|s'|]; cbn; auto; intros [E G].
  - split; auto. split. apply (g_wf _ _ G). now rewrite (g_mu _ _ G).
  - split; auto. split. apply (g_wf _ _ G). rewrite (g_mu _ _ G). congruence.
Qed.

Lemma store_outcome s off d (p : prog unit) s1 :
  WF s -> mu s = false -> WF s1 -> mu s1 = false -> abs s1 = abs s -> is_i64 off -> Forall is_byte d ->
  run p s =
    (if zlen (content s) <? off + zlen d
     then (if off + zlen d <? 2 ^ 63 then Panicked BufferOverwriteError s1
           else Panicked (RuntimeError IndexOutOfRange) (set_mu s1 true))
     else if off <? 0 then Panicked BufferUnderwriteError s1
     else if zlen d =? 0 then Panicked (RuntimeError IndexOutOfRange) (set_mu s1 true)
     else Done tt (with_content s1 (put (content s) off d))) ->
  outcome_of (run (ret_unit p) s) (seq_store off d (abs s)).
Proof.
  intros W M W1 M1 A Ho Bd R. unfold ret_unit. rewrite run_bind, R. unfold seq_store. cbn [a_bytes abs].
  assert (C : content s1 = content s) by (now injection A).
  destruct (Z.ltb_spec (zlen (content s)) (off + zlen d)).
  - destruct (_ <? _); cbn [outcome_of].
    + rewrite A. split; auto. split; auto. congruence.
    + rewrite abs_set_mu, A. split; auto. split. now apply set_mu_WF. eauto.
  - destruct (Z.ltb_spec off 0); cbn [outcome_of].
    { rewrite A. split; auto. split; auto. congruence. }
    destruct (Z.eqb_spec (zlen d) 0); cbn [outcome_of].
    { rewrite abs_set_mu, A. split; auto. split. now apply set_mu_WF. eauto. }
    cbn [run view_rv].
    assert (Z1 : zlen (put (content s) off d) = zlen (content s1)) by (rewrite C; apply put_length; lia).
    assert (B1 : Forall is_byte (put (content s) off d)) by (apply Forall_put; auto; now apply content_bytes).
    cbn [outcome_of view_rv]. rewrite abs_with_content by auto. rewrite A. split; auto. split; [|exact M1]. now apply with_content_WF.
Qed.

Theorem v2_sequential pol s c : WF s -> mu s = false -> valid_call2 s c ->
  (match c with At2 _ (PWriteBytes d) => apart s d | _ => True end) ->
  match seq_call (view_call2 (heap s) c) (abs s) with
  | Some o => outcome_of (run (do2_call pol c) s) o
  | None => True
  end.
Proof.
  intros W M V Ap.
  destruct c; cbn [view_call2 seq_call]; auto.
  1: { destruct V as [Ho V]. destruct o as [ | n | data | data n | | d | v | n | | t d | t n];
    cbn [view_op2 do2_call].
    - rewrite (v2_at_agrees s off _ OReadBit) by (auto; exact I). rewrite as_v2_false. apply (sim_outcome s); auto.
      apply (do_at_sim s off OReadBit); auto.
    - rewrite (v2_at_agrees s off _ (OReadBits n)) by (auto; exact I). rewrite as_v2_false. apply (sim_outcome s); auto.
      apply (do_at_sim s off (OReadBits n)); auto.
    - cbn [seq_at]. destruct (Z.eqb_spec data 0) as [->|N0]; [|destruct (Z.eqb_spec data 1) as [->|N1]].
      + rewrite (v2_at_agrees s off _ OClearBit) by (auto; exact I). rewrite as_v2_false. apply (sim_outcome s); auto.
        apply (do_at_sim s off OClearBit); auto.
      + rewrite (v2_at_agrees s off _ OSetBit) by (auto; exact I). rewrite as_v2_false. apply (sim_outcome s); auto.
        apply (do_at_sim s off OSetBit); auto.
      + cbn [do2_at]. unfold ret_unit. rewrite run_bind, v2_SetBit_bad by auto. cbn [a_bytes abs].
        destruct (_ <=? _); [|destruct (_ <? _)]; cbn; (split; [reflexivity|]); (split; [auto|congruence]).
    - rewrite (v2_at_agrees s off _ (OSetBits data n)) by (auto; exact I). rewrite as_v2_false. apply (sim_outcome s); auto.
      apply (do_at_sim s off (OSetBits data n)); auto.
    - rewrite (v2_at_agrees s off _ OFlipBit) by (auto; exact I). rewrite as_v2_false. apply (sim_outcome s); auto.
      apply (do_at_sim s off OFlipBit); auto.
    - cbn [seq_at do2_at]. apply (store_outcome s off _ _ s); auto.
      + apply wf_slice_bytes; auto. apply (wf_h s W).
      + rewrite v2_WriteBytes by auto. rewrite wf_slice_bytes_zlen by auto.
        rewrite smear_clean; auto. left. unfold lag. replace (Nat.eqb _ _) with false; auto.
        symmetry. now apply Nat.eqb_neq.
    - cbn [seq_at do2_at]. apply (store_outcome s off _ _ (alloc s [v])); auto.
      + apply alloc_WF; auto. rewrite max_alloc_val; now vm_compute.
      + now apply abs_alloc.
      + change (zlen [v]) with 1. now apply v2_WriteByte.
    - rewrite (v2_at_agrees s off _ (OReadBytes n)) by (auto; exact I). rewrite as_v2_false. apply (sim_outcome s); auto.
      apply (do_at_sim s off (OReadBytes n)); auto.
    - rewrite (v2_at_agrees s off _ OReadByte) by (auto; exact I). rewrite as_v2_false. apply (sim_outcome s); auto.
      apply (do_at_sim s off OReadByte); auto.
    - cbn [seq_at do2_at]. apply (store_outcome s off _ _ s); auto.
      + apply encode_all_bytes.
      + rewrite v2_WriteT by auto. rewrite encode_all_zlen.
        replace (zlen d * tsize (fmt t) =? 0) with (zlen d =? 0); auto.
        destruct t; cbn [fmt]; change (tsize U16LE) with 2; change (tsize U16BE) with 2; change (tsize U32LE) with 4; change (tsize U32BE) with 4; change (tsize U64LE) with 8; change (tsize U64BE) with 8; lia.
    - rewrite (v2_at_agrees s off _ (ORead (fmt t) n)) by (auto; exact I). rewrite as_v2_false. apply (sim_outcome s); auto.
      apply (do_at_sim s off (ORead (fmt t) n)); auto. }
  all: match goal with |- outcome_of (run (do2_call ?pol ?c) ?st) _ =>
         let c3 := eval cbn in (call3 c) in
         match c3 with Some ?c3 =>
           rewrite (v2_call_agrees pol st c c3) by (auto; exact I);
           cbn [undeferred]; rewrite as_v2_false; apply (sim_outcome st); auto;
           apply (do_call_sim st c3); auto
         end
       end.
Qed.

(** ** Shapes *)

Section V2Shapes.
Variable hdr : slice.
Variable single : bool.
Variable rd : nat -> Prop.
Hypothesis rd_hdr : rd (s_blk hdr).

Notation sec := (sec hdr single rd).
Notation shape := (shape hdr single rd).
Definition any {A} : bool -> A -> Prop := fun _ _ => True.
Definition none {A} : bool -> A -> Prop := fun _ _ => False.

Lemma sec_slice_get u w (E : bool -> Z -> Prop) s i : rd (s_blk s) -> (forall v, E w v) -> sec u w E (slice_get s i).
Proof. intros R H. unfold slice_get. destruct (_ && _); cbn; auto. Qed.
Lemma sec_elem u w (E : bool -> Z -> Prop) l i : (forall v, E w v) -> sec u w E (elem l i).
Proof. intro H. unfold elem. destruct (_ && _); cbn; auto. Qed.
Lemma sec_set_elem u w (E : bool -> list Z -> Prop) l i v : (forall v, E w v) -> sec u w E (set_elem l i v).
Proof. intro H. unfold set_elem. destruct (_ && _); cbn; auto. Qed.
Lemma sec_buf_get u w (E : bool -> Z -> Prop) i : (forall v, E w v) -> sec u w E (buf_get i).
Proof. intro H. unfold buf_get. cbn [get_buf bind ConcLemmas.sec]. now apply sec_slice_get. Qed.
Lemma sec_buf_set u w (E : bool -> unit -> Prop) i v : (single = true -> w = false) -> E true tt ->
  sec u w E (buf_set i v).
Proof.
  intros S H. unfold buf_set. cbn [get_buf bind ConcLemmas.sec]. unfold slice_set.
  destruct (_ && _) eqn:C; cbn [ConcLemmas.sec]; auto. apply andb_prop in C. destruct C as [C1 C2].
  split; [exact S|]. split; [reflexivity|]. split; [lia|exact H].
Qed.

Lemma shape_panic_if {A} c e (f : unit -> prog A) : shape false (f tt) -> shape false (bind (panic_if c e) f).
Proof. intro H. destruct c; cbn; auto. Qed.
Lemma shape_locked {A} (E : bool -> A -> Prop) (p : prog A) : sec false false E p -> shape false (locked p).
Proof.
  intro H. split; auto. left. change (sec true false (fun _ _ => False) (finally p unlock)).
  now apply (sec_finally hdr single rd E).
Qed.
Lemma shape_lock_unlock {A} (p : prog A) : sec false false any p -> shape false (lock ;; p ;; unlock).
Proof.
  intro H. split; auto. left. change (sec true false (fun _ _ => False) (bind p (fun _ => unlock))).
  apply (sec_bind hdr single rd any); [|exact H]. intros w a _. split; [reflexivity|exact I].
Qed.
Lemma shape_make_elems {A} w n (f : list Z -> prog A) : (forall l, shape false (f l)) -> shape false (bind (make_elems w n) f).
Proof. intro H. unfold make_elems. destruct (_ && _); cbn; auto. Qed.

Lemma shape_readbit off : shape false (V2Buffer.readbit off).
Proof.
  unfold V2Buffer.readbit. cbn [get bind ConcLemmas.shape]. do 2 apply shape_panic_if.
  apply (shape_locked any). eapply sec_bind; [|apply (sec_buf_get _ _ any); exact (fun _ => I)].
  intros w a _. exact I.
Qed.
Lemma sec_rmw i f : sec false false any (v <- buf_get i ;; buf_set i (f v)).
Proof.
  apply (sec_bind hdr single rd (fun w _ => w = false)).
  - intros w a ->. apply sec_buf_set; auto. exact I.
  - now apply sec_buf_get.
Qed.
Lemma shape_setbit off data : shape false (V2Buffer.setbit off data).
Proof.
  unfold V2Buffer.setbit. cbn [get bind ConcLemmas.shape]. do 2 apply shape_panic_if.
  apply (shape_locked any). destruct (_ =? _); [|destruct (_ =? _)].
  - apply (sec_rmw (quo off 8) (fun v => Z.land v (not8 (V2Buffer.bit_mask off)))).
  - apply (sec_rmw (quo off 8) (fun v => Z.lor v (V2Buffer.bit_mask off))).
  - exact I.
Qed.
Lemma shape_flipbit off : shape false (V2Buffer.flipbit off).
Proof.
  unfold V2Buffer.flipbit. cbn [get bind ConcLemmas.shape]. do 2 apply shape_panic_if.
  apply (shape_locked any). apply (sec_rmw (quo off 8) (fun v => Z.lxor v (V2Buffer.bit_mask off))).
Qed.

Lemma sec_loads {A} w off i ks u (E : bool -> A -> Prop) (K : list Z -> prog A) w0 :
  (forall l, sec u w0 E (K l)) -> forall acc, sec u w0 E (loads w off i ks acc K).
Proof.
  intro H. induction ks as [|k r IH]; intro acc; cbn [loads]; auto.
  apply (sec_bind hdr single rd (fun w' _ => w' = w0)).
  - intros w' a ->. apply IH.
  - now apply sec_buf_get.
Qed.
Lemma shape_ReadU t off n : shape false (ReadU t off n).
Proof.
  rewrite ReadU_canon. cbn [get bind ConcLemmas.shape]. do 2 apply shape_panic_if.
  apply shape_make_elems. intro out. apply (shape_locked any). apply sec_goto; [|exact (fun _ _ => I)].
  intros w i a. unfold rbody. apply sec_loads. intro. apply sec_set_elem. intro; exact I.
Qed.

Lemma shape_seek off r : shape false (V2Buffer.seek off r).
Proof.
  unfold V2Buffer.seek. apply (shape_locked any). destruct r; cbn; intros; split; reflexivity || exact I.
Qed.
Lemma shape_seekbit off r : shape false (V2Buffer.seekbit off r).
Proof.
  unfold V2Buffer.seekbit. apply (shape_locked any). destruct r; cbn; intros; split; reflexivity || exact I.
Qed.
Lemma shape_alignbit : shape false V2Buffer.alignbit.
Proof. unfold V2Buffer.alignbit. apply (shape_locked any). cbn. intros; split; reflexivity || exact I. Qed.
Lemma shape_alignbyte : shape false V2Buffer.alignbyte.
Proof. unfold V2Buffer.alignbyte. apply (shape_locked any). cbn. intros; split; reflexivity || exact I. Qed.

(** Several stores in one section. *)
Lemma sec_stores bits w off i data l w0 : single = false -> sec false w0 any (stores bits w off i data l).
Proof.
  intro S. revert w0. induction l as [|[k sh] r IH]; intro w0; cbn [stores]. exact I.
  assert (H : forall w1 a, sec false w1 any (buf_set (off +! cidx w k i) (sbyte bits a sh))).
  { intros. apply sec_buf_set; [congruence|exact I]. }
  destruct r.
  - apply (sec_bind hdr single rd any); [intros; apply H|apply sec_elem; intro; exact I].
  - apply (sec_bind hdr single rd any); [|apply sec_elem; intro; exact I].
    intros w1 a _. apply (sec_bind hdr single rd any); [intros; apply IH|apply H].
Qed.
Lemma shape_WriteU t off d : single = false -> shape false (WriteU t off d).
Proof.
  intro S. rewrite WriteU_canon. cbn [get bind ConcLemmas.shape]. do 2 apply shape_panic_if.
  apply shape_lock_unlock. rewrite MiniWriteT_canon. apply sec_goto; [|exact (fun _ _ => I)].
  intros. now apply sec_stores.
Qed.
Lemma shape_write off d : rd (s_blk d) -> single = false \/ s_len d <= 1 -> shape false (V2Buffer.write off d).
Proof.
  intros R S. unfold V2Buffer.write. cbn [get bind ConcLemmas.shape]. do 2 apply shape_panic_if.
  apply shape_lock_unlock.
  assert (B : forall w i, (single = true -> w = false) -> sec false w any (x <- slice_get d i ;; buf_set (off +! i) x)).
  { intros w i Hw. apply (sec_bind hdr single rd (fun w' _ => w' = w)).
    - intros w' a ->. apply sec_buf_set; auto. exact I.
    - now apply sec_slice_get. }
  destruct S as [S|S].
  - apply sec_goto; [|exact (fun _ _ => I)]. intros w i a. apply B. congruence.
  - unfold goto_loop. set (fuel := Z.to_nat (s_len d)). cbn [dw].
    apply (sec_bind hdr single rd any); [|now apply B].
    intros w a _. cbv zeta. change (0 +! 1) with 1. replace (1 <? s_len d) with false by lia. exact I.
Qed.
Lemma shape_allbits f : single = false ->
  shape false (locked (s <- get_buf ;; goto_loop (s_len s) (fun i (_ : unit) => buf_set i f) tt)).
Proof.
  intro S. apply (shape_locked any). cbn [get_buf bind ConcLemmas.sec]. apply sec_goto; [|exact (fun _ _ => I)].
  intros. apply sec_buf_set; [congruence|exact I].
Qed.
Lemma shape_flipallbits : single = false -> shape false V2Buffer.flipallbits.
Proof.
  intro S. apply (shape_locked any). cbn [get_buf bind ConcLemmas.sec]. apply sec_goto; [|exact (fun _ _ => I)].
  intros. apply (sec_bind hdr single rd any); [|apply sec_buf_get; intro; exact I].
  intros. apply sec_buf_set; [congruence|exact I].
Qed.

Hypothesis hdr_len : 0 <= s_len hdr < 2 ^ 60.

Lemma shape_refresh : shape false V2Buffer.refresh.
Proof.
  apply (shape_locked any). cbn. rewrite mul64_id by (unfold is_i64; lia).
  split; [reflexivity|]. split; [reflexivity|]. split; [reflexivity|]. split; [lia|exact I].
Qed.
Lemma shape_afterbit o : shape false (V2Buffer.afterbit o).
Proof. destruct o; cbn; auto. Qed.
Lemma shape_after o : shape false (V2Buffer.after o).
Proof. destruct o; cbn; auto. Qed.
Lemma shape_ReadByte off : single = true -> shape false (V2Buffer.ReadByte off).
Proof.
  intro S. unfold V2Buffer.ReadByte, V2Buffer.read. cbn [get bind ConcLemmas.shape].
  destruct (_ >? _); cbn [panic_if bind ConcLemmas.shape]; auto.
  destruct (_ <? _); cbn [panic_if bind ConcLemmas.shape]; auto.
  unfold locked. cbn [bind lock get_buf finally ConcLemmas.shape]. split; auto. right.
  unfold reslice. destruct (_ && _); cbn [finally bind unlock ConcLemmas.shape]; auto.
  split; auto. unfold slice_get. destruct (_ && _); cbn; auto.
Qed.

End V2Shapes.

(** ** Every call of the class is ready to be interleaved *)

Section V2Pre.
Variable pol : Z -> Z -> Z.
Variable s0 : St.
Hypothesis s0_wf : WF s0.

Notation hdr := (b_buf (bb s0)).
Notation h0 := (heap s0).

Lemma knows_nth K h b : knows hdr h0 K h -> b <> s_blk hdr -> (b < length h0)%nat -> nth b h [] = nth b h0 [].
Proof. intros [Kn _] N L. apply nth_error_nth. rewrite Kn by auto. now apply nth_error_nth'. Qed.

Lemma knows_arg K h d : knows hdr h0 K h -> s_blk d <> s_blk hdr -> wf_slice h0 d ->
  wf_slice h d /\ slice_bytes h d = slice_bytes h0 d.
Proof.
  intros Kn N (L & W). unfold wf_slice, slice_bytes.
  rewrite (knows_nth K h) by auto. split; [split; [|exact W]|reflexivity].
  destruct Kn as [Kn _]. apply nth_error_Some. rewrite Kn by auto. now apply nth_error_Some.
Qed.

Definition arg_apart (c : call2 slice) : Prop :=
  match c with At2 _ (PWriteBytes d) => apart s0 d | _ => True end.
Definition no_next (c : call2 slice) : Prop :=
  match c with Next2 _ | KGrow _ | KReset | KBytes | At2 _ (PReadBytes _) => False | _ => True end.

Lemma knows_call K s c : knows hdr h0 K (heap s) -> b_buf (bb s) = hdr -> no_next c ->
  valid_call2 s0 c -> arg_apart c ->
  valid_call2 s c /\ view_call2 (heap s) c = view_call2 h0 c /\
  match c with At2 _ (PWriteBytes d) => apart s d | _ => True end.
Proof.
  intros Kn Hb NN V A. destruct c; try contradiction; auto. destruct o; auto.
  cbn [valid_call2 valid_op2 arg_apart view_call2 view_op2] in *. destruct V as [V1 V2].
  destruct (knows_arg K (heap s) d Kn A V2) as [W E]. unfold wf_arg, apart. rewrite Hb, E. auto.
Qed.

Lemma sem_call K c : no_next c -> valid_call2 s0 c -> arg_apart c ->
  Sem (seq_v2 h0) keeps_mutex hdr h0 c false K (do2_call pol c).
Proof.
  intros NN V A s W Hb Kn M. destruct (knows_call K s c Kn Hb NN V A) as (V' & E & A').
  pose proof (v2_sequential pol s c W M V' A') as Q. pose proof (v2_call_safe pol s c W M V') as L.
  rewrite E in Q. unfold fits, seq_v2.
  assert (P : match run (do2_call pol c) s with Done v _ => plain_rv v | _ => True end).
  { clear - NN. destruct (run (do2_call pol c) s) as [v s'| | |] eqn:R; auto.
    assert (X : forall X (p : prog X) (f : X -> rv slice), (forall x, plain_rv (f x)) ->
      run (x <- p ;; Ret (f x)) s = Done v s' -> plain_rv v).
    { intros X p f Hf. rewrite run_bind. destruct (run p s); try discriminate. cbn. intro Y. injection Y as <- _. auto. }
    destruct c as [off o|o| | | | | | | | | | | | | | | | | ]; try contradiction;
      [destruct o; try contradiction|..];
      (eapply X in R; [exact R|intro; exact I]). }
  destruct (seq_call (view_call2 h0 c) (abs s)) as [o|] eqn:SQ.
  2:{ destruct c as [off o|o| | | | | | | | | | | | | | | | | ]; try contradiction; discriminate. }
  destruct (run (do2_call pol c) s) as [v s'|e s'|s'|]; cbn [outcome_of] in Q; try contradiction.
  - destruct Q as (-> & W' & M'). auto.
  - destruct Q as (-> & W' & M'). split; auto. split; auto. intro X. split; auto.
    destruct e as [sc er|k]; cbn [lock_ok] in L; destruct L as [_ L]; congruence.
Qed.

Lemma hdr_small : 0 <= s_len hdr < 2 ^ 60.
Proof.
  pose proof (wf_slice_cap_max _ _ (wf_h s0 s0_wf) (wf_sl s0 s0_wf)) as X. rewrite max_alloc_val in X.
  destruct (wf_sl s0 s0_wf) as (_ & _ & H & _). lia.
Qed.

(** WriteByte builds its one-byte slice first. *)
Lemma pre_writebyte single off v : is_i64 off -> is_byte v ->
  Pre (seq_v2 h0) keeps_mutex hdr single h0 (At2 off (PWriteByte v)) [] (do2_call pol (At2 off (PWriteByte v))).
Proof.
  intros Ho Hv.
  apply (Pre_alloc _ _ _ _ _ _ [] [v] (fun n => ret_unit (V2Buffer.WriteBytes off (mkSlice n 0 1 1)))).
  { now constructor. } { rewrite max_alloc_val; now vm_compute. }
  intros n _. apply Pre_ready.
  - intros s W Hb Kn M. destruct Kn as [Kn KF]. inversion KF as [|x y (N1 & _ & N2) KF' E]; subst. cbn [fst snd] in *.
    set (d := mkSlice n 0 1 1).
    assert (Nn : nth n (heap s) [] = [v]) by (now apply nth_error_nth).
    assert (Wd : wf_slice (heap s) d).
    { unfold wf_slice, d; cbn [s_blk s_off s_len s_cap]. rewrite Nn. split; [|repeat split; try lia; now vm_compute].
      apply nth_error_Some. congruence. }
    assert (Sd : slice_bytes (heap s) d = [v]).
    { unfold slice_bytes, d; cbn [s_blk s_off s_len s_cap]. now rewrite Nn. }
    assert (R : outcome_of (run (ret_unit (V2Buffer.WriteBytes off d)) s) (seq_store off [v] (abs s))).
    { apply (store_outcome s off _ _ s); auto.
      rewrite v2_WriteBytes by auto. change (s_len d) with 1. rewrite Sd. change (zlen [v]) with 1.
      rewrite smear_clean; auto. left. unfold lag. replace (Nat.eqb _ _) with false; auto.
      symmetry. apply Nat.eqb_neq. now rewrite Hb. }
    change (mkSlice n 0 1 1) with d.
    unfold fits, seq_v2. cbn [view_call2 view_op2 seq_call seq_at].
    assert (P : match run (ret_unit (V2Buffer.WriteBytes off d)) s with Done v _ => plain_rv v | _ => True end).
    { unfold ret_unit. rewrite run_bind. destruct (run (V2Buffer.WriteBytes off d) s); cbn; auto. }
    destruct (run (ret_unit (V2Buffer.WriteBytes off d)) s) as [w s'|e s'|s'|]; cbn [outcome_of] in R; try contradiction.
    + destruct R as (-> & W' & M'). auto.
    + destruct R as (-> & W' & M'). split; auto. split; auto. intro X. split; auto.
  - unfold ret_unit. apply shape_wrap; [intro; exact I|].
    apply shape_write; [right; right; now left|right; cbn; lia].
Qed.

Ltac packed := apply shape_wrap; [intro; exact I|].

Lemma pre_atomic c : valid_call2 s0 c -> atomic_call s0 c ->
  Pre (seq_v2 h0) keeps_mutex hdr false h0 c [] (do2_call pol c).
Proof.
  intros V A. pose proof hdr_small as HS.
  assert (G : no_next c -> arg_apart c -> shape hdr false (rd hdr h0 []) false (do2_call pol c) ->
    Pre (seq_v2 h0) keeps_mutex hdr false h0 c [] (do2_call pol c)).
  { intros. apply Pre_ready; auto. now apply sem_call. }
  destruct c as [off o|o| | | | | | | | | | | | | | | | | ]; try contradiction;
    [destruct o; try contradiction|..];
    cbn [do2_call do2_at] in *; unfold ret_unit, ret_int, ret_nums in *.
  5: { apply pre_writebyte; apply V. }
  all: apply G; try exact I; try exact A; packed.
  - apply shape_readbit; now left.
  - apply shape_setbit; now left.
  - apply shape_flipbit; now left.
  - apply shape_write; auto. right. left. apply V.
  - now apply shape_WriteU.
  - apply shape_ReadU; now left.
  - now apply shape_allbits.
  - now apply shape_allbits.
  - apply shape_flipallbits; auto. now left.
  - apply shape_seekbit.
  - apply shape_seek.
  - apply shape_afterbit.
  - apply shape_after.
  - apply shape_alignbit.
  - apply shape_alignbyte.
  - now apply shape_refresh.
  - reflexivity.
  - reflexivity.
  - cbn. auto.
  - cbn. auto.
Qed.

Lemma pre_single c : valid_call2 s0 c -> single_call s0 c ->
  Pre (seq_v2 h0) keeps_mutex hdr true h0 c [] (do2_call pol c).
Proof.
  intros V A. pose proof hdr_small as HS.
  assert (G : no_next c -> arg_apart c -> shape hdr true (rd hdr h0 []) false (do2_call pol c) ->
    Pre (seq_v2 h0) keeps_mutex hdr true h0 c [] (do2_call pol c)).
  { intros. apply Pre_ready; auto. now apply sem_call. }
  destruct c as [off o|o| | | | | | | | | | | | | | | | | ]; try contradiction;
    [destruct o; try contradiction|..];
    cbn [do2_call do2_at] in *; unfold ret_unit, ret_int, ret_nums in *.
  5: { apply pre_writebyte; apply V. }
  all: apply G; try exact I; try exact (proj1 A); packed.
  - apply shape_readbit; now left.
  - apply shape_setbit; now left.
  - apply shape_flipbit; now left.
  - apply shape_write. right. left. apply V. right. apply A.
  - now apply shape_ReadByte.
  - apply shape_ReadU; now left.
  - apply shape_seekbit.
  - apply shape_seek.
  - apply shape_afterbit.
  - apply shape_after.
  - apply shape_alignbit.
  - apply shape_alignbyte.
  - now apply shape_refresh.
  - reflexivity.
  - reflexivity.
  - cbn. auto.
  - cbn. auto.
Qed.

End V2Pre.
