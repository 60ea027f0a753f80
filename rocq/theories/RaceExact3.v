(** * RaceExact3: calls of a v1 or v2 [MiniBuffer] at fixed places race exactly if they conflict. *)
From Coq Require Import ZArith List Bool Lia Arith ZifyBool.
From Verif Require Import GoSem Errors Spec GoLemmas GoBinary Typed TypedCanon V3ByteLemmas Calls Abs Frame Sim MiniAbs MiniSim Conc Race.
From Verif Require Import OldCalls V2Lemmas V1Lemmas V1Calls Abs2 Sim2 MiniAbs2 MiniSim2.
From Verif Require Import RaceSpec3 Race3 AloneSpec Alone RaceMiniSpec RaceMini RaceSpec RaceMiniSpec2 RaceMini2 RaceLog RaceExact ExactSpec RaceExact2 ExactSpec2 AloneMiniSpec AloneMini.
From Verif Require V1Buffer V1Mini V2Mini.
Import ListNotations.
Open Scope Z_scope.
Open Scope list_scope.

(** ** Programs without a mutex *)

Lemma lockless_fl {S} n (b : Z -> S -> prog S) : (forall i a, lockless (b i a)) -> forall f i a, lockless (fl f n b i a).
Proof. intro H. induction f as [|f IH]; intros i a; cbn [fl]; destruct (i <? n); cbn; auto. apply lockless_bind; auto. Qed.
Lemma lockless_dw {S} n (b : Z -> S -> prog S) : (forall i a, lockless (b i a)) -> forall f i a, lockless (dw f n b i a).
Proof. intro H. induction f as [|f IH]; intros i a; cbn [dw]; [exact I|]. apply lockless_bind; auto. intro x. cbv zeta. destruct (_ <? n); cbn; auto. Qed.
Lemma lockless_get s i : lockless (slice_get s i).
Proof. unfold slice_get. destruct (_ && _); cbn; auto. Qed.
Lemma lockless_set s i x : lockless (slice_set s i x).
Proof. unfold slice_set. destruct (_ && _); cbn; auto. Qed.
Lemma lockless_buf_get i : lockless (buf_get i).
Proof. unfold buf_get. cbn. intro s. apply lockless_get. Qed.
Lemma lockless_buf_set i x : lockless (buf_set i x).
Proof. unfold buf_set. cbn. intro s. apply lockless_set. Qed.
Lemma lockless_reslice s i j : lockless (reslice s i j).
Proof. unfold reslice. destruct (_ && _); cbn; auto. Qed.
Lemma lockless_set_elem a i x : lockless (set_elem a i x).
Proof. unfold set_elem. destruct (_ && _); cbn; auto. Qed.
Lemma lockless_elem a i : lockless (elem a i).
Proof. unfold elem. destruct (_ && _); cbn; auto. Qed.
Lemma lockless_make w n : lockless (make_elems w n).
Proof. unfold make_elems. destruct (_ && _); cbn; auto. Qed.
Lemma lockless_make_bytes n m : lockless (make_bytes n m).
Proof. unfold make_bytes. destruct (_ && _); cbn; auto. Qed.
Lemma lockless_stores b k l : lockless (store_all b k l).
Proof. revert k. induction l as [|x l IH]; intro k; cbn [store_all]; [exact I|]. apply lockless_bind; auto using lockless_set. Qed.
Lemma lockless_copy b d w i l : lockless (V1Buffer.copy_digits b d w i l).
Proof. induction l as [|x l IH]; cbn [V1Buffer.copy_digits]; [exact I|]. apply lockless_bind; [apply lockless_get|]. intro y. apply lockless_bind; [apply lockless_set|auto]. Qed.
Lemma lockless_uints t s : lockless (uints t s).
Proof. destruct t; cbn [uints]; unfold uint16, uint32, uint64; repeat (apply lockless_bind; [apply lockless_get|intro]); exact I. Qed.
Create HintDb ll.
#[local] Hint Resolve lockless_get lockless_set lockless_buf_get lockless_buf_set lockless_reslice lockless_set_elem lockless_elem lockless_make
  lockless_make_bytes lockless_stores lockless_copy lockless_uints : ll.

Lemma lockless_write_loop off d : lockless (V2Mini.write off d).
Proof. unfold V2Mini.write. apply lockless_dw. intros i a. apply lockless_bind; auto with ll. Qed.
Lemma lockless_complex t off l : lockless (V1Mini.WriteComplex off (idata_of t l) (tsize (fmt t)) (order_of t)).
Proof.
  unfold V1Mini.WriteComplex, V1Mini.writeComplex. rewrite complex_bytes_canon. apply lockless_bind; [|intro d; apply lockless_write_loop].
  apply lockless_bind; auto with ll. intro b. apply lockless_bind; [|intro; exact I].
  unfold V1Buffer.put_loop. apply lockless_fl. intros i a. apply lockless_bind; [cbn; auto|]. intro b2. apply lockless_bind; auto with ll.
  intro y. apply lockless_bind; auto with ll.
Qed.
Lemma lockless_old v pol c : placed_old c -> old_mini_method v c = true -> lockless (old_mini v pol c).
Proof.
  intros P MM. destruct v; cbn [old_mini].
  - assert (D : builds V1 c \/ ~ builds V1 c) by (destruct c as [? []| | | | | | | | | | | | | | | | | |]; cbn; tauto).
    destruct D as [D|D].
    + destruct c as [off []| | | | | | | | | | | | | | | | | |]; cbn in D; try contradiction. cbn [mini1_call mini1_at].
      apply lockless_bind; [apply lockless_complex|intro; exact I].
    + apply still_lockless, still_v1; auto. destruct c; try contradiction; exact I.
  - apply still_lockless, still_v2; auto. destruct c; try contradiction; exact I.
Qed.

(** ** The bytes of a call *)

(** A loop of v1 that returns has made all its rounds. *)
Lemma post_for {S} n (b : Z -> S -> prog S) a s (I : St -> Prop) (H : Z -> list access -> Prop) : n < 2 ^ 63 ->
  (forall i l l', (forall x, In x l -> In x l') -> H i l -> H i l') ->
  (forall i a s, I s -> 0 <= i < n -> post (b i a) s (fun _ s' l => I s' /\ H i l)) -> I s ->
  post (for_loop n b a) s (fun _ s' l => I s' /\ forall i, 0 <= i < n -> H i l).
Proof.
  intros N M B I0. unfold for_loop.
  assert (G : forall f j a s, I s -> 0 <= j ->
    post (fl f n b j a) s (fun _ s' l => I s' /\ forall i, j <= i < n -> H i l)).
  { clear I0 s a. induction f as [|f IH]; intros j a s I0 J; cbn [fl]; destruct (Z.ltb_spec j n) as [L|L].
    - intros ? ? E; discriminate E.
    - apply post_ret. split; auto. intros i Hi. lia.
    - apply post_bind. eapply post_weaken; [apply (B j a s I0); lia|]. cbv beta zeta. intros a1 s1 l1 [I1 H1].
      rewrite add64_id by (unfold is_i64; lia). eapply post_weaken; [apply IH; [exact I1|lia]|]. cbv beta. intros a2 s2 l2 [I2 H2]. split; auto. intros i Hi.
      destruct (Z.eq_dec i j) as [->|].
      + eapply M; [|exact H1]. intros x X. apply in_or_app. now left.
      + eapply M; [|apply H2; lia]. intros x X. apply in_or_app. now right.
    - apply post_ret. split; auto. intros i Hi. lia. }
  intros x s' E. destruct (G _ 0 a s I0 ltac:(lia) x s' E) as [G1 G2]. split; auto.
Qed.
(** The rounds of both kinds of loop. *)
Definition rounds (v : version) (n : Z) : Z := match v with V1 => n | V2 => Z.max n 1 end.
Lemma post_loop {S} v n (b : Z -> S -> prog S) a s (I : St -> Prop) (H : Z -> list access -> Prop) : n < 2 ^ 63 ->
  (forall i l l', (forall x, In x l -> In x l') -> H i l -> H i l') ->
  (forall i a s, I s -> 0 <= i < rounds v n -> post (b i a) s (fun _ s' l => I s' /\ H i l)) -> I s ->
  post (loop v n b a) s (fun _ s' l => I s' /\ forall i, 0 <= i < rounds v n -> H i l).
Proof.
  destruct v; cbn [rounds loop]; [apply post_for|]. rewrite Z.max_comm. apply post_goto.
Qed.

Section Hits.
Variable B : Buf.
Notation len := (s_len (b_buf B)).
Hypothesis len_max : 0 <= len <= 2 ^ 48.
Hypothesis cap_len : b_cap B = len.
Notation at_byte := (at_byte B).
Notation covers := (covers B).

Lemma loop_bits {S} v w off n (b : Z -> S -> prog S) a s : is_i64 off -> is_i64 n ->
  (forall i a s, bb s = B -> post (b i a) s (fun _ s' l => bb s' = B /\ at_byte w (quo (off +! i) 8) l)) -> bb s = B ->
  post (loop v n b a) s (fun _ s' l => bb s' = B /\
    forall i, 0 < rounds v n -> Z.quot off 8 <= i <= Z.quot (off + rounds v n - 1) 8 -> at_byte w i l).
Proof.
  intros Ho Hn H E. eapply post_weaken.
  - apply (post_loop v n b a s (fun s => bb s = B) (fun i l => at_byte w (quo (off +! i) 8) l)); auto; [unfold is_i64 in Hn; lia|].
    intros. eapply at_byte_mono; eauto.
  - cbv beta. intros x s' l [E1 H1]. split; auto. intros i P Hi. apply (bits_cover B len_max w off n l); auto.
    + intros j J. apply H1. destruct v; cbn [rounds] in *; lia.
    + destruct v; cbn [rounds] in *; [replace (Z.max n 1) with n by lia|]; exact Hi.
Qed.

Lemma post_v_readbit v off s : bb s = B -> post (v_readbit v off) s (fun _ s' l => bb s' = B /\ at_byte false (quo off 8) l).
Proof.
  intro E. destruct v; cbn [v_readbit]; [unfold V1Mini.readbit|unfold V2Mini.readbit]; (apply post_bind; eapply post_weaken; [apply (post_buf_get B); auto|];
  cbv beta; intros v s1 l [E1 H]; apply post_ret; split; auto; now rewrite app_nil_r).
Qed.
Lemma post_v_setbit v off d s : bb s = B -> post (v_setbit v off d) s (fun _ s' l => bb s' = B /\ at_byte true (quo off 8) l).
Proof.
  intro E. destruct v; cbn [v_setbit]; [unfold V1Mini.setbit|unfold V2Mini.setbit];
    (destruct (d =? 0); [apply (post_change B off (fun x => Z.land x _)); auto|]; destruct (d =? 1); [apply (post_change B off (fun x => Z.lor x _)); auto|intros a s' R; discriminate R]).
Qed.
Lemma post_v_flipbit v off s : bb s = B -> post (v_flipbit v off) s (fun _ s' l => bb s' = B /\ at_byte true (quo off 8) l).
Proof.
  intro E. destruct v; cbn [v_flipbit]; [unfold V1Mini.flipbit|unfold V2Mini.flipbit]; now apply (post_change B off (fun x => Z.lxor x _)).
Qed.

Lemma post_slice_get d i s : post (slice_get d i) s (fun _ s' l => s' = s /\ l = [Rd (LByte (s_blk d) (s_off d + i))]).
Proof.
  intros a s' R. unfold slice_get in *. destruct (_ && _); [|discriminate]. cbn [run log] in *.
  destruct (heap_read _ _ _ _) as [[|x [|? ?]]|]; try discriminate. injection R as _ <-. auto.
Qed.
Lemma post_v_write v off d s : is_i64 off -> s_len d <= 2 ^ 48 -> bb s = B ->
  post (v_write v off d) s (fun _ s' l => bb s' = B /\ forall i, off <= i < off + s_len d -> at_byte true i l).
Proof.
  intros Ho L E.
  assert (X : v_write v off d = goto_loop (s_len d) (fun i _ => x <- slice_get d i ;; buf_set (off +! i) x) tt) by (destruct v; reflexivity).
  rewrite X. eapply post_weaken.
  - apply (post_goto (s_len d) _ tt s (fun s => bb s = B) (fun i l => at_byte true (off +! i) l)); auto.
    + change (2 ^ 48) with 281474976710656 in *. lia.
    + intros. eapply at_byte_mono; eauto.
    + intros i a s1 E1 _. apply post_bind. eapply post_weaken; [apply post_slice_get|]. cbv beta. intros x s2 l [-> _].
      eapply post_weaken; [apply (post_buf_set B); auto|]. cbv beta. intros u s3 l3 [E3 H3]. split; auto. now apply at_byte_right.
  - cbv beta. intros a s' l [E1 H1]. split; auto. intros i Hi. apply (nums_cover B len_max cap_len true 1 off (s_len d) l); auto; try lia.
    intros j k J K. assert (k = 0) as -> by lia. unfold cidx. rewrite Z.eqb_refl. rewrite mul64_id.
    + replace (j * 1) with j by lia. now apply H1.
    + unfold is_i64. change (2 ^ 48) with 281474976710656 in *. lia.
Qed.

(** The integers of v1. *)
Lemma post_uints t d s : post (uints t d) s (fun _ s' l => s' = s /\ forall k, 0 <= k < tsize (fmt t) -> In (Rd (LByte (s_blk d) (s_off d + k))) l).
Proof.
  assert (ONE : forall i (k : Z -> prog Z) (Q : list access -> Prop), (forall x, post (k x) s (fun _ s' l => s' = s /\ Q (Rd (LByte (s_blk d) (s_off d + i)) :: l))) ->
    post (bind (slice_get d i) k) s (fun _ s' l => s' = s /\ Q l)).
  { intros i k Q H. apply post_bind. eapply post_weaken; [apply post_slice_get|]. cbv beta. intros x s1 l [-> ->]. apply H. }
  assert (END : forall (x : Z) (Q : list access -> Prop), Q [] -> post (Ret x) s (fun _ s' l => s' = s /\ Q l)).
  { intros x Q H. apply post_ret. auto. }
  destruct t; cbn [uints]; unfold uint16, uint32, uint64; cbn [fmt];
    match goal with |- context [tsize ?x] => let y := eval cbv in (tsize x) in change (tsize x) with y end;
    (do 8 (try (match goal with |- post (bind _ _) _ (fun _ s' l => s' = s /\ @?Q l) => apply (ONE _ _ Q); intro; cbv beta end)));
    (match goal with |- post (Ret _) _ (fun _ s' l => s' = s /\ @?Q l) => apply (END _ Q); cbv beta end); intros k K;
    (assert (D : k = 0 \/ k = 1 \/ k = 2 \/ k = 3 \/ k = 4 \/ k = 5 \/ k = 6 \/ k = 7) by lia);
    (destruct D as [->|[->|[->|[->|[->|[->|[->| ->]]]]]]]; try lia; cbn; auto 20).
Qed.
Lemma post_reslice d i j s : post (reslice d i j) s (fun x s' l => s' = s /\ l = [] /\ 0 <= i /\ s_blk x = s_blk d /\ s_off x = s_off d + i).
Proof. intros x s' R. unfold reslice in *. destruct (_ && _) eqn:C; [|discriminate]. injection R as <- <-. repeat split; auto. lia. Qed.
Lemma post_v1_read t off n s : is_i64 off -> is_i64 n -> off + n * tsize (fmt t) <= len -> bb s = B ->
  post (V1Mini.ReadComplex off n (tsize (fmt t)) (order_of t)) s
    (fun _ s' l => bb s' = B /\ forall i, off <= i < off + n * tsize (fmt t) -> at_byte false i l).
Proof.
  intros Ho Hn F E. rewrite mini1_readComplex_canon. pose proof (tsize_range (fmt t)) as TS.
  unfold V1Mini.read. apply post_bind, post_bind, post_get_buf.
  rewrite E. eapply post_weaken; [apply post_reslice|]. cbv beta. intros d s1 l1 (-> & -> & C & D1 & D2).
  apply post_bind. unfold V1Buffer.decode_loop. apply post_bind. eapply post_weaken; [apply post_make|]. cbv beta. intros x s1 l2 [-> ->].
  assert (W : n * tsize (fmt t) <= 2 ^ 48) by lia. change (2 ^ 48) with 281474976710656 in *.
  eapply post_weaken.
  - apply (post_for n _ x s (fun s => bb s = B) (fun i l => forall k, 0 <= k < tsize (fmt t) -> at_byte false (off + (i * tsize (fmt t) + k)) l)); auto.
    + unfold is_i64 in Hn; lia.
    + intros i l l' M H k K. eapply at_byte_mono; eauto.
    + intros i a s2 E2 Hi. assert (i * tsize (fmt t) + tsize (fmt t) <= n * tsize (fmt t)) by nia.
      rewrite (add64_id i 1) by (unfold is_i64; lia). rewrite !mul64_id by (unfold is_i64; nia).
      apply post_bind. eapply post_weaken; [apply post_reslice|]. cbv beta. intros sl s3 l3 (-> & -> & C1 & D3 & D4).
      apply post_bind. eapply post_weaken; [apply post_uints|]. cbv beta. intros y s3 l4 [-> H3]. rewrite D3, D4, D1, D2 in H3.
      intros z s4 R. unfold set_elem in *. destruct (_ && _); [|discriminate]. cbn [run log] in *. injection R as <- <-. split; auto.
      intros k K. split; [|nia]. eexists. split; [cbn [app]; apply in_or_app; left; apply (H3 k K)|]. right. split; auto. cbn. f_equal. lia.
  - cbv beta. intros a s' l [E1 H1]. apply post_ret. split; auto. intros i Hi. cbn [app]. rewrite ?app_nil_r. apply at_byte_cons.
    assert (I : 0 <= i - off) by lia. pose proof (Z.div_mod (i - off) (tsize (fmt t)) ltac:(lia)). pose proof (Z.mod_pos_bound (i - off) (tsize (fmt t)) ltac:(lia)).
    set (q := (i - off) / tsize (fmt t)) in *. set (k := (i - off) mod tsize (fmt t)) in *.
    specialize (H1 q ltac:(split; nia) k ltac:(lia)). replace (off + (q * tsize (fmt t) + k)) with i in H1 by lia. exact H1.
Qed.
Lemma post_v1_write t off l s : is_i64 off -> wf_data (tsize (fmt t)) l -> bb s = B ->
  post (V1Mini.WriteComplex off (idata_of t l) (tsize (fmt t)) (order_of t)) s
    (fun _ s' a => bb s' = B /\ forall i, off <= i < off + zlen l * tsize (fmt t) -> at_byte true i a).
Proof.
  intros Ho Hd E. unfold V1Mini.WriteComplex, V1Mini.writeComplex. apply post_bind. intros d s1 R. rewrite run_complex_bytes in R by auto. injection R as <- <-.
  eapply post_weaken.
  - apply (post_v_write V1 off (fresh s (zlen l * tsize (fmt t))) (scratch t l s)); auto.
  - cbv beta. intros a s' x [E1 H1]. split; auto. intros i Hi. apply at_byte_right. apply H1. exact Hi.
Qed.

(** ** Every call *)

Lemma post_out_int p s (Q : St -> list access -> Prop) : (forall s' l, Q s' l -> Q s' (l ++ [Rd LOut])) -> post p s (fun _ s' l => Q s' l) ->
  post (bind p (fun _ : unit => out_int)) s (fun _ s' l => Q s' l).
Proof. intros M H. apply post_bind. eapply post_weaken; [exact H|]. cbv beta. intros a s' l X v s1 R. cbn [out_int run log] in *. injection R as _ <-. auto. Qed.
Lemma post_out_nums p s (Q : St -> list access -> Prop) : (forall s' l, Q s' l -> Q s' (l ++ [Rd LOut])) -> post p s (fun _ s' l => Q s' l) ->
  post (bind p (fun _ : unit => out_nums)) s (fun _ s' l => Q s' l).
Proof. intros M H. apply post_bind. eapply post_weaken; [exact H|]. cbv beta. intros a s' l X v s1 R. cbn [out_nums run log] in *. injection R as _ <-. auto. Qed.
Lemma post_ret_idata t p s (Q : St -> list access -> Prop) : post p s (fun _ s' l => Q s' l) -> post (ret_idata t p) s (fun _ s' l => Q s' l).
Proof.
  intro H. unfold ret_idata. apply post_bind. eapply post_weaken; [exact H|]. cbv beta. intros a s' l X. destruct (nums_of t a).
  - apply post_ret. now rewrite app_nil_r.
  - intros v s1 R. discriminate R.
Qed.

Lemma post_old_at v off o s : is_i64 off -> valid_op2 s o -> on_bytes B (At2 off o) -> s_len (match o with PWriteBytes d => d | _ => b_buf B end) <= 2 ^ 48 -> bb s = B ->
  post (old_mini_at v off o) s (fun _ s' l => bb s' = B /\ covers (old_span v off o) (fun i => writing o && old_span v off o i) l).
Proof.
  intros Ho V D L E.
  assert (KEEP : forall o s' l, bb s' = B /\ covers (old_span v off o) (fun i => false && old_span v off o i) l ->
    bb s' = B /\ covers (old_span v off o) (fun i => false && old_span v off o i) (l ++ [Rd LOut])).
  { intros o' s' l [X Y]. split; auto. intro i. split; [discriminate|]. intro Z. apply at_byte_left. now apply Y. }
  destruct o as [|n|d|d n| |d|x|n| |t d|t n]; cbn [writing]; cbn [valid_op2] in V.
  - replace (old_mini_at v off PReadBit) with (ret_int (v_readbit v off)) by (destruct v; reflexivity).
    apply post_ret_int. eapply post_weaken; [now apply post_v_readbit|]. cbv beta. intros a s' l (E1 & H1). split; auto.
    intro i. split; [discriminate|]. unfold old_span, quo in *. intro X. replace (off + 1 - 1) with off in X by lia. replace i with (Z.quot off 8) by lia. exact H1.
  - replace (old_mini_at v off (PReadBits n)) with (bind (v_readbits v off n) (fun _ => out_int)) by (destruct v; reflexivity).
    apply (post_out_int _ _ (fun s' l => bb s' = B /\ covers (old_span v off (PReadBits n)) (fun i => false && old_span v off (PReadBits n) i) l)); [apply KEEP|].
    replace (v_readbits v off n) with (loop v n (fun i _ => bout <- v_readbit v (off +! i) ;; GetOuts (fun out => SetOuts [Z.lor (ushl 64 (hd 0 out) 1) bout] (Ret tt))) tt) by (destruct v; reflexivity).
    eapply post_weaken; [apply (loop_bits v false off n); auto|].
    + intros i a s1 E1. apply post_bind. eapply post_weaken; [now apply post_v_readbit|]. cbv beta. intros w s2 l [E2 H2] u s3 R.
      cbn [run log] in *. injection R as _ <-. split; auto. now apply at_byte_left.
    + cbv beta. intros a s' l [E1 H1]. split; auto. intro i. split; [discriminate|]. unfold old_span. fold (rounds v n). intro X. apply H1; lia.
  - replace (old_mini_at v off (PSetBit d)) with (ret_unit (v_setbit v off d)) by (destruct v; reflexivity).
    apply post_ret_unit. eapply post_weaken; [now apply post_v_setbit|]. cbv beta. intros a s' l (E1 & H1). split; auto.
    apply covers_same. intro i. unfold old_span, quo in *. intro X. replace (off + 1 - 1) with off in X by lia. replace i with (Z.quot off 8) by lia. exact H1.
  - destruct V as [V1 V2]. replace (old_mini_at v off (PSetBits d n)) with (ret_unit (v_setbits v off d n)) by (destruct v; reflexivity).
    apply post_ret_unit.
    replace (v_setbits v off d n) with (loop v n (fun i _ => v_setbit v (off +! i) (byte (Z.land (shr 64 d (uconv 64 (n -! i -! 1))) 1))) tt) by (destruct v; reflexivity).
    eapply post_weaken; [apply (loop_bits v true off n); auto|].
    + intros i a s1 E1. now apply post_v_setbit.
    + cbv beta. intros a s' l [E1 H1]. split; auto. apply covers_same. intro i. unfold old_span. fold (rounds v n). intro X. apply H1; lia.
  - replace (old_mini_at v off PFlipBit) with (ret_unit (v_flipbit v off)) by (destruct v; reflexivity).
    apply post_ret_unit. eapply post_weaken; [now apply post_v_flipbit|]. cbv beta. intros a s' l (E1 & H1). split; auto.
    apply covers_same. intro i. unfold old_span, quo in *. intro X. replace (off + 1 - 1) with off in X by lia. replace i with (Z.quot off 8) by lia. exact H1.
  - replace (old_mini_at v off (PWriteBytes d)) with (ret_unit (v_write v off d)) by (destruct v; reflexivity).
    apply post_ret_unit. eapply post_weaken; [now apply post_v_write|]. cbv beta. intros a s' l (E1 & H1). split; auto.
    apply covers_same. intro i. unfold old_span. cbn [andb]. intro X. apply H1. lia.
  - intros a s' R. destruct v; discriminate R.
  - intros a s' R. assert (bb s' = B).
    { assert (X : exists b, run (match v with V1 => V1Mini.read off n | V2 => V2Mini.read off n end) s = Done b s').
      { destruct v; cbn [old_mini_at mini1_at mini2_at] in R; unfold ret_bytes in R; rewrite run_bind in R;
        [change (V1Mini.ReadBytes off n) with (V1Mini.read off n) in R; destruct (run (V1Mini.read off n) s) as [b s1| | |] eqn:Y|change (V2Mini.ReadBytes off n) with (V2Mini.read off n) in R; destruct (run (V2Mini.read off n) s) as [b s1| | |] eqn:Y]; try discriminate; cbn in R; injection R as _ <-; eauto. }
      destruct X as [b X]. destruct v; unfold V1Mini.read, V2Mini.read, reslice in X; cbn [get_buf bind run] in X; (destruct (_ && _); [|discriminate]); injection X as _ <-; exact E. }
    split; auto. intro i. unfold old_span. rewrite andb_false_r. split; discriminate.
  - intros a s' R. destruct v; discriminate R.
  - destruct v; cbn [old_mini_at mini1_at mini2_at]; apply post_ret_unit.
    + eapply post_weaken; [now apply post_v1_write|]. cbv beta. intros a s' l [E1 H1]. split; auto.
      apply covers_same. intro i. unfold old_span. cbn [andb]. intro X. apply H1. lia.
    + rewrite MiniWriteU_v3. eapply post_weaken; [now apply (post_MiniWriteT B)|]. cbv beta. intros a s' l [E1 H1]. split; auto.
      apply covers_same. intro i. unfold old_span. cbn [andb]. intro X. apply H1. lia.
  - destruct v; cbn [old_mini_at mini1_at mini2_at].
    + apply post_ret_idata. cbn [on_bytes] in D. eapply post_weaken; [now apply post_v1_read|]. cbv beta. intros a s' l [E1 H1]. split; auto.
      intro i. split; [discriminate|]. unfold old_span. intro X. apply H1. lia.
    + apply (post_out_nums _ _ (fun s' l => bb s' = B /\ covers (old_span V2 off (PRead t n)) (fun i => false && old_span V2 off (PRead t n) i) l)); [apply KEEP|].
      rewrite MiniReadU_v3. eapply post_weaken; [now apply (post_MiniReadT B)|]. cbv beta. intros a s' l [E1 H1]. split; auto.
      intro i. split; [discriminate|]. unfold old_span. intro X. apply H1. lia.
Qed.

Definition within (c : call2 slice) (i : Z) : bool :=
  match c with At2 _ _ => true | _ => (0 <=? i) && (i <? len) end.

Lemma post_old v pol c s : placed_old c -> valid_call2 s c -> on_bytes B c -> old_mini_method v c = true ->
  (match c with At2 _ (PWriteBytes d) => s_len d <= 2 ^ 48 | _ => True end) -> bb s = B ->
  post (old_mini v pol c) s (fun _ s' l => bb s' = B /\
    covers (fun i => reads_old v c (Byte i) && within c i) (fun i => writes_old v c (Byte i) && within c i) l).
Proof.
  intros PL V D MM L E.
  assert (ALL : forall (b : Z -> unit -> prog unit), (forall i a s, bb s = B -> post (b i a) s (fun _ s' l => bb s' = B /\ at_byte true i l)) ->
    post (ret_unit (x <- get_buf ;; loop v (s_len x) b tt)) s (fun _ s' l => bb s' = B /\ forall i, 0 <= i < len -> at_byte true i l)).
  { intros b H. apply post_ret_unit. apply post_bind, post_get_buf. rewrite E. eapply post_weaken.
    - apply (post_loop v len b tt s (fun s => bb s = B) (fun i l => at_byte true i l)); auto.
      + change (2 ^ 48) with 281474976710656 in *. lia.
      + intros. eapply at_byte_mono; eauto.
    - cbv beta. intros a s' l (X1 & X2). split; auto. intros i Hi. apply at_byte_right. apply X2. destruct v; cbn [rounds]; lia. }
  destruct c as [off o| | | | | | |[x|]|[x|]| | | | | | | | | |]; try contradiction PL;
    try (destruct v; intros a s' R; cbn in R; injection R as _ <-; split; auto; intro i; split; discriminate).
  - cbn [reads_old writes_old within]. replace (old_mini v pol (At2 off o)) with (old_mini_at v off o) by (destruct v; reflexivity).
    eapply post_weaken; [apply post_old_at; auto; try apply V; destruct o; try lia; exact L|]. cbv beta. intros a s' l [E1 H1]. split; auto.
    intro i. rewrite !andb_true_r. apply H1.
  - replace (old_mini v pol KClearAllBits) with (ret_unit (x <- get_buf ;; loop v (s_len x) (fun i _ => buf_set i 0) tt)) by (destruct v; reflexivity).
    eapply post_weaken; [apply ALL; intros; now apply (post_buf_set B)|]. cbv beta. intros a s' l (E1 & H1). split; auto.
    intro i. cbn [reads_old writes_old within andb]. split; [|discriminate]. intro X. apply H1. lia.
  - replace (old_mini v pol KSetAllBits) with (ret_unit (x <- get_buf ;; loop v (s_len x) (fun i _ => buf_set i 255) tt)) by (destruct v; reflexivity).
    eapply post_weaken; [apply ALL; intros; now apply (post_buf_set B)|]. cbv beta. intros a s' l (E1 & H1). split; auto.
    intro i. cbn [reads_old writes_old within andb]. split; [|discriminate]. intro X. apply H1. lia.
  - replace (old_mini v pol KFlipAllBits) with (ret_unit (x <- get_buf ;; loop v (s_len x) (fun i _ => v <- buf_get i ;; buf_set i (not8 v)) tt)) by (destruct v; reflexivity).
    eapply post_weaken; [apply ALL|].
    { intros i a s1 E1. apply post_bind. eapply post_weaken; [now apply (post_buf_get B)|]. cbv beta. intros w s2 l [E2 H2].
      eapply post_weaken; [now apply (post_buf_set B)|]. cbv beta. intros u s3 l3 [E3 H3]. split; auto. now apply at_byte_right. }
    cbv beta. intros a s' l (E1 & H1). split; auto. apply covers_same. intros i. cbn [reads_old writes_old within andb]. intro X. apply H1. lia.
Qed.
End Hits.

(** ** Returning again *)

Lemma same_size_kept s0 s s' : same_size s0 s -> kept s s' -> bb s' = bb s -> same_size s0 s'.
Proof.
  intros (W & E & L & H) G E'. split; [apply G|]. split; [congruence|]. destruct (k_mem _ _ G) as [L' H']. split; [lia|].
  intros b Hb. destruct (H' b ltac:(lia)) as [X _]. rewrite X. now apply H.
Qed.
Lemma same_size_valid2 s0 s c : same_size s0 s -> valid_call2 s0 c -> valid_call2 s c.
Proof.
  intros S V. destruct c as [off o|o| | | | | | | | | | | | | | | | |]; cbn [valid_call2] in *; auto.
  - destruct V as [V1 V2]. split; auto. destruct o; cbn [valid_op2] in *; auto. unfold wf_arg in *. eapply same_size_arg; eauto.
  - destruct o; cbn [valid_op2] in *; auto. unfold wf_arg in *. eapply same_size_arg; eauto.
Qed.
Lemma set_outs_valid2 s c out : valid_call2 s c -> valid_call2 (set_outs s out) c.
Proof. destruct c as [off o|o| | | | | | | | | | | | | | | | |]; cbn [valid_call2]; auto; destruct o; auto. Qed.

Lemma old_store_ok s0 s off d d' : same_size s0 s -> WF s0 -> zlen d' = zlen d ->
  is_ok (old_mini_store off d' (abs s)) = is_ok (old_mini_store off d (abs s0)).
Proof.
  intros S W Z. destruct (same_size_len s0 s S W) as [L _]. unfold old_mini_store. cbn [abs a_bytes]. rewrite L, Z.
  repeat match goal with |- context [if ?b then _ else _] => destruct b end; reflexivity.
Qed.
Lemma old_at_ok v s0 s off o out : same_size s0 s -> WF s0 -> valid_op2 s0 o ->
  is_ok (fst (old_mini_abs_at v off (view_old_op s o) (abs s) out)) = is_ok (fst (old_mini_abs_at v off (view_old_op s0 o) (abs s0) out)).
Proof.
  intros S W V.
  assert (A : forall o, valid_opn s0 o -> is_ok (fst (mini_abs_at off (abs_opn s o) (abs s) out)) = is_ok (fst (mini_abs_at off (abs_opn s0 o) (abs s0) out)))
    by (intros; now apply mini_abs_at_ok).
  destruct o as [|n|d|d n| |d|x|n| |t d|t n]; cbn [view_old_op old_mini_abs_at]; cbn [valid_op2] in V.
  - exact (A OReadBit I).
  - destruct v; [destruct (n <=? 0); [reflexivity|]|]; exact (A (OReadBits n) V).
  - destruct (d =? 0); [exact (A OClearBit I)|]. destruct (d =? 1); [exact (A OSetBit I)|]. reflexivity.
  - destruct v; [destruct (n <=? 0); [reflexivity|]|]; exact (A (OSetBits d n) V).
  - exact (A OFlipBit I).
  - cbn [fst]. apply old_store_ok; auto. unfold copied. rewrite !zlen_smear. cbn [view_source src_bytes].
    rewrite !wf_slice_bytes_zlen; auto. eapply same_size_arg; eauto.
  - reflexivity.
  - exact (A (OReadBytes n) V).
  - reflexivity.
  - cbn [fst]. now apply old_store_ok.
  - destruct v; [|exact (A (ORead (fmt t) n) V)]. destruct (same_size_len s0 s S W) as [L L2]. cbn [abs a_bytes a_spare fst]. rewrite !zlen_app, L, L2.
    repeat match goal with |- context [if ?b then _ else _] => destruct b end; reflexivity.
Qed.
Definition fine_ok (o : option (outcome * list Z)) : bool := match o with Some (r, _) => is_ok r | None => false end.
Lemma old_call_ok v pol s0 s c out : same_size s0 s -> WF s0 -> placed_old c -> valid_call2 s0 c ->
  fine_ok (old_mini_abs v pol (view_old s c) (abs s) out) = fine_ok (old_mini_abs v pol (view_old s0 c) (abs s0) out).
Proof.
  intros S W P V. destruct c as [off o| | | | | | | | | | | | | | | | | |]; try contradiction P; cbn [view_old old_mini_abs]; try reflexivity.
  - cbn [fine_ok]. pose proof (old_at_ok v s0 s off o out S W (proj2 V)) as H.
    destruct (old_mini_abs_at v off (view_old_op s o) (abs s) out), (old_mini_abs_at v off (view_old_op s0 o) (abs s0) out). exact H.
  - destruct v; [reflexivity|]. destruct (same_size_len s0 s S W) as [L _]. cbn [old_call abs a_bytes]. rewrite L. destruct (_ =? 0); reflexivity.
  - destruct v; [reflexivity|]. destruct (same_size_len s0 s S W) as [L _]. cbn [old_call abs a_bytes]. rewrite L. destruct (_ =? 0); reflexivity.
  - destruct v; [reflexivity|]. destruct (same_size_len s0 s S W) as [L _]. cbn [old_call abs a_bytes]. rewrite L. destruct (_ =? 0); reflexivity.
Qed.
Lemma mseen_ok s p o : mseen s (run p s) o -> returns p s <-> fine_ok (Some o) = true.
Proof.
  unfold returns. destruct (run p s) as [v s'|e s'| |]; cbn [mseen]; try contradiction; intros [-> _]; cbn [is_ok fine_ok]; split; try discriminate; eauto.
  intros (a & b & H). discriminate.
Qed.
Lemma old_returns_again v pol s0 s c out : same_size s0 s -> WF s0 -> placed_old c -> valid_old_mini v s0 c out -> returns (old_use_body v pol (c, out)) s0 ->
  exists r s', run (old_mini v pol c) (set_outs s out) = Done r s' /\ run (old_use_body v pol (c, out)) s = Done r (set_outs s' (outs s)) /\ kept s (set_outs s' (outs s)).
Proof.
  intros S W P (M & V & O) (r & s' & R).
  assert (W0 : WF (set_outs s0 out)) by (destruct W; constructor; auto).
  assert (S' : same_size (set_outs s0 out) (set_outs s out)) by exact (set_outs_size s0 s out S).
  assert (W1 : WF (set_outs s out)) by apply S'.
  assert (R0 : returns (old_mini v pol c) (set_outs s0 out)).
  { pose proof (own_out_run (old_mini v pol c) out s0) as X. unfold old_use_body in R. cbn [fst snd] in R.
    destruct (run (old_mini v pol c) (set_outs s0 out)) as [v1 s1| | |] eqn:E; rewrite R in X; try discriminate. exists v1, s1. exact E. }
  assert (V0 : valid_old_mini v (set_outs s0 out) c (outs (set_outs s0 out))) by (repeat split; auto using set_outs_valid2).
  assert (V1 : valid_old_mini v (set_outs s out) c (outs (set_outs s out))) by (repeat split; auto; apply set_outs_valid2; eapply same_size_valid2; eauto).
  destruct (old_mini_seen v pol (set_outs s0 out) c W0 V0) as (o0 & X0 & S0). apply mseen_ok in S0. apply S0 in R0.
  destruct (old_mini_seen v pol (set_outs s out) c W1 V1) as (o1 & X1 & S1). cbn [outs set_outs] in *.
  rewrite <- X0, <- (old_call_ok v pol (set_outs s0 out) (set_outs s out) c out), X1 in R0 by (auto; apply V0).
  destruct (mseen_ok _ _ _ S1) as [_ X]. destruct (X R0) as (v2 & s2 & E). exists v2, s2. split; auto.
  pose proof (own_out_run (old_mini v pol c) out s) as Y. rewrite E in Y. split; [exact Y|]. rewrite E in S1. destruct S1 as (_ & _ & G).
  destruct G as [G1 G2 G3 G4]. constructor; auto. destruct G1; constructor; auto.
Qed.

(** ** Races *)

Definition sure_old (v : version) (B : Buf) (c : call2 slice) (l : list access) : Prop :=
  covers B (fun i => reads_old v c (Byte i) && within B c i) (fun i => writes_old v c (Byte i) && within B c i) l.

Lemma sure_old_conflict v B c d l l' : placed_old c -> placed_old d -> on_bytes B c -> on_bytes B d -> sure_old v B c l -> sure_old v B d l' ->
  conflicting_old v c d -> exists a b, In a l /\ In b l' /\ conflict a b.
Proof.
  intros P1 P2 O1 O2 V1 V2 (x & X & Y).
  assert (WB : exists i, x = Byte i) by (destruct c; try contradiction; destruct x; try discriminate; eauto).
  destruct WB as [i ->].
  assert (AT : forall c : call2 slice, {off & {o | c = At2 off o}} + {forall off o, c <> At2 off o}).
  { intros []; try (right; intros; discriminate). left. eexists _, _. reflexivity. }
  assert (RC : forall (c : call2 slice) i, placed_old c -> (forall off o, c <> At2 off o) -> reads_old v c (Byte i) = reads_old v c (Byte 0) /\ writes_old v c (Byte i) = writes_old v c (Byte 0)).
  { intros e k P N. destruct e; try contradiction; auto. now destruct (N off o). }
  assert (G : exists j, writes_old v c (Byte j) = true /\ (reads_old v d (Byte j) = true \/ writes_old v d (Byte j) = true) /\ within B c j = true /\ within B d j = true).
  { destruct (AT c) as [(off & o & ->)|A1].
    - exists i. repeat split; auto. destruct (V1 i) as [H _]. rewrite X in H. cbn [within andb] in H. destruct (H eq_refl) as [_ L].
      destruct d; cbn [within]; auto; lia.
    - destruct (AT d) as [(off & o & ->)|A2].
      + exists i. repeat split; auto. destruct (V2 i) as [H1 H2]. cbn [within] in *. rewrite !andb_true_r in *.
        assert (0 <= i < s_len (b_buf B)) by (destruct Y as [Y|Y]; [apply (H2 Y)|apply (H1 Y)]).
        destruct c; cbn [within]; auto; lia.
      + exists 0. destruct (RC c i P1 A1) as [_ X']. rewrite X' in X. destruct (RC d i P2 A2) as [Y1 Y2]. rewrite Y1, Y2 in Y.
        assert (0 < s_len (b_buf B)) by (destruct c; try contradiction; try discriminate X; auto; now destruct (A1 off o)).
        repeat split; auto; [destruct c|destruct d]; cbn [within]; auto; lia. }
  destruct G as (j & Xj & Yj & I1 & I2). destruct (V1 j) as [H _]. rewrite Xj, I1 in H. destruct (H eq_refl) as [H1 _].
  destruct (V2 j) as [Hw Hr]. rewrite I2, !andb_true_r in *. destruct Yj as [Y'|Y'].
  - destruct (Hr Y') as [H2 _]. eapply hit_conflict; eauto.
  - destruct (Hw Y') as [H2 _]. eapply hit_conflict; eauto.
Qed.

Theorem placed_old_race v pol s programs : WF s ->
  Forall (Forall (fun u : old_use => valid_old_mini v s (fst u) (snd u) /\ placed_old (fst u) /\ on_bytes (bb s) (fst u) /\ returns (old_use_body v pol u) s)) programs ->
  forall t u cs ds c d, t <> u -> nth_error programs t = Some cs -> nth_error programs u = Some ds -> In c cs -> In d ds -> conflicting_old v (fst c) (fst d) ->
  exists tr cfg, traced (old_use_body v pol) (start s programs) tr cfg /\ ~ race_free tr.
Proof.
  intros W F t u cs ds c d D P1 P2 I1 I2 K.
  eapply (exact_race (old_use_body v pol) s (fun u => valid_old_mini v s (fst u) (snd u) /\ placed_old (fst u) /\ on_bytes (bb s) (fst u) /\ returns (old_use_body v pol u) s)
    (fun u => sure_old v (bb s) (fst u))); eauto.
  - intros [e out] ((M & _) & P & _). unfold old_use_body. cbn [fst snd] in *. now apply own_lockless, lockless_old.
  - intros s1 [e out] S (V & P & Z & R). cbn [fst snd] in *. destruct (old_returns_again v pol s s1 e out S W P V R) as (r & s' & E0 & E & G). exists r, (set_outs s' (outs s1)). split; auto.
    assert (PC : post (old_mini v pol e) (set_outs s1 out) (fun _ s' l => bb s' = bb s /\ sure_old v (bb s) e l)).
    { apply post_old; auto; try apply V. now apply wf_len_max. apply W. apply set_outs_valid2. eapply same_size_valid2; eauto; apply V.
      - destruct e as [off o| | | | | | | | | | | | | | | | | |]; auto. destruct o; auto. destruct V as (_ & (_ & V) & _). cbn in V.
        pose proof (wf_slice_cap_max (heap s) d0 (wf_h _ W) V). destruct V as (_ & _ & V & _). change maxAlloc with (2 ^ 48) in *. lia.
      - apply S. }
    destruct (PC r s' E0) as (E1 & E3). split.
    + eapply same_size_kept; eauto. destruct S as (_ & S & _). cbn. congruence.
    + unfold old_use_body. cbn [fst snd]. rewrite log_own. now apply covers_filter.
  - rewrite Forall_forall in F. pose proof (F _ (nth_error_In _ _ P1)) as F1. pose proof (F _ (nth_error_In _ _ P2)) as F2. rewrite Forall_forall in F1, F2.
    destruct (F1 _ I1) as (_ & Q1 & O1 & _). destruct (F2 _ I2) as (_ & Q2 & O2 & _). intros l l' U1 U2.
    now apply (sure_old_conflict v (bb s) (fst c) (fst d)).
Qed.
