(** * RaceExact2: calls at fixed places race exactly if they conflict. *)
From Coq Require Import ZArith List Bool Lia Arith ZifyBool.
From Verif Require Import GoSem Errors Spec GoLemmas Typed TypedCanon V3ByteLemmas Calls Abs Frame Sim MiniAbs MiniSim Conc Race.
From Verif Require Import RaceSpec3 Race3 AloneSpec Alone AllocLemmas MiniHistory RaceMiniSpec RaceMini RaceLog RaceExact ExactSpec.
From Verif Require V3Buffer V3Mini.
Import ListNotations.
Open Scope Z_scope.
Open Scope list_scope.

(** ** The bytes of a call *)

Section Calls.
Variable B : Buf.
Notation len := (s_len (b_buf B)).
Hypothesis len_max : 0 <= len <= 2 ^ 48.
Hypothesis cap_len : b_cap B = len.
Notation at_byte := (at_byte B).

Definition covers (rd wr : Z -> bool) (l : list access) : Prop :=
  forall i, (wr i = true -> at_byte true i l) /\ (rd i = true -> at_byte false i l).

Lemma covers_same (f : Z -> bool) l : (forall i, f i = true -> at_byte true i l) -> covers f f l.
Proof. intros H i. split; intro X; auto. apply at_byte_weak. auto. Qed.

Lemma post_ret_unit p s (Q : St -> list access -> Prop) : post p s (fun _ s' l => Q s' l) -> post (ret_unit p) s (fun _ s' l => Q s' l).
Proof. intro H. unfold ret_unit. apply post_bind. eapply post_weaken; [exact H|]. cbv beta. intros a s' l X. apply post_ret. now rewrite app_nil_r. Qed.
Lemma post_ret_int p s (Q : St -> list access -> Prop) : post p s (fun _ s' l => Q s' l) -> post (ret_int p) s (fun _ s' l => Q s' l).
Proof. intro H. unfold ret_int. apply post_bind. eapply post_weaken; [exact H|]. cbv beta. intros a s' l X. apply post_ret. now rewrite app_nil_r. Qed.
Lemma post_ret_bytes p s (Q : St -> list access -> Prop) : post p s (fun _ s' l => Q s' l) -> post (ret_bytes p) s (fun _ s' l => Q s' l).
Proof. intro H. unfold ret_bytes. apply post_bind. eapply post_weaken; [exact H|]. cbv beta. intros a s' l X. apply post_ret. now rewrite app_nil_r. Qed.
Lemma post_ret_nums p s (Q : St -> list access -> Prop) : post p s (fun _ s' l => Q s' l) -> post (ret_nums p) s (fun _ s' l => Q s' l).
Proof. intro H. unfold ret_nums. apply post_bind. eapply post_weaken; [exact H|]. cbv beta. intros a s' l X. apply post_ret. now rewrite app_nil_r. Qed.

Lemma one_bit off i : 0 <= off -> ((off / 8 <=? i) && (i <=? (off + Z.max 1 1 - 1) / 8)) = true -> i = quo off 8.
Proof. intros H X. unfold quo. rewrite Z.quot_div_nonneg by lia. replace (off + Z.max 1 1 - 1) with off in X by lia. lia. Qed.
Lemma first_bit off n l w : is_i64 off -> (forall i, Z.quot off 8 <= i <= Z.quot (off + Z.max n 1 - 1) 8 -> at_byte w i l) -> 0 <= Z.quot off 8.
Proof.
  intros Ho H. destruct (H (Z.quot off 8)) as [_ X]; [|lia]. split; [lia|]. apply Z.quot_le_mono; lia.
Qed.

Lemma post_at off o s : is_i64 off -> valid_opn s o -> (match o with OWriteBytes d => s_len d <= 2 ^ 48 | _ => True end) -> bb s = B ->
  post (do_at off o) s (fun _ s' l => bb s' = B /\ covers (span off o) (fun i => is_write o && span off o i) l).
Proof.
  intros Ho V D E.
  destruct o; cbn [do_at is_write]; cbn [valid_opn] in V.
  - apply post_ret_int. eapply post_weaken; [now apply (post_ReadBit B)|]. cbv beta. intros a s' l (E1 & H1 & H2). split; auto.
    intro i. split; [discriminate|]. cbn [span]. intro X. now rewrite (one_bit off i H1 X).
  - apply post_ret_int. unfold V3Buffer.ReadBits.
    eapply post_weaken.
    + apply (post_goto n _ 0 s (fun s => bb s = B) (fun i l => 0 <= off +! i /\ at_byte false (quo (off +! i) 8) l)); auto.
      * unfold is_i64 in V; lia.
      * intros i l l' M [X Y]. split; auto. eapply at_byte_mono; eauto.
      * intros i a s1 E1 _. apply post_bind. eapply post_weaken; [now apply (post_ReadBit B)|]. cbv beta. intros v s2 l (E2 & X1 & X2).
        apply post_ret. split; auto. rewrite app_nil_r. auto.
    + cbv beta. intros a s' l [E1 H1]. split; auto. intro i. split; [discriminate|]. cbn [span]. intro X.
      assert (P : 0 <= off). { destruct (H1 0 ltac:(lia)) as [P _]. rewrite add64_id in P; [lia|]. now rewrite Z.add_0_r. }
      apply (bits_cover B len_max false off n l); auto. { intros j J. now apply H1. } rewrite !Z.quot_div_nonneg by lia. lia.
  - apply post_ret_unit. eapply post_weaken; [now apply (post_checked_change B off)|]. cbv beta. intros a s' l (E1 & H1 & H2). split; auto.
    apply covers_same. intro i. cbn [span]. intro X. now rewrite (one_bit off i H1 X).
  - apply post_ret_unit. eapply post_weaken; [now apply (post_checked_change B off)|]. cbv beta. intros a s' l (E1 & H1 & H2). split; auto.
    apply covers_same. intro i. cbn [span]. intro X. now rewrite (one_bit off i H1 X).
  - apply post_ret_unit. eapply post_weaken; [now apply (post_checked_change B off)|]. cbv beta. intros a s' l (E1 & H1 & H2). split; auto.
    apply covers_same. intro i. cbn [span]. intro X. now rewrite (one_bit off i H1 X).
  - destruct V as [V1 V2]. apply post_ret_unit. unfold V3Buffer.SetBits.
    eapply post_weaken.
    + apply (post_goto n _ tt s (fun s => bb s = B) (fun i l => 0 <= off +! i /\ at_byte true (quo (off +! i) 8) l)); auto.
      * unfold is_i64 in V2; lia.
      * intros i l l' M [X Y]. split; auto. eapply at_byte_mono; eauto.
      * intros i a s1 E1 _. destruct (_ =? 0); (eapply post_weaken; [now apply (post_checked_change B (off +! i))|]; cbv beta; intros v s2 l X; exact X).
    + cbv beta. intros a s' l [E1 H1]. split; auto. apply covers_same. intros i. cbn [span andb]. intro X.
      assert (P : 0 <= off). { destruct (H1 0 ltac:(lia)) as [P _]. rewrite add64_id in P; [lia|]. now rewrite Z.add_0_r. }
      apply (bits_cover B len_max true off n l); auto. { intros j J. now apply H1. } rewrite !Z.quot_div_nonneg by lia. lia.
  - destruct V as (_ & _ & V & _). apply post_ret_unit. eapply post_weaken; [apply (post_WriteBytes B); auto; lia|]. cbv beta. intros a s' l (E1 & H1). split; auto.
    apply covers_same. intros i. cbn [span andb]. intro X. apply H1. lia.
  - apply post_ret_unit. unfold V3Buffer.WriteByte, lit_bytes. intros a s' R. cbn [bind run log] in *.
    set (d := mkSlice (length (heap s)) 0 1 1) in *. set (s1 := set_heap s (heap s ++ [[v]])) in *.
    assert (P : post (V3Buffer.WriteBytes off d) s1 (fun _ s' l => bb s' = B /\ forall i, off <= i < off + s_len d -> at_byte true i l)).
    { apply (post_WriteBytes B); auto. unfold d. cbn. lia. }
    destruct (P a s' R) as [P1 P2]. split; auto. apply covers_same. intros i. cbn [span andb]. intro X. apply at_byte_cons, P2. unfold d. cbn. lia.
  - apply post_ret_bytes. eapply post_weaken; [now apply (post_ReadBytes B)|]. cbv beta. intros a s' l X. split; [apply X|]. intro i. split; discriminate.
  - apply post_ret_int. eapply post_weaken; [now apply (post_ReadByte B)|]. cbv beta. intros a s' l [E1 H1]. split; auto.
    intro i. split; [discriminate|]. cbn [span]. intro X. assert (i = off) as -> by lia. exact H1.
  - apply post_ret_unit. eapply post_weaken; [now apply (post_WriteT B)|]. cbv beta. intros a s' l [E1 H1]. split; auto.
    apply covers_same. intros i. cbn [span andb]. intro X. apply H1. lia.
  - apply post_ret_nums. eapply post_weaken; [now apply (post_ReadT B)|]. cbv beta. intros a s' l [E1 H1]. split; auto.
    intro i. split; [discriminate|]. cbn [span]. intro X. apply H1. lia.
Qed.

(** What a call at a fixed place covers; [inside]: bytes of the buffer only. *)
Definition inside (c : call slice) (i : Z) : bool :=
  match c with At _ _ => true | _ => (0 <=? i) && (i <? len) end.
Definition nonempty (c : call slice) : Prop :=
  match c with CClearAllBits | CSetAllBits | CFlipAllBits => 0 < len | _ => True end.

Lemma post_call c s : placed c -> valid_call s c -> (match c with At _ (OWriteBytes d) => s_len d <= 2 ^ 48 | _ => True end) -> bb s = B ->
  post (do_call c) s (fun _ s' l => bb s' = B /\ nonempty c /\
    covers (fun i => reads3 c (Byte i) && inside c i) (fun i => writes3 c (Byte i) && inside c i) l).
Proof.
  intros PL V D E.
  assert (ALL : forall (b : Z -> unit -> prog unit), (forall i a s, bb s = B -> post (b i a) s (fun _ s' l => bb s' = B /\ at_byte true i l)) ->
    post (ret_unit (x <- get_buf ;; goto_loop (s_len x) b tt)) s (fun _ s' l => bb s' = B /\ 0 < len /\ forall i, 0 <= i < len -> at_byte true i l)).
  { intros b H. apply post_ret_unit. apply post_bind, post_get_buf. eapply post_weaken; [apply (post_all B len_max); auto; now rewrite E|].
    cbv beta. intros a s' l (X1 & X2 & X3). split; auto. split; auto. intros i Hi. apply at_byte_right. auto. }
  destruct c as [off o| | | | | | |[x|]|[x|]| | | | | | | | | | | |]; try contradiction PL; cbn [do_call reads3 writes3 inside nonempty];
    try (intros a s' R; cbn in R; injection R as _ <-; split; auto; split; auto; intro i; split; discriminate).
  - eapply post_weaken; [apply post_at; auto; try apply V; destruct o; auto|]. cbv beta. intros a s' l [E1 H1]. split; auto. split; auto.
    intro i. rewrite !andb_true_r. apply H1.
  - eapply post_weaken; [apply ALL; intros; now apply (post_buf_set B)|]. cbv beta. intros a s' l (E1 & H0 & H1). split; auto. split; auto.
    intro i. cbn [andb]. split; [|discriminate]. intro X. apply H1. lia.
  - eapply post_weaken; [apply ALL; intros; now apply (post_buf_set B)|]. cbv beta. intros a s' l (E1 & H0 & H1). split; auto. split; auto.
    intro i. cbn [andb]. split; [|discriminate]. intro X. apply H1. lia.
  - eapply post_weaken; [apply ALL|].
    { intros i a s1 E1. apply post_bind. eapply post_weaken; [now apply (post_buf_get B)|]. cbv beta. intros v s2 l [E2 H2].
      eapply post_weaken; [now apply (post_buf_set B)|]. cbv beta. intros u s3 l3 [E3 H3]. split; auto. now apply at_byte_right. }
    cbv beta. intros a s' l (E1 & H0 & H1). split; auto. split; auto. apply covers_same. intros i. cbn [andb]. intro X. apply H1. lia.
Qed.

(** ** The calls of the MiniBuffer *)

Lemma post_mini_at off o s : is_i64 off -> valid_opn s o -> fits_in B (At off o) -> bb s = B ->
  post (mini_at off o) s (fun _ s' l => bb s' = B /\ covers (mini_span off o) (fun i => is_write o && mini_span off o i) l).
Proof.
  intros Ho V D E.
  assert (ONE : forall i, mini_span off OSetBit i = true -> i = quo off 8).
  { intros i. unfold mini_span, quo. replace (off + Z.max 1 1 - 1) with off by lia. lia. }
  assert (OUT : forall (p : prog unit) (k : list Z -> prog (rv slice)) (Q : St -> list access -> Prop), (forall x, exists v, k x = Ret v) ->
    (forall s' l, Q s' l -> Q s' (l ++ [Rd LOut])) -> post p s (fun _ s' l => Q s' l) -> post (p ;; GetOuts k) s (fun _ s' l => Q s' l)).
  { intros p k Q K M H. apply post_bind. eapply post_weaken; [exact H|]. cbv beta. intros a s' l X v s1 R. cbn [run log] in *.
    destruct (K (outs s')) as [y Ky]. rewrite Ky in *. cbn [run log] in *. injection R as _ <-. auto. }
  destruct o; cbn [mini_at is_write]; cbn [valid_opn] in V.
  - apply post_ret_int. eapply post_weaken; [now apply (post_mini_ReadBit B)|]. cbv beta. intros a s' l (E1 & H1). split; auto.
    intro i. split; [discriminate|]. intro X. now rewrite (ONE i X).
  - apply (OUT _ _ (fun s' l => bb s' = B /\ covers (mini_span off (OReadBits n)) (fun i => false && mini_span off (OReadBits n) i) l)).
    { intro x. eexists. reflexivity. }
    { intros s' l [X Y]. split; auto. intro i. split; [discriminate|]. intro Z. apply at_byte_left. now apply Y. }
    unfold V3Mini.ReadBits.
    eapply post_weaken; [apply (post_bits B len_max false off n); auto|].
    + intros i a s1 E1. apply post_bind. eapply post_weaken; [now apply (post_mini_ReadBit B)|]. cbv beta. intros v s2 l [E2 H2] u s3 R.
      cbn [run log] in *. injection R as _ <-. split; auto. now apply at_byte_left.
    + cbv beta. intros a s' l [E1 H1]. split; auto. intro i. split; [discriminate|]. unfold mini_span. intro X. apply H1. lia.
  - apply post_ret_unit. eapply post_weaken; [now apply (post_change B off)|]. cbv beta. intros a s' l (E1 & H1). split; auto.
    apply covers_same. intro i. intro X. now rewrite (ONE i X).
  - apply post_ret_unit. eapply post_weaken; [now apply (post_change B off)|]. cbv beta. intros a s' l (E1 & H1). split; auto.
    apply covers_same. intro i. intro X. now rewrite (ONE i X).
  - apply post_ret_unit. eapply post_weaken; [now apply (post_change B off)|]. cbv beta. intros a s' l (E1 & H1). split; auto.
    apply covers_same. intro i. intro X. now rewrite (ONE i X).
  - destruct V as [V1 V2]. apply post_ret_unit. unfold V3Mini.SetBits.
    eapply post_weaken; [apply (post_bits B len_max true off n); auto|].
    + intros i a s1 E1. destruct (_ =? 0); now apply (post_change B (off +! i)).
    + cbv beta. intros a s' l [E1 H1]. split; auto. apply covers_same. intro i. unfold mini_span. intro X. apply H1. lia.
  - destruct V as (_ & _ & V & _). cbn in D. apply post_ret_unit. eapply post_weaken; [apply (post_mini_WriteBytes B); auto; lia|]. cbv beta. intros a s' l (E1 & H1). split; auto.
    apply covers_same. intros i. unfold mini_span. cbn [andb]. intro X. apply H1. lia.
  - intros a s' R. discriminate R.
  - apply post_ret_bytes. intros a s' R. unfold V3Mini.ReadBytes, reslice in R. cbn [get_buf bind run] in R. destruct (_ && _); [|discriminate].
    injection R as _ <-. split; auto. intro i. unfold mini_span. rewrite andb_false_r. split; discriminate.
  - intros a s' R. discriminate R.
  - apply post_ret_unit. eapply post_weaken; [now apply (post_MiniWriteT B)|]. cbv beta. intros a s' l [E1 H1]. split; auto.
    apply covers_same. intros i. unfold mini_span. cbn [andb]. intro X. apply H1. lia.
  - apply (OUT _ _ (fun s' l => bb s' = B /\ covers (mini_span off (ORead t n)) (fun i => false && mini_span off (ORead t n) i) l)).
    { intro x. eexists. reflexivity. }
    { intros s' l [X Y]. split; auto. intro i. split; [discriminate|]. intro Z. apply at_byte_left. now apply Y. }
    eapply post_weaken; [now apply (post_MiniReadT B)|]. cbv beta. intros a s' l [E1 H1]. split; auto.
    intro i. split; [discriminate|]. unfold mini_span. intro X. apply H1. lia.
Qed.

Lemma mini_same c : match c with At _ _ | Next _ | CTruncateLeft _ | CTruncateRight _ | CGrow _ => False | _ => True end -> mini_call c = do_call c.
Proof. now destruct c. Qed.

Lemma post_mini c s : placed c -> valid_call s c -> fits_in B c -> bb s = B ->
  post (mini_call c) s (fun _ s' l => bb s' = B /\ nonempty c /\
    covers (fun i => reads_mini c (Byte i) && inside c i) (fun i => writes_mini c (Byte i) && inside c i) l).
Proof.
  intros PL V D E. destruct c as [off o| | | | | | | | | | | | | | | | | | | |]; try contradiction PL;
    try (rewrite mini_same by exact I; apply post_call; auto; fail).
  cbn [mini_call reads_mini writes_mini inside nonempty].
  eapply post_weaken; [apply post_mini_at; auto; apply V|]. cbv beta. intros a s' l [E1 H1]. split; auto. split; auto.
  intro i. rewrite !andb_true_r. apply H1.
Qed.
End Calls.

(** ** Returning again *)

(** The same buffer as in [s0], perhaps with other bytes in it. *)
Definition same_size (s0 s : St) : Prop :=
  WF s /\ bb s = bb s0 /\ (length (heap s0) <= length (heap s))%nat /\
  forall b, (b < length (heap s0))%nat -> zlen (nth b (heap s) []) = zlen (nth b (heap s0) []).

Lemma same_size_refl s : WF s -> same_size s s.
Proof. intro W. repeat split; auto; apply W. Qed.
Lemma same_size_next s0 s s' : same_size s0 s -> good s s' -> bb s' = bb s -> same_size s0 s'.
Proof.
  intros (W & E & L & H) G E'. split; [apply G|]. split; [congruence|]. destruct (g_mem _ _ G) as [L' H']. split; [lia|].
  intros b Hb. destruct (H' b ltac:(lia)) as [X _]. rewrite X. now apply H.
Qed.
Lemma same_size_arg s0 s d : same_size s0 s -> wf_slice (heap s0) d -> wf_slice (heap s) d.
Proof. intros (_ & _ & L & H) (A1 & A2 & A3 & A4). unfold wf_slice. rewrite H by auto. repeat split; auto; lia. Qed.
Lemma same_size_valid s0 s c : same_size s0 s -> valid_call s0 c -> valid_call s c.
Proof.
  intros S V. destruct c as [off o|o| | | | | | | | | | | | | | | | | | |]; cbn [valid_call] in *; auto.
  - destruct V as [V1 V2]. split; auto. destruct o; cbn [valid_opn] in *; auto. unfold wf_arg in *. eapply same_size_arg; eauto.
  - destruct o; cbn [valid_opn] in *; auto. unfold wf_arg in *. eapply same_size_arg; eauto.
Qed.
Lemma same_size_len s0 s : same_size s0 s -> WF s0 -> zlen (content s) = zlen (content s0) /\ zlen (spare s) = zlen (spare s0).
Proof.
  intros (W & E & _) W0. rewrite !spare_zlen, !content_zlen, E by auto. auto.
Qed.

Definition is_ok (o : outcome) : bool := match o with Ok _ _ => true | _ => false end.

Lemma abs_at_ok s0 s off o : same_size s0 s -> WF s0 -> valid_opn s0 o ->
  is_ok (abs_at off (abs_opn s o) (abs s)) = is_ok (abs_at off (abs_opn s0 o) (abs s0)).
Proof.
  intros S W V. destruct (same_size_len s0 s S W) as [L _].
  assert (D : forall d, wf_arg s0 d -> zlen (slice_bytes (heap s) d) = zlen (slice_bytes (heap s0) d)).
  { intros d Hd. rewrite !wf_slice_bytes_zlen; auto. eapply same_size_arg; eauto. }
  destruct o; cbn [abs_opn abs_at abs a_bytes]; cbn [valid_opn] in V; rewrite ?L; try rewrite (D _ V);
    repeat match goal with |- context [if ?b then _ else _] => destruct b end; reflexivity.
Qed.
Lemma abs_call_ok s0 s c : same_size s0 s -> WF s0 -> placed c -> valid_call s0 c ->
  is_ok (abs_call (view_call s c) (abs s)) = is_ok (abs_call (view_call s0 c) (abs s0)).
Proof.
  intros S W P V. destruct c as [off o| | | | | | | | | | | | | | | | | | | |]; try contradiction P; cbn [view_call abs_call]; try reflexivity;
    [apply abs_at_ok; auto; apply V|..]; destruct (same_size_len s0 s S W) as [L _]; cbn [abs a_bytes]; rewrite L; destruct (_ =? 0); reflexivity.
Qed.

Lemma sim_ok s p o : sim s (run p s) o -> returns p s <-> is_ok o = true.
Proof.
  unfold returns. destruct (run p s) as [v s'|e s'| |]; cbn [sim]; try contradiction; intros [-> _]; cbn [is_ok]; split; try discriminate; eauto.
  intros (a & b & H). discriminate.
Qed.
Lemma returns_again s0 s c : same_size s0 s -> WF s0 -> placed c -> valid_call s0 c -> returns (do_call c) s0 ->
  exists v s', run (do_call c) s = Done v s' /\ good s s'.
Proof.
  intros S W P V R. pose proof (do_call_sim s0 c W V) as S0. apply sim_ok in S0. apply S0 in R.
  assert (V' : valid_call s c) by (eapply same_size_valid; eauto). assert (W' : WF s) by apply S.
  pose proof (do_call_sim s c W' V') as S1. rewrite <- (abs_call_ok s0 s c) in R by auto.
  destruct (sim_ok _ _ _ S1) as [_ X]. destruct (X R) as (v & s' & E). exists v, s'. split; auto. rewrite E in S1. apply S1.
Qed.

(** The same for the MiniBuffer. *)
Lemma mbit_some l l' j : zlen l' = zlen l -> (mbit l' j = None <-> mbit l j = None).
Proof. intro L. unfold mbit, in_bits, phantom. rewrite L. destruct (_ && _); [split; discriminate|]. destruct (_ && _); split; congruence. Qed.
Lemma mupd_some f g l l' j : zlen l' = zlen l -> (forall l j, in_bits l j = true -> zlen (f l j) = zlen l) -> (forall l j, in_bits l j = true -> zlen (g l j) = zlen l) ->
  match mupd f l j, mupd g l' j with Some x, Some y => zlen x = zlen l /\ zlen y = zlen l | None, None => True | _, _ => False end.
Proof.
  intros L F G. unfold mupd. replace (in_bits l' j) with (in_bits l j) by (unfold in_bits; now rewrite L). destruct (in_bits l j) eqn:E.
  - split; auto. rewrite G; auto. unfold in_bits. now rewrite L.
  - unfold phantom. rewrite L. destruct (_ && _); auto.
Qed.
Lemma put_bit_len l j v : in_bits l j = true -> zlen (put_bit l j v) = zlen l.
Proof. unfold in_bits. intro H. apply BitLemmas.put_bit_zlen. lia. Qed.
Lemma mread_all l l' : zlen l' = zlen l -> forall k off x x', snd (mread l' off k x') = snd (mread l off k x).
Proof.
  intros L. induction k as [|k IH]; intros off x x'; cbn [mread snd]; auto. pose proof (mbit_some l l' off L) as [A B].
  destruct (mbit l' off), (mbit l off); auto; try (now specialize (A eq_refl)); now specialize (B eq_refl).
Qed.
Lemma mwrite_all f : forall k l l' off i, zlen l' = zlen l -> snd (mwrite l' off f i k) = snd (mwrite l off f i k).
Proof.
  induction k as [|k IH]; intros l l' off i L; cbn [mwrite snd]; auto.
  pose proof (mupd_some (fun l j => put_bit l j (f i)) (fun l j => put_bit l j (f i)) l l' off L) as M.
  cbv beta in M. specialize (M ltac:(intros; now apply put_bit_len) ltac:(intros; now apply put_bit_len)).
  destruct (mupd _ l off), (mupd _ l' off); try contradiction; auto. apply IH. lia.
Qed.

Lemma mini_abs_at_ok s0 s off o out : same_size s0 s -> WF s0 -> valid_opn s0 o ->
  is_ok (fst (mini_abs_at off (abs_opn s o) (abs s) out)) = is_ok (fst (mini_abs_at off (abs_opn s0 o) (abs s0) out)).
Proof.
  intros S W V. destruct (same_size_len s0 s S W) as [L L2].
  assert (UPD : forall f, (forall l j, in_bits l j = true -> zlen (f l j) = zlen l) ->
    is_ok (fst (match mupd f (content s) off with Some l' => (Ok RUnit (set_bytes (abs s) l'), out) | None => (Fail index_error (abs s), out) end)) =
    is_ok (fst (match mupd f (content s0) off with Some l' => (Ok RUnit (set_bytes (abs s0) l'), out) | None => (Fail index_error (abs s0), out) end))).
  { intros f F. pose proof (mupd_some f f _ _ off L F F). destruct (mupd f (content s0) off), (mupd f (content s) off); try contradiction; reflexivity. }
  destruct o; cbn [abs_opn mini_abs_at]; cbn [abs a_bytes a_spare]; try reflexivity.
  - pose proof (mbit_some _ _ off L) as [A B]. destruct (mbit (content s) off), (mbit (content s0) off); try reflexivity; [now specialize (B eq_refl)|now specialize (A eq_refl)].
  - pose proof (mread_all _ _ L (Z.to_nat (Z.max 1 n)) off (hd 0 out) (hd 0 out)) as M.
    destruct (mread (content s) _ _ _) as [x b], (mread (content s0) _ _ _) as [y b']. cbn [snd] in M. subst b'. destruct b; reflexivity.
  - apply UPD. intros; now apply put_bit_len.
  - apply UPD. intros; now apply put_bit_len.
  - apply UPD. intros. unfold flip_bit. now apply put_bit_len.
  - pose proof (mwrite_all (field_bit data n) (Z.to_nat (Z.max 1 n)) _ _ off 0 L) as M.
    destruct (mwrite (content s) _ _ _ _) as [x b], (mwrite (content s0) _ _ _ _) as [y b']. cbn [snd] in M. subst b'. destruct b; reflexivity.
  - rewrite L. destruct (_ && _); reflexivity.
  - rewrite L, L2. destruct (_ && _); reflexivity.
  - rewrite L. repeat match goal with |- context [if ?b then _ else _] => destruct b end; reflexivity.
  - rewrite L. repeat match goal with |- context [if ?b then (Ok _ _, _) else _] => destruct b end; reflexivity.
Qed.
Lemma mini_abs_call_ok s0 s c out : same_size s0 s -> WF s0 -> placed c -> valid_call s0 c ->
  is_ok (fst (mini_abs_call (view_call s c) (abs s) out)) = is_ok (fst (mini_abs_call (view_call s0 c) (abs s0) out)).
Proof.
  intros S W P V. pose proof (abs_call_ok s0 s c S W P V) as A.
  destruct c as [off o| | | | | | | | | | | | | | | | | | | |]; try contradiction P; cbn [view_call mini_abs_call fst] in *; try exact A.
  apply mini_abs_at_ok; auto. apply V.
Qed.

Lemma msim_ok s p o : msim s (run p s) o -> returns p s <-> is_ok (fst o) = true.
Proof.
  unfold returns. destruct (run p s) as [v s'|e s'| |]; cbn [msim]; try contradiction; intros [-> _]; cbn [is_ok fst]; split; try discriminate; eauto.
  intros (a & b & H). discriminate.
Qed.
Lemma set_outs_valid s c out : valid_call s c -> valid_call (set_outs s out) c.
Proof. destruct c as [off o|o| | | | | | | | | | | | | | | | | | |]; cbn [valid_call]; auto; destruct o; auto. Qed.
Lemma set_outs_size s0 s out : same_size s0 s -> same_size s0 (set_outs s out).
Proof. intros (W & H). split; auto. destruct W. constructor; auto. Qed.
Lemma mini_returns_again s0 s c out : same_size s0 s -> WF s0 -> placed c -> valid_mini s0 c out -> returns (mini_body (c, out)) s0 ->
  exists v s', run (mini_call c) (set_outs s out) = Done v s' /\ run (mini_body (c, out)) s = Done v (set_outs s' (outs s)) /\ good s (set_outs s' (outs s)).
Proof.
  intros S W P (M & V & O) (v & s' & R).
  assert (W0 : WF (set_outs s0 out)) by (destruct W; constructor; auto).
  assert (S' : same_size (set_outs s0 out) (set_outs s out)) by exact (set_outs_size s0 s out S).
  assert (W1 : WF (set_outs s out)) by apply S'.
  assert (R0 : returns (mini_call c) (set_outs s0 out)).
  { pose proof (own_out_run (mini_call c) out s0) as X. unfold mini_body in R. cbn [fst snd] in R. destruct (run (mini_call c) (set_outs s0 out)) as [v1 s1| | |] eqn:E; rewrite R in X; try discriminate. exists v1, s1. exact E. }
  assert (V0 : valid_mini (set_outs s0 out) c out) by (repeat split; auto using set_outs_valid).
  assert (V1 : valid_mini (set_outs s out) c out) by (repeat split; auto; apply set_outs_valid; eapply same_size_valid; eauto).
  pose proof (mini_call_sim (set_outs s0 out) c W0 V0) as S0. apply msim_ok in S0. apply S0 in R0.
  pose proof (mini_call_sim (set_outs s out) c W1 V1) as S1. cbn [outs set_outs] in *.
  rewrite <- (mini_abs_call_ok (set_outs s0 out) (set_outs s out) c out) in R0 by (auto; apply V0).
  destruct (msim_ok _ _ _ S1) as [_ X]. destruct (X R0) as (v2 & s2 & E). exists v2, s2. split; auto.
  pose proof (own_out_run (mini_call c) out s) as Y. rewrite E in Y. split; [exact Y|]. rewrite E in S1. destruct S1 as [_ G].
  destruct G as [G1 G2 G3 G4 G5]. constructor; auto. destruct G1; constructor; auto.
Qed.

(** ** Races *)

Section Exact.
Context {C : Type} (body : C -> prog (rv slice)) (s0 : St) (ok : C -> Prop) (sure : C -> list access -> Prop).
Hypothesis free : forall c, ok c -> lockless (body c).
Hypothesis again : forall s c, same_size s0 s -> ok c -> exists v s', run (body c) s = Done v s' /\ same_size s0 s' /\ sure c (log (body c) s).

Lemma turn_to cs c : Forall ok cs -> In c cs -> forall s, same_size s0 s ->
  exists pre rest l s' l1 , cs = pre ++ rest /\ turn body s pre l s' /\ same_size s0 s' /\ forallb no_sync l = true /\
    sure c l1 /\ incl l1 l.
Proof.
  intros F. induction F as [|d cs H F IH]; intros I s S; [contradiction I|].
  destruct (again s d S H) as (v & s1 & R & S1 & X).
  assert (E : ends (run (body d) s) s1 (Ret v)) by (rewrite R; split; reflexivity).
  pose proof (lockless_log _ (free d H) s) as N. destruct I as [->|I].
  - exists [c], cs, (log (body c) s ++ []), s1, (log (body c) s). split; auto. split; [eapply turn_cons; [exact E|constructor]|].
    split; auto. rewrite app_nil_r. repeat split; auto. apply incl_refl.
  - destruct (IH I s1 S1) as (pre & rest & l & s' & l1 & -> & T & S' & N' & U & L).
    exists (d :: pre), rest, (log (body d) s ++ l), s', l1. split; auto. split; [eapply turn_cons; eauto|]. split; auto.
    rewrite forallb_app, N, N'. repeat split; auto. now apply incl_appr.
Qed.

Lemma exact_race programs t u cs ds c d : WF s0 -> t <> u -> nth_error programs t = Some cs -> nth_error programs u = Some ds ->
  Forall (Forall ok) programs -> In c cs -> In d ds ->
  (forall l l', sure c l -> sure d l' -> exists a b, In a l /\ In b l' /\ conflict a b) ->
  exists tr cfg, traced body (start s0 programs) tr cfg /\ ~ race_free tr.
Proof.
  intros W D P1 P2 F I1 I2 X. rewrite Forall_forall in F.
  destruct (turn_to cs c (F _ (nth_error_In _ _ P1)) I1 s0 (same_size_refl s0 W)) as (pre & rest & l & s1 & l1 & -> & T1 & S1 & N1 & U1 & L1).
  destruct (turn_to ds d (F _ (nth_error_In _ _ P2)) I2 s1 S1) as (pre' & rest' & l' & s2 & l2 & -> & T2 & S2 & N2 & U2 & L2).
  destruct (X _ _ U1 U2) as (a & b & A & B & K). eapply turns_race; eauto.
Qed.
End Exact.

(** What is certain about a call that returned. *)
Definition sure3 (B : Buf) (rd wr : call slice -> piece -> bool) (c : call slice) (l : list access) : Prop :=
  nonempty B c /\ covers B (fun i => rd c (Byte i) && inside B c i) (fun i => wr c (Byte i) && inside B c i) l.

Definition at_call (c : call slice) : bool := match c with At _ _ => true | _ => false end.

Lemma hit_conflict B i w l l' : hits B true i l -> hits B w i l' -> exists a b, In a l /\ In b l' /\ conflict a b.
Proof.
  intros (a & A & X) (b & Y & Z). exists a, b. split; auto. split; auto.
  exists (LByte (s_blk (b_buf B)) (s_off (b_buf B) + i)). destruct X as [X|[X _]]; [|discriminate]. destruct Z as [Z|[_ Z]]; auto.
Qed.

Lemma sure_conflict B rd wr c d l l' :
  (forall c i, placed c -> at_call c = false -> rd c (Byte i) = rd c (Byte 0)) -> (forall c i, placed c -> at_call c = false -> wr c (Byte i) = wr c (Byte 0)) ->
  (forall c, placed c -> at_call c = false -> wr c (Byte 0) = true -> nonempty B c -> 0 < s_len (b_buf B)) ->
  (forall c x, placed c -> wr c x = true -> exists i, x = Byte i) ->
  placed c -> placed d -> sure3 B rd wr c l -> sure3 B rd wr d l' -> (exists x, wr c x = true /\ (rd d x = true \/ wr d x = true)) ->
  exists a b, In a l /\ In b l' /\ conflict a b.
Proof.
  intros RC WC NE WB P1 P2 [N1 V1] [N2 V2] (x & X & Y). destruct (WB c x P1 X) as [i ->].
  assert (G : exists j, wr c (Byte j) = true /\ (rd d (Byte j) = true \/ wr d (Byte j) = true) /\ inside B c j = true /\ inside B d j = true).
  { destruct (at_call c) eqn:A1.
    - exists i. assert (I1 : inside B c i = true) by (destruct c; try discriminate; reflexivity). repeat split; auto.
      destruct (V1 i) as [H _]. rewrite X, I1 in H. destruct (H eq_refl) as [_ L]. destruct d; cbn [inside]; auto; lia.
    - destruct (at_call d) eqn:A2.
      + exists i. assert (I1 : inside B d i = true) by (destruct d; try discriminate; reflexivity). repeat split; auto.
        destruct (V2 i) as [H1 H2]. rewrite I1, !andb_true_r in *. assert (0 <= i < s_len (b_buf B)) by (destruct Y as [Y|Y]; [apply (H2 Y)|apply (H1 Y)]).
        destruct c; cbn [inside]; auto; lia.
      + exists 0. rewrite (WC c i P1 A1) in X. rewrite (RC d i P2 A2), (WC d i P2 A2) in Y. pose proof (NE c P1 A1 X N1).
        repeat split; auto; [destruct c|destruct d]; cbn [inside]; auto; lia. }
  destruct G as (j & Xj & Yj & I1 & I2). destruct (V1 j) as [H _]. rewrite Xj, I1 in H. destruct (H eq_refl) as [H1 _].
  destruct (V2 j) as [Hw Hr]. rewrite I2, !andb_true_r in *. destruct Yj as [Y'|Y'].
  - destruct (Hr Y') as [H2 _]. eapply hit_conflict; eauto.
  - destruct (Hw Y') as [H2 _]. eapply hit_conflict; eauto.
Qed.

Lemma wf_len_max s : WF s -> 0 <= s_len (b_buf (bb s)) <= 2 ^ 48.
Proof. intro W. pose proof (wf_cap_max s W). pose proof (wf_lencap s W). pose proof (wf_len0 s W). change maxAlloc with (2 ^ 48) in *. lia. Qed.

Lemma quiet_lockless {A} (p : prog A) : quiet p -> lockless p.
Proof. induction p; cbn; auto; contradiction. Qed.
Lemma single_lockless {A} (p : prog A) : single p -> lockless p.
Proof. induction p; cbn; auto using quiet_lockless; contradiction. Qed.
Lemma still_lockless {A} (p : prog A) : still p -> lockless p.
Proof. induction p; cbn; auto; contradiction. Qed.
Lemma own_lockless {A} (p : prog A) : lockless p -> forall out, lockless (own_out out p).
Proof. induction p; cbn; auto. Qed.

Theorem placed_race s programs : WF s ->
  Forall (Forall (fun c => valid_call s c /\ placed c /\ returns (do_call c) s)) programs ->
  forall t u cs ds c d, t <> u -> nth_error programs t = Some cs -> nth_error programs u = Some ds -> In c cs -> In d ds -> conflicting3 c d ->
  exists tr cfg, traced do_call (start s programs) tr cfg /\ ~ race_free tr.
Proof.
  intros W F t u cs ds c d D P1 P2 I1 I2 K.
    eapply (exact_race do_call s (fun c => valid_call s c /\ placed c /\ returns (do_call c) s) (sure3 (bb s) reads3 writes3)); eauto.
    - intros e (_ & P & _). apply single_lockless, single_call. destruct e; try contradiction; exact I.
    - intros s1 e S (V & P & R). destruct (returns_again s s1 e S W P V R) as (v & s' & E & G). exists v, s'. split; auto.
      assert (PC : post (do_call e) s1 (fun _ s' l => bb s' = bb s /\ nonempty (bb s) e /\ covers (bb s)
        (fun i => reads3 e (Byte i) && inside (bb s) e i) (fun i => writes3 e (Byte i) && inside (bb s) e i) l)).
      { apply post_call; auto. now apply wf_len_max. apply W. eapply same_size_valid; eauto.
        - destruct e as [off o| | | | | | | | | | | | | | | | | | | |]; auto. destruct o; auto. cbn in V. destruct V as [_ V].
          pose proof (wf_slice_cap_max (heap s) d0 (wf_h _ W) V). change maxAlloc with (2 ^ 48) in *. lia.
        - apply S. }
      destruct (PC v s' E) as (E1 & E2). split; auto. eapply same_size_next; eauto. destruct S as (_ & S & _). congruence.
    - rewrite Forall_forall in F. pose proof (F _ (nth_error_In _ _ P1)) as F1. pose proof (F _ (nth_error_In _ _ P2)) as F2. rewrite Forall_forall in F1, F2.
      destruct (F1 _ I1) as (_ & Q1 & _). destruct (F2 _ I2) as (_ & Q2 & _). intros l l' U1 U2.
      apply (sure_conflict (bb s) reads3 writes3 c d); auto.
      + intros e i P. destruct e; try contradiction; reflexivity || discriminate.
      + intros e i P. destruct e; try contradiction; reflexivity || discriminate.
      + intros e P A Z. destruct e; try contradiction; try discriminate; auto.
      + intros e x P. destruct e; try contradiction; destruct x; try discriminate; eauto.
Qed.

(** ** The MiniBuffer *)

(** The accesses of a call with a variable of its own. *)
Definition shared (a : access) : bool := match a with Rd LOut | Wr LOut => false | _ => true end.
Lemma log_own {A} (p : prog A) : forall out s, log (own_out out p) s = filter shared (log p (set_outs s out)).
Proof.
  induction p; intros out st; cbn [own_out log filter shared]; cbn [heap bb mu outs set_outs]; try reflexivity; try (f_equal; apply (H _ out)); try (f_equal; apply (IHp out (set_bb st _))).
  - destruct (heap_read _ _ _ _) as [[|x [|? ?]]|]; cbn [filter shared]; auto. now rewrite H.
  - destruct (heap_write _ _ _ _); cbn [filter shared]; auto. f_equal. apply (IHp out (set_heap st _)).
  - destruct (heap_read _ _ _ _); auto. destruct (heap_write _ _ _ _); cbn [filter shared]; auto. f_equal. apply (IHp out (set_heap st _)).
  - apply (IHp l st).
  - destruct (mu st); cbn [filter shared]; auto. f_equal. apply (IHp out (set_mu st true)).
  - destruct (mu st); cbn [filter shared]; auto. f_equal. apply (IHp out (set_mu st false)).
Qed.
Lemma covers_filter B rd wr l : covers B rd wr l -> covers B rd wr (filter shared l).
Proof.
  intros H i. destruct (H i) as [H1 H2].
  assert (G : forall w, at_byte B w i l -> at_byte B w i (filter shared l)).
  { intros w [(a & X & Y) L]. split; auto. exists a. split; auto. apply filter_In. split; auto.
    destruct a as [[]|[]| | | |]; cbn in *; auto; destruct Y as [Y|[_ Y]]; try discriminate; contradiction. }
  split; auto.
Qed.

Theorem placed_mini_race s programs : WF s ->
  Forall (Forall (fun u : mini_use => valid_mini s (fst u) (snd u) /\ placed (fst u) /\ fits_in (bb s) (fst u) /\ returns (mini_body u) s)) programs ->
  forall t u cs ds c d, t <> u -> nth_error programs t = Some cs -> nth_error programs u = Some ds -> In c cs -> In d ds -> conflicting_mini (fst c) (fst d) ->
  exists tr cfg, traced mini_body (start s programs) tr cfg /\ ~ race_free tr.
Proof.
  intros W F t u cs ds c d D P1 P2 I1 I2 K.
  eapply (exact_race mini_body s (fun u => valid_mini s (fst u) (snd u) /\ placed (fst u) /\ fits_in (bb s) (fst u) /\ returns (mini_body u) s)
    (fun u => sure3 (bb s) reads_mini writes_mini (fst u))); eauto.
  - intros [e out] (_ & P & _). unfold mini_body. cbn [fst snd] in *. apply own_lockless, still_lockless, still_mini_call. destruct e; try contradiction; exact I.
  - intros s1 [e out] S (V & P & Z & R). cbn [fst snd] in *. destruct (mini_returns_again s s1 e out S W P V R) as (v & s' & E0 & E & G). exists v, (set_outs s' (outs s1)). split; auto.
    assert (PC : post (mini_call e) (set_outs s1 out) (fun _ s' l => bb s' = bb s /\ nonempty (bb s) e /\ covers (bb s)
      (fun i => reads_mini e (Byte i) && inside (bb s) e i) (fun i => writes_mini e (Byte i) && inside (bb s) e i) l)).
    { apply post_mini; auto. now apply wf_len_max. apply W. apply set_outs_valid. eapply same_size_valid; eauto; apply V. apply S. }
    destruct (PC v s' E0) as (E1 & E2 & E3). split.
    + eapply same_size_next; eauto. destruct S as (_ & S & _). cbn. congruence.
    + unfold mini_body. cbn [fst snd]. rewrite log_own. split; auto. now apply covers_filter.
  - rewrite Forall_forall in F. pose proof (F _ (nth_error_In _ _ P1)) as F1. pose proof (F _ (nth_error_In _ _ P2)) as F2. rewrite Forall_forall in F1, F2.
    destruct (F1 _ I1) as (_ & Q1 & _). destruct (F2 _ I2) as (_ & Q2 & _). intros l l' U1 U2.
    apply (sure_conflict (bb s) reads_mini writes_mini (fst c) (fst d)); auto.
    + intros e i P. destruct e; try contradiction; reflexivity || discriminate.
    + intros e i P. destruct e; try contradiction; reflexivity || discriminate.
    + intros e P A Z. destruct e; try contradiction; try discriminate; auto.
    + intros e x P. destruct e; try contradiction; destruct x; try discriminate; eauto.
Qed.
