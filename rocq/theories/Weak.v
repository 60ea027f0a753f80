(** * Weak: the calls of the v3 [Buffer] for AloneGen.v. *)
From Coq Require Import ZArith List Bool Lia Arith ZifyBool.
From Verif Require Import ConcLemmas GoSem Errors Spec GoLemmas Typed V3ByteLemmas TypedCanon Calls Abs Frame Sim History Conc ConcSched ConcInv
  Race RaceSpec3 RaceLemmas RaceOld Race3 AloneSpec AloneMiniSpec Alone AloneGen AloneMini WeakSpec.
From Verif Require V3Buffer.
Import ListNotations.
Open Scope Z_scope.
Open Scope list_scope.

(** ** Runs with at most one allocation *)

Lemma pad_0 s : pad s 0 = s.
Proof. unfold pad. cbn. rewrite app_nil_r. destruct s; reflexivity. Qed.
Lemma wq_single {A} (p : prog A) : single p -> forall s (Q : A -> St -> Prop) (E : err -> St -> Prop),
  (forall k, match run p (pad s k) with Done a s' => Q a s' | Panicked e s' => E e s' | _ => False end) -> wq p s Q E.
Proof.
  assert (ST : forall (q : prog A) s q' s' k, match q with Alloc _ _ => False | _ => True end -> step1 q s = Some (q', s') -> run q (pad s k) = run q' (pad s' k)).
  { intros q s q' s' k N H. apply step1_run. now apply pad_step. }
  induction p; intros Sg st Q E H'; cbn [single] in Sg; try contradiction.
  - specialize (H' 0%nat). rewrite pad_0 in H'. exact H'.
  - specialize (H' 0%nat). rewrite pad_0 in H'. exact H'.
  - exact (H' 0%nat).
  - cbn [wq]. apply H; auto.
  - cbn [wq]. apply IHp; auto.
  - cbn [wq]. apply H; auto.
  - cbn [wq]. apply IHp; auto.
  - cbn [wq]. destruct (heap_read (heap st) blk i 1) as [[|v [|]]|] eqn:R.
    all: try (exfalso; specialize (H' 0%nat); rewrite pad_0 in H'; cbn [run] in H'; rewrite R in H'; exact H').
    apply H; auto. intro j. erewrite <- (ST (Load blk i _) st); [apply (H' j)|exact I|]. cbn [step1]. rewrite R. reflexivity.
  - cbn [wq]. destruct (heap_write (heap st) blk i [v]) eqn:R.
    2: (exfalso; specialize (H' 0%nat); rewrite pad_0 in H'; cbn [run] in H'; rewrite R in H'; exact H').
    apply IHp; auto. intro j. erewrite <- (ST (Store blk i v p) st); [apply (H' j)|exact I|]. cbn [step1]. rewrite R. reflexivity.
  - cbn [wq]. destruct (heap_read (heap st) sb si n) as [d|] eqn:R.
    2: (exfalso; specialize (H' 0%nat); rewrite pad_0 in H'; cbn [run] in H'; rewrite R in H'; exact H').
    destruct (heap_write (heap st) db di d) eqn:R2.
    2: (exfalso; specialize (H' 0%nat); rewrite pad_0 in H'; cbn [run] in H'; rewrite R, R2 in H'; exact H').
    apply IHp; auto. intro j. erewrite <- (ST (Move db di sb si n p) st); [apply (H' j)|exact I|]. cbn [step1]. rewrite R, R2. reflexivity.
  - cbn [wq]. intro j. apply wq_quiet; auto. exact (H' j).
Qed.

(** ** The calls *)

Definition ok_buffer (s : St) (c : call slice) : Prop := valid_call s c /\ separate s c /\ in_place c.
Definition buffer_one (s : St) (c : call slice) (a : abuf) : answer * abuf := answer_of (abs_call (view_call s c) a).

Lemma alone_one_by_one s cs : forall a, abs_exec (map (fun c => ACall (view_call s c)) cs) a = one_by_one (buffer_one s) cs a.
Proof.
  induction cs as [|c cs IH]; intro a; [reflexivity|]. cbn [map abs_exec one_by_one abs_exec1]. unfold buffer_one at 1.
  destruct (abs_call (view_call s c) a) as [v a'|e a']; cbn [answer_of]; rewrite IH; destruct (one_by_one _ cs a'); reflexivity.
Qed.

Lemma buffer_args s V c : ok_buffer s c -> same_args s V -> ok_buffer V c /\ forall a, buffer_one V c a = buffer_one s c a.
Proof.
  intros (VC & SC & IP) SA. assert (BB : b_buf (bb V) = b_buf (bb s)) by apply SA.
  assert (X : valid_call V c /\ separate V c /\ view_call V c = view_call s c).
  { destruct c as [off o|o| | | |off r|off r|off|off| | |n|n|n| | | | | | |]; cbn [valid_call view_call separate] in *; auto.
    - destruct VC as [V2 V2']. destruct o; cbn [valid_opn abs_opn separate] in *; auto.
      destruct (arg_fits s V d SA V2' SC) as [D1 D2]. rewrite D2, BB. auto.
    - destruct o; cbn [valid_opn abs_opn separate] in *; auto.
      destruct (arg_fits s V d SA VC SC) as [D1 D2]. rewrite D2, BB. auto. }
  destruct X as (X1 & X2 & X3). unfold buffer_one. rewrite X3. split; auto. split; auto.
Qed.
Lemma buffer_run V c : WF V -> ok_buffer V c -> wq (do_call c) V (ends_well sees buffer_one V c) (ends_badly buffer_one V c).
Proof.
  intros W (VC & SC & IP). apply wq_single; [now apply single_call|]. intro k.
  destruct (pad_WF V k W) as [WP AP]. destruct (fits_pad V [] V c k W VC) as [VP EP].
  pose proof (do_call_sim (pad V k) c WP VP) as S. rewrite EP, AP in S. unfold ends_well, ends_badly, buffer_one.
  destruct (run (do_call c) (pad V k)) as [v U|e U|U|] eqn:R; cbn [sim] in S; try contradiction; destruct S as [-> G]; cbn [answer_of].
  - split; [apply (g_wf _ _ G)|]. split; [reflexivity|]. destruct v; try exact I. exact (returned_slice V [] (pad V k) c b U WP eq_refl VP R).
  - split; [apply (g_wf _ _ G)|reflexivity].
Qed.
Lemma buffer_disc s pm t c : WF s -> ok_buffer s c -> pm Slice = Frozen ->
  (forall x, sees c x = true -> may_read (pm x) t false) -> (forall x, writes3 c x = true -> may_write (pm x) t false) ->
  disc (modes3 (b_buf (bb s)) (length (heap s)) pm) (headers3 (b_buf (bb s)) (length (heap s)) pm) t RaceLemmas.none (initial (length (heap s))) false yes (fun _ => True) (do_call c).
Proof.
  intros W (VC & SC & IP) F R X. apply (disc_call3 _ _ _ _ (wf_blk s W) s); auto. intros x Hx. apply R. unfold sees. now rewrite Hx.
Qed.
Lemma buffer_slice s c : ok_buffer s c -> writes3 c Slice = false.
Proof. intros (_ & _ & IP). destruct c; try reflexivity; try contradiction. Qed.
