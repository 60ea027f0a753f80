(** * NewBuf: [NewBuffer] on every list of slices. *)
From Coq Require Import ZArith List Bool Lia ZifyBool.
From Verif Require Import GoSem Errors Spec GoLemmas V3BitLemmas V3ByteLemmas.
From Verif Require V3Buffer.
Import ListNotations.
Open Scope Z_scope.

Lemma append_too_long pol s d :
  s_cap (b_buf (bb s)) <= maxAlloc -> maxAlloc < s_len (b_buf (bb s)) + s_len d ->
  run (bind (append pol (b_buf (bb s)) d) (fun sl => set_buf sl)) s = Panicked make_err s.
Proof.
  intros H1 H2. unfold append.
  replace (s_len (b_buf (bb s)) + s_len d <=? s_cap (b_buf (bb s))) with false by lia.
  replace (s_len (b_buf (bb s)) + s_len d <=? maxAlloc) with false by lia. reflexivity.
Qed.

(** The state NewBuffer builds, whatever the number of slices. *)
Record fresh_buffer (s0 s' : St) (l : list Z) : Prop := {
  fb_wf : WF s';
  fb_content : content s' = l;
  fb_off : b_off (bb s') = 0;
  fb_boff : b_boff (bb s') = 0;
  fb_heap : exists new, heap s' = heap s0 ++ new;
  fb_mu : mu s' = mu s0;
  fb_outs : outs s' = outs s0 }.

Theorem NewBuffer_any pol s0 slices :
  wf_heap (heap s0) -> zlen slices < 2 ^ 63 -> Forall (wf_slice (heap s0)) slices ->
  if zlen (all_bytes (heap s0) slices) <=? maxAlloc
  then exists s', run (V3Buffer.NewBuffer pol slices) s0 = Done tt s' /\
         fresh_buffer s0 s' (all_bytes (heap s0) slices)
  else exists s', run (V3Buffer.NewBuffer pol slices) s0 = Panicked make_err s' /\ wf_heap (heap s') /\
         exists new, heap s' = heap s0 ++ new.
Proof.
  intros Hh Hl Hs. destruct (Z.leb_spec (zlen (all_bytes (heap s0) slices)) maxAlloc) as [Hm|Hm].
  - destruct slices as [|x [|y r]].
    + rewrite run_NewBuffer_zero. eexists. split; [reflexivity|]. constructor; auto.
      * constructor; cbn; auto; try (unfold is_i64; lia).
        -- apply wf_heap_alloc; auto; try (rewrite max_alloc_val; unfold zlen; cbn; lia).
        -- unfold wf_slice; cbn. rewrite app_length, nth_alloc_new. unfold zlen; cbn. lia.
      * exists [[]]; reflexivity.
    + inversion Hs as [|? ? Hx _]; subst.
      rewrite run_NewBuffer_one by auto. eexists. split; [reflexivity|]. constructor; auto.
      * constructor; cbn; auto; try (unfold is_i64; lia).
        -- apply wf_heap_alloc; auto; try (rewrite max_alloc_val; unfold zlen; cbn; lia).
        -- now apply wf_slice_alloc.
      * unfold content, all_bytes; cbn. rewrite app_nil_r. now apply slice_bytes_alloc.
      * exists [[]]; reflexivity.
    + destruct (run_NewBuffer_many pol s0 (x :: y :: r)) as (s' & E & W & C & O1 & O2 & N & _ & M & O);
        auto; [cbn; lia|].
      exists s'. split; [exact E|]. constructor; auto.
  - assert (Hlen : (2 <= length slices)%nat).
    { destruct slices as [|x [|y r]]; cbn; try lia; exfalso.
      - change (zlen (all_bytes (heap s0) [])) with 0 in Hm. rewrite max_alloc_val in Hm. lia.
      - inversion Hs as [|? ? Hx _]; subst. unfold all_bytes in Hm; cbn in Hm. rewrite app_nil_r in Hm.
        rewrite wf_slice_bytes_zlen in Hm by auto.
        pose proof (wf_slice_cap_max _ _ Hh Hx). lia. }
    set (s1 := mkSt (heap s0 ++ [[]]) (mkBuf (mkSlice (length (heap s0)) 0 0 0) 0 0 0 0) (mu s0) (outs s0)).
    set (loop := goto_loop (zlen slices) (fun i _ =>
              bind get_buf (fun b => bind (append pol b (nth (Z.to_nat i) slices b)) (fun s => set_buf s))) tt).
    assert (E : run (V3Buffer.NewBuffer pol slices) s0 = run (bind loop (fun _ => V3Buffer.Refresh)) s1).
    { unfold V3Buffer.NewBuffer. destruct slices as [|x [|y r]]; simpl in Hlen; try lia. reflexivity. }
    rewrite E, run_bind.
    edestruct (goto_loop_any
       (fun i (_ : unit) s => BuildInv s0 (all_bytes (heap s0) (firstn (Z.to_nat i) slices)) s)
       (fun e s => e = make_err /\ wf_heap (heap s) /\ exists new, heap s = heap s0 ++ new)
       (fun i _ => bind get_buf (fun b => bind (append pol b (nth (Z.to_nat i) slices b)) (fun s => set_buf s)))
       (zlen slices) tt s1) as [(acc & s2 & Hr & I)|(e & s2 & Hr & -> & N)].
    + auto.
    + intros i [] s Hi I.
      assert (Hi' : 0 <= i < zlen slices) by (unfold zlen in *; lia).
      assert (Hd : wf_slice (heap s0) (nth (Z.to_nat i) slices (b_buf (bb s)))).
      { rewrite Forall_forall in Hs. apply Hs. apply nth_In. unfold zlen in Hi'; lia. }
      destruct (Z.leb_spec (zlen (all_bytes (heap s0) (firstn (Z.to_nat i) slices)) +
                  s_len (nth (Z.to_nat i) slices (b_buf (bb s)))) maxAlloc) as [F|F].
      * left. destruct (append_step pol s0 s _ (nth (Z.to_nat i) slices (b_buf (bb s))) I) as (s' & Hr & I'); auto.
        exists tt, s'. split. exact Hr. rewrite (all_bytes_firstn_S _ _ _ (b_buf (bb s)) Hi'). exact I'.
      * right. exists make_err, s. destruct I as [Ih Is Ic Io _ _ _ _ _]. split; [|auto].
        change (run (bind (append pol (b_buf (bb s)) (nth (Z.to_nat i) slices (b_buf (bb s)))) (fun sl => set_buf sl)) s
                = Panicked make_err s).
        apply append_too_long.
        -- apply (wf_slice_cap_max _ _ Ih Is).
        -- pose proof (wf_slice_bytes_zlen _ _ Is) as Lc. unfold content in Ic. rewrite Ic in Lc. lia.
    + change (Z.to_nat 0) with O. constructor; simpl; auto.
      * apply wf_heap_alloc; auto. unfold zlen; simpl. rewrite max_alloc_val. lia.
      * unfold wf_slice; simpl. rewrite nth_alloc_new, app_length. simpl. unfold zlen; simpl. repeat split; lia.
      * exists [[]]. reflexivity.
    + exfalso. rewrite Z.max_r in I by (unfold zlen; lia).
      unfold zlen in I at 1. rewrite Nat2Z.id, firstn_all in I. destruct I as [Ih Is Ic _ _ _ _ _ _].
      pose proof (wf_slice_bytes_zlen _ _ Is) as Lc. unfold content in Ic. rewrite Ic in Lc.
      pose proof (wf_slice_cap_max _ _ Ih Is). lia.
    + unfold loop. rewrite Hr. exists s2. auto.
Qed.
