(** * Props_Examples: the example programs (C56). *)
From Coq Require Import ZArith List Bool Lia.
From Verif Require Import GoSem Errors Spec GoLemmas V3BitLemmas V3ByteLemmas Typed TypedCanon Calls Abs NewBuf
  V1Lemmas Props_State Props_Stream Examples Witness.
From Verif Require V3Buffer V3BufferTyped.
Import ListNotations.
Open Scope Z_scope.
Open Scope go_scope.

(** Printing reads exactly the bytes of the slice and changes nothing. *)
Lemma run_print_bytes s d : wf_heap (heap s) -> wf_slice (heap s) d ->
  run (print_bytes d) s = Done (slice_bytes (heap s) d) s.
Proof.
  intros Hh Hd. pose proof (wf_slice_cap_max _ _ Hh Hd) as Hm. rewrite max_alloc_val in Hm.
  pose proof (wf_slice_bytes_zlen _ _ Hd) as LZ.
  destruct (for_loop_inv (fun i acc s' => s' = s /\ acc = sub (slice_bytes (heap s) d) 0 i)
    (fun i acc => x <- slice_get d i ;; Ret (acc ++ [x])) (s_len d) [] s) as (l & s' & E & -> & ->).
  - lia.
  - intros i acc s1 Hi [-> ->]. do 2 eexists. split; [|split; [reflexivity|]].
    + rewrite run_bind, run_slice_get by auto. reflexivity.
    + rewrite sub_app_split by lia. rewrite Z.add_0_l, sub_one by lia. reflexivity.
  - split; reflexivity.
  - unfold print_bytes. rewrite E. f_equal. apply sub_all. lia.
Qed.

(** What the three programs do, for any data: make a buffer, grow it to the size
    of the data, write it, print the bytes, go back to the start, read it. *)
Definition session (pol : Z -> Z -> Z) (r : record) : prog (list Z * rv slice) :=
  V3Buffer.NewBuffer pol [] ;;
  V3Buffer.Grow (zlen (record_bytes r)) ;;
  write_record r ;;
  b <- V3Buffer.Bytes ;;
  l <- print_bytes b ;;
  V3Buffer.SeekByte 0 false ;;
  v <- read_record r ;;
  Ret (l, v).

(** The state before does not matter, except that memory is well formed. *)
Theorem C56_session pol r s0 : wf_heap (heap s0) -> valid_record r ->
  2 * zlen (record_bytes r) <= maxAlloc ->
  exists v s', run (session pol r) s0 = Done (record_bytes r, v) s' /\ view_rv s' v = record_value r.
Proof.
  intros Hh V Hm. pose proof max_alloc_val as MV. pose proof (zlen_nonneg (record_bytes r)) as Zp.
  pose proof (NewBuffer_any pol s0 [] Hh ltac:(now vm_compute) ltac:(constructor)) as N.
  change (all_bytes (heap s0) []) with (@nil Z) in N. change (zlen (@nil Z) <=? maxAlloc) with true in N. cbv iota in N.
  destruct N as (s1 & E1 & [W1 C1 O1 B1 _ _ _]).
  assert (G : exists s2 , run (V3Buffer.Grow (zlen (record_bytes r))) s1 = Done tt s2 /\ WF s2 /\
     zlen (content s2) = zlen (record_bytes r) /\ b_off (bb s2) = 0).
  { revert E1. rewrite run_NewBuffer_zero. intro E1. injection E1 as <-.
    match goal with |- exists s2, run _ ?s1 = _ /\ _ =>
      destruct (C27_Grow s1 (zlen (record_bytes r))) as (s2 & added & E2 & W2 & C2 & L2 & O2 & _); auto end.
    exists s2. split; [exact E2|]. split; [exact W2|]. rewrite C2, C1, O2. split; [exact L2 | exact O1]. }
  destruct G as (s2 & E2 & W2 & L2 & O2).
  destruct (write_record_ok s2 r) as (s3 & E3 & W3 & C3 & O3 & _); auto; try lia.
  assert (C3' : content s3 = record_bytes r).
  { rewrite C3, O2. unfold put. cbn [Z.to_nat firstn app Nat.add]. 
    rewrite skipn_all2 by (unfold zlen in L2; lia). apply app_nil_r. }
  set (s4 := with_off s3 0).
  assert (W4 : WF s4) by (apply with_off_WF; auto; unfold is_i64; lia).
  assert (C4 : content s4 = record_bytes r) by exact C3'.
  destruct (read_record_ok s4 r 0) as (v & E4 & Vw); auto; try lia.
  { rewrite C4. apply sub_all. reflexivity. }
  { rewrite C4. lia. }
  exists v. eexists. split.
  - unfold session. rewrite run_bind, E1. cbv iota. rewrite run_bind, E2. cbv iota.
    rewrite run_bind, E3. cbv iota. unfold V3Buffer.Bytes. cbn [bind get_buf run].
    rewrite run_bind, run_print_bytes by (apply W3). cbv iota.
    rewrite run_bind, run_SeekByte. cbv iota. fold s4. rewrite run_bind, E4. cbv iota. cbn [run].
    change (slice_bytes (heap s3) (b_buf (bb s3))) with (content s3). rewrite C3'. reflexivity.
  - apply Vw. reflexivity.
Qed.
Print Assumptions C56_session.

(** ** The three programs *)

Theorem C56_helloworld pol s0 : wf_heap (heap s0) ->
  exists s', run (helloworld pol) s0 = Done hello_world s'.
Proof.
  intro Hh. pose proof max_alloc_val as MV.
  destruct (C56_session pol (RecBytes hello_world) s0 Hh) as (v & s' & E & _).
  - cbn [valid_record]. split; [repeat constructor; unfold is_byte; lia|]. rewrite MV. vm_compute. discriminate.
  - rewrite MV. vm_compute. discriminate.
  - cbn [record_bytes] in E. unfold session in E. cbn [record_bytes write_record do_next] in E.
    change (zlen hello_world) with 12 in E.
    unfold helloworld. revert E. rewrite !run_bind.
    destruct (run (V3Buffer.NewBuffer pol []) s0) as [u s1|e s1|s1|]; try discriminate.
    rewrite !run_bind. destruct (run (V3Buffer.Grow 12) s1) as [u2 s2|e s2|s2|]; try discriminate.
    unfold lit_bytes, ret_unit. cbn [bind run]. rewrite !run_bind.
    destruct (run (V3Buffer.WriteBytesNext _) _) as [u3 s3|e s3|s3|]; try discriminate. cbn [run].
    unfold V3Buffer.Bytes. cbn [bind get_buf run]. rewrite !run_bind.
    destruct (run (print_bytes _) s3) as [l s4|e s4|s4|]; try discriminate. rewrite run_bind.
    destruct (run (V3Buffer.SeekByte 0 false) s4) as [u5 s5|e s5|s5|]; try discriminate.
    rewrite run_bind. destruct (run (read_record _) s5) as [w s6|e s6|s6|]; try discriminate. cbn [run].
    intro E. injection E as <- _ _. now exists s4.
Qed.
Print Assumptions C56_helloworld.

Theorem C56_signed_integers pol s0 : wf_heap (heap s0) ->
  exists s', run (signed_integers pol) s0 = Done ([214; 255; 255; 255; 69; 0; 0; 0], [-42; 69]) s'.
Proof.
  intro Hh. pose proof max_alloc_val as MV.
  destruct (C56_session pol (RecNums I32LE [-42; 69]) s0 Hh) as (v & s' & E & Ev).
  - cbn [valid_record]. split; [discriminate|]. split; [repeat (apply Forall_cons; [vm_compute; intuition congruence|]); apply Forall_nil|].
    unfold wf_data. rewrite MV. vm_compute. discriminate.
  - rewrite MV. vm_compute. discriminate.
  - cbn [record_bytes] in E. unfold session in E. cbn [record_bytes write_record read_record do_next] in E.
    change (WriteTNext I32LE) with V3BufferTyped.WriteI32LENext in E.
    change (ReadTNext I32LE) with V3BufferTyped.ReadI32LENext in E.
    change (zlen [-42; 69]) with 2 in E.
    change (encode_all I32LE [-42; 69]) with [214; 255; 255; 255; 69; 0; 0; 0] in E.
    change (zlen [214; 255; 255; 255; 69; 0; 0; 0]) with (4 * 2) in E.
    unfold signed_integers. revert E. rewrite !run_bind.
    destruct (run (V3Buffer.NewBuffer pol []) s0) as [u s1|e s1|s1|]; try discriminate.
    rewrite !run_bind. destruct (run (V3Buffer.Grow (4 * 2)) s1) as [u2 s2|e s2|s2|]; try discriminate.
    unfold ret_unit, ret_nums. rewrite !run_bind.
    destruct (run (V3BufferTyped.WriteI32LENext _) _) as [u3 s3|e s3|s3|]; try discriminate. cbn [run].
    unfold V3Buffer.Bytes. cbn [bind get_buf run]. rewrite !run_bind.
    destruct (run (print_bytes _) s3) as [l s4|e s4|s4|]; try discriminate. rewrite !run_bind.
    destruct (run (V3Buffer.SeekByte 0 false) s4) as [u5 s5|e s5|s5|]; try discriminate.
    rewrite !run_bind. destruct (run (V3BufferTyped.ReadI32LENext 2) s5) as [w s6|e s6|s6|]; try discriminate. cbn [run].
    intro E. injection E as -> <- <-. injection Ev as ->. now eexists.
Qed.
Print Assumptions C56_signed_integers.

Theorem C56_floating_point pol s0 : wf_heap (heap s0) ->
  exists s', run (floating_point pol) s0 =
    Done ([64; 81; 64; 0; 0; 0; 0; 0;  192; 53; 0; 0; 0; 0; 0; 0;
           192; 69; 53; 194; 143; 92; 40; 246;  64; 12; 247; 206; 217; 22; 135; 43], the_floats) s'.
Proof.
  intro Hh. pose proof max_alloc_val as MV.
  destruct (C56_session pol (RecNums F64BE the_floats) s0 Hh) as (v & s' & E & Ev).
  - cbn [valid_record]. split; [discriminate|]. split; [repeat (apply Forall_cons; [vm_compute; intuition congruence|]); apply Forall_nil|].
    unfold wf_data. rewrite MV. vm_compute. discriminate.
  - rewrite MV. vm_compute. discriminate.
  - cbn [record_bytes] in E. unfold session in E. cbn [record_bytes write_record read_record do_next] in E.
    change (WriteTNext F64BE) with V3BufferTyped.WriteF64BENext in E.
    change (ReadTNext F64BE) with V3BufferTyped.ReadF64BENext in E.
    change (zlen the_floats) with 4 in E.
    set (l0 := [64; 81; 64; 0; 0; 0; 0; 0;  192; 53; 0; 0; 0; 0; 0; 0;
           192; 69; 53; 194; 143; 92; 40; 246;  64; 12; 247; 206; 217; 22; 135; 43]).
    assert (EQ : encode_all F64BE the_floats = l0) by (vm_compute; reflexivity). rewrite EQ in E.
    change (zlen l0) with (8 * 4) in E. unfold floating_point. revert E. rewrite !run_bind.
    destruct (run (V3Buffer.NewBuffer pol []) s0) as [u s1|e s1|s1|]; try discriminate.
    rewrite !run_bind. destruct (run (V3Buffer.Grow (8 * 4)) s1) as [u2 s2|e s2|s2|]; try discriminate.
    unfold ret_unit, ret_nums. rewrite !run_bind.
    destruct (run (V3BufferTyped.WriteF64BENext _) _) as [u3 s3|e s3|s3|]; try discriminate. cbn [run].
    unfold V3Buffer.Bytes. cbn [bind get_buf run]. rewrite !run_bind.
    destruct (run (print_bytes _) s3) as [l s4|e s4|s4|]; try discriminate. rewrite !run_bind.
    destruct (run (V3Buffer.SeekByte 0 false) s4) as [u5 s5|e s5|s5|]; try discriminate.
    rewrite !run_bind. destruct (run (V3BufferTyped.ReadF64BENext 4) s5) as [w s6|e s6|s6|]; try discriminate. cbn [run].
    intro E. injection E as -> <- <-. injection Ev as ->. now eexists.
Qed.
Print Assumptions C56_floating_point.

(** The hypotheses are met by the empty memory and by one full of other data,
    under a wasteful growth policy. *)
Example C56_case_heap : wf_heap (heap ex).
Proof. apply wf_h; wf_state. Qed.

Example C56_case_hello : exists s',
  run (helloworld (fun a b => 3 * a + b)) ex =
    Done [104; 101; 108; 108; 111; 44; 32; 119; 111; 114; 108; 100] s'.
Proof. eexists. vm_compute. reflexivity. Qed.

Example C56_case_ints : exists s',
  run (signed_integers Z.max) ex = Done ([214; 255; 255; 255; 69; 0; 0; 0], [-42; 69]) s'.
Proof. eexists. vm_compute. reflexivity. Qed.
