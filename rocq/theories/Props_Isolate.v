(** * Props_Isolate: goroutines that each have a buffer of their own (C84).

    IsolateSpec.v: the goroutines, their steps, memory and who has which bytes. *)
From Coq Require Import ZArith List Bool Lia Arith ZifyBool.
From Verif Require Import GoSem Errors Spec GoLemmas Calls Abs MiniAbs OldCalls V1Calls Abs2 MiniAbs2 History MiniHistory Conc Race IsolateSpec Isolate.
Import ListNotations.
Open Scope Z_scope.
Open Scope list_scope.

(** C84: whatever the schedule, a goroutine gets the answers that it would get alone,
    in their order. *)
Theorem C84_same_answers pol own c0 sch tr c t w0 w :
  exclusive own -> at_home own c0 -> opened c0 -> works (job_body pol) c0 sch tr c ->
  nth_error (workers c0) t = Some w0 -> nth_error (workers c) t = Some w ->
  exists rest, fst (alone (job_body pol) (w_sort w0) (sees (memory c0) w0) (w_todo w0)) = w_done w ++ rest.
Proof. intros X H O. now apply (alone_prefix pol own c0 X H O). Qed.
Print Assumptions C84_same_answers.

(** C84: when it has made all its calls, its answers are those it would have got
    alone, its buffer is as it would be, and so is every byte it may see. *)
Theorem C84_same_end pol own c0 sch tr c t w0 w :
  exclusive own -> at_home own c0 -> opened c0 -> works (job_body pol) c0 sch tr c ->
  nth_error (workers c0) t = Some w0 -> nth_error (workers c) t = Some w -> finished w ->
  exists s, alone (job_body pol) (w_sort w0) (sees (memory c0) w0) (w_todo w0) = (w_done w, Some s) /\
    same_buffer s (sees (memory c) w) /\
    forall b i, (b < length (memory c0))%nat -> 0 <= i -> may_see own t b i -> byte_in (heap s) b i = byte_in (memory c) b i.
Proof. intros X H O. now apply (alone_end pol own c0 X H O). Qed.
Print Assumptions C84_same_end.

(** C84: no goroutine accesses a byte that another one writes, in any order. *)
Theorem C84_no_conflict pol own c0 sch tr c t u a a' b i :
  exclusive own -> at_home own c0 -> opened c0 -> works (job_body pol) c0 sch tr c ->
  In (t, a) tr -> In (u, a') tr -> t <> u -> writes a (LByte b i) -> reads a' (LByte b i) \/ writes a' (LByte b i) -> False.
Proof. intros X H O W. exact (no_conflict pol own c0 X H O sch tr c t u a a' b i W). Qed.
Print Assumptions C84_no_conflict.

(** C84: the bytes that nobody has stay as they are. *)
Theorem C84_nobodys_bytes pol own c0 sch tr c b i :
  exclusive own -> at_home own c0 -> opened c0 -> works (job_body pol) c0 sch tr c ->
  (b < length (memory c0))%nat -> 0 <= i -> (forall t, ~ own t b i) -> byte_in (memory c) b i = byte_in (memory c0) b i.
Proof. intros X H O. now apply (unowned_stays pol own c0 X H O). Qed.
Print Assumptions C84_nobodys_bytes.

(** C84: a goroutine can always go on, unless it waits for a mutex that an earlier
    call of its own left locked; alone it would wait in the same call. *)
Theorem C84_nobody_waits_for_another pol own c0 sch tr c t w0 w :
  exclusive own -> at_home own c0 -> opened c0 -> works (job_body pol) c0 sch tr c ->
  nth_error (workers c0) t = Some w0 -> nth_error (workers c) t = Some w ->
  finished w \/ (exists m w', wstep (job_body pol) (memory c) w m w') \/
  (waits w /\ alone (job_body pol) (w_sort w0) (sees (memory c0) w0) (w_todo w0) = (w_done w, None)).
Proof. intros X H O. now apply (progress pol own c0 X H O). Qed.
Print Assumptions C84_nobody_waits_for_another.

(** C84: no schedule goes on for ever. *)
Theorem C84_ends pol own c0 : exclusive own -> at_home own c0 -> opened c0 ->
  exists N, forall sch tr c, works (job_body pol) c0 sch tr c -> (length sch <= N)%nat.
Proof. intros X H O. eexists. intros sch tr c W. exact (steps_bound pol own c0 X H O sch tr c W). Qed.
Print Assumptions C84_ends.

(** ** Schedules, executed *)

Definition turn (body : sort -> job -> prog (rv slice)) (c : shop) (t : nat) : option shop :=
  match nth_error (workers c) t with
  | Some (mkW k b mu o js None l) =>
      match js with j :: r => Some (mkShop (memory c) (set_nth (workers c) t (mkW k b mu (job_out j) r (Some (body k j)) l))) | [] => None end
  | Some (mkW k b mu o js (Some (Ret v)) l) =>
      Some (mkShop (memory c) (set_nth (workers c) t (mkW k b mu o js None (l ++ [MReturned (view_rv (mkSt (memory c) b mu o) v) o]))))
  | Some (mkW k b mu o js (Some (Panic e)) l) =>
      Some (mkShop (memory c) (set_nth (workers c) t (mkW k b mu o js None (l ++ [MRaised e o]))))
  | Some (mkW k b mu o js (Some p) l) =>
      match step1 p (mkSt (memory c) b mu o) with
      | Some (p', s') => Some (mkShop (heap s') (set_nth (workers c) t (mkW k (bb s') (GoSem.mu s') (outs s') js (Some p') l)))
      | None => None
      end
  | None => None
  end.
Lemma turn_sound body c t c' : turn body c t = Some c' ->
  exists w m w', nth_error (workers c) t = Some w /\ wstep body (memory c) w m w' /\ c' = mkShop m (set_nth (workers c) t w').
Proof.
  unfold turn. destruct (nth_error (workers c) t) as [[k b mu o js cu l]|]; [|discriminate]. destruct cu as [p|].
  - destruct p; try (intro H; injection H as <-; do 3 eexists; split; [reflexivity|]; split; [|reflexivity]; constructor; fail);
      match goal with |- context [step1 ?q ?s] => destruct (step1 q s) as [[p' s']|] eqn:E end; try discriminate;
      intro H; injection H as <-; do 3 eexists; (split; [reflexivity|]); (split; [|reflexivity]); now constructor.
  - destruct js as [|j r]; [discriminate|]. intro H; injection H as <-. do 3 eexists. split; [reflexivity|]. split; [|reflexivity]. constructor.
Qed.
(** As far as it goes; a goroutine that cannot move loses its turn. *)
Fixpoint drive (body : sort -> job -> prog (rv slice)) (c : shop) (sch : list nat) : shop :=
  match sch with [] => c | t :: r => drive body (match turn body c t with Some c' => c' | None => c end) r end.
Lemma drive_sound body sch : forall c0 pre tr c, works body c0 pre tr c -> exists pre' tr', works body c0 pre' tr' (drive body c sch).
Proof.
  induction sch as [|t sch IH]; intros c0 pre tr c H; cbn [drive].
  - eauto.
  - destruct (turn body c t) as [c'|] eqn:E; [|eauto]. apply turn_sound in E as (w & m & w' & E1 & E2 & ->).
    eapply IH. eapply wk_step; eauto.
Qed.

(** ** Five goroutines

    An array of twelve bytes: a v3 Buffer, a v2 MiniBuffer and a v1 Buffer each have
    four of them.  Another of four bytes belongs to nobody: two goroutines pass it
    to WriteBytes.  A v3 MiniBuffer and a v2 Buffer have arrays of their own; the
    negative Grow of the latter panics and leaves its mutex locked. *)
Definition policy (old want : Z) : Z := want.
Definition buffer (blk : nat) (off len cap : Z) : Buf := mkBuf (mkSlice blk off len cap) 0 len 0 (8 * len).
Definition nobodys : slice := mkSlice 1 0 4 4.
Definition crowd : shop := mkShop
  [[1; 2; 3; 4; 5; 6; 7; 8; 9; 10; 11; 12]; [21; 22; 23; 24]; [31; 32]; [41; 42; 43]]
  [mkW Buf3 (buffer 0 0 4 4) false []
     [J3 (At 0 (OWriteBytes nobodys)) []; J3 (CGrow 3) []; J3 (At 1 (OReadBytes 3)) []; J3 (At 9 OReadByte) []] None [];
   mkW (MiniOld V2) (buffer 0 4 4 4) false []
     [J2 (At2 1 (PWriteBytes nobodys)) []; J2 (At2 8 (PReadBits 8)) [0]; J2 KBytes []] None [];
   mkW (BufOld V1) (buffer 0 8 4 4) false [] [J2 (KGrow 2) []; J2 (At2 3 (PWriteByte 200)) []; J2 KBytes []] None [];
   mkW Mini3 (buffer 2 0 2 2) false [] [J3 CFlipAllBits []; J3 CBytes []] None [];
   mkW (BufOld V2) (buffer 3 0 3 3) false [] [J2 (At2 1 PReadByte) []; J2 (KGrow (-1)) []; J2 KCapacity []; J2 (At2 1 PReadByte) []; J2 KBytes []] None []].
Definition crowd_own : ownership := fun t b i =>
  match t with
  | 0%nat => b = 0%nat /\ 0 <= i < 4
  | 1%nat => b = 0%nat /\ 4 <= i < 8
  | 2%nat => b = 0%nat /\ 8 <= i < 12
  | 3%nat => b = 2%nat
  | 4%nat => b = 3%nat
  | _ => False
  end.

Ltac small := repeat first [apply Forall_cons | apply Forall_nil]; cbn; unfold is_byte, is_u64, is_i64; lia.
Ltac fits := repeat split; first [apply Z.leb_le; reflexivity | apply Z.ltb_lt; reflexivity | apply Nat.ltb_lt; reflexivity].
Lemma small_heap h : Forall (fun a => Forall is_byte a /\ zlen a <= 100) h -> wf_heap h.
Proof. apply Forall_impl. intros a [A B]. split; auto. change maxAlloc with 281474976710656. lia. Qed.
Lemma buffer_WF h blk off len cap : wf_heap h -> wf_slice h (mkSlice blk off len cap) -> forall k o js cu l,
  WF (sees h (mkW k (buffer blk off len cap) false o js cu l)).
Proof. intros H W k o js cu l. constructor; auto; cbn; unfold is_i64; lia. Qed.

Example C84_crowd_fits : exclusive crowd_own /\ at_home crowd_own crowd /\ opened crowd.
Proof.
  assert (H : wf_heap (memory crowd)). { apply small_heap. repeat apply Forall_cons; try apply Forall_nil; (split; [small|apply Z.leb_le; reflexivity]). }
  split; [|split].
  - intros t u b i. destruct t as [|[|[|[|[|t]]]]], u as [|[|[|[|[|u]]]]]; cbn; try tauto; try lia.
  - intros t w E. destruct t as [|[|[|[|[|t]]]]]; cbn in E; try (injection E as <-; split; cbn).
    1, 3, 5, 7, 9: intros i X; lia.
    1-5: intros j d I A i X; repeat (destruct I as [<-|I]; [cbn in A; try discriminate A; injection A as <-; cbn in X|]); try destruct I;
      intros u; destruct u as [|[|[|[|[|u]]]]]; cbn; lia.
    destruct t; discriminate.
  - unfold opened. repeat apply Forall_cons; try apply Forall_nil; (split; [apply buffer_WF; [exact H|fits]|]); do 3 (split; [reflexivity|]);
      repeat apply Forall_cons; try apply Forall_nil; cbn; unfold valid_mini, valid_old_mini; cbn; repeat split; first [apply Z.leb_le; reflexivity | apply Z.ltb_lt; reflexivity | apply Nat.ltb_lt; reflexivity | discriminate | exact I].
Qed.

(** A schedule after which four goroutines have finished and the fifth waits. *)
Definition busy : list nat := concat (repeat [0; 1; 2; 3; 4; 2; 0]%nat 80).
Definition after : shop := drive (job_body policy) crowd busy.
Example C84_crowd_works : exists sch tr, works (job_body policy) crowd sch tr after.
Proof. apply (drive_sound _ _ _ [] []). constructor. Qed.
Example C84_crowd_answers :
  firstn 4 (memory after) = [[21; 22; 23; 24; 5; 21; 22; 23; 9; 10; 11; 12]; [21; 22; 23; 24]; [224; 223]; [41; 42; 43]] /\
  firstn 4 (map (fun w => (w_todo w, match w_cur w with None => true | _ => false end)) (workers after)) = repeat ([], true) 4 /\
  map (fun w => firstn 3 (w_done w)) (workers after) =
    [[MReturned RUnit []; MReturned RUnit []; MReturned (RBytes [22; 23; 24]) []];
     [MRaised index_error []; MReturned (RInt 21) [21]; MReturned (RBytes [5; 21; 22; 23]) []];
     [MReturned RUnit []; MReturned RUnit []; MReturned (RBytes [9; 10; 11; 200; 0; 0]) []];
     [MReturned RUnit []; MReturned (RBytes [224; 223]) []];
     [MReturned (RInt 42) []; MRaised (RuntimeError MakeLenOutOfRange) []; MReturned (RInt 3) []]].
Proof. split; [|split]; vm_compute; reflexivity. Qed.
Example C84_one_waits : Forall finished (firstn 4 (workers after)) /\ Forall waits (skipn 4 (workers after)).
Proof.
  split.
  - assert (E : map (fun w => (w_cur w, w_todo w)) (firstn 4 (workers after)) = repeat (None, []) 4) by (vm_compute; reflexivity).
    apply Forall_forall. intros w I. apply (in_map (fun w => (w_cur w, w_todo w))) in I. rewrite E in I. apply repeat_spec in I. injection I as A B. now split.
  - assert (E : map (fun w => (match w_cur w with Some (Lock _) => true | _ => false end, w_mu w)) (skipn 4 (workers after)) = [(true, true)]) by (vm_compute; reflexivity).
    apply Forall_forall. intros w I. apply (in_map (fun w => (match w_cur w with Some (Lock _) => true | _ => false end, w_mu w))) in I. rewrite E in I.
    destruct I as [I|[]]. injection I as A B. destruct (w_cur w) as [[]|] eqn:C; try discriminate A. eexists. split; [exact C|auto].
Qed.

(** ** What the hypotheses are for *)

(** The bytes must be apart up to the capacity: here two v2 buffers have two bytes
    each of one array, the first may append to its own within the array, and Grow
    of the first changes what the second reads. *)
Definition neighbours : shop := mkShop [[1; 2; 3; 4]]
  [mkW (BufOld V2) (buffer 0 0 2 4) false [] [J2 (KGrow 1) []] None [];
   mkW (BufOld V2) (buffer 0 2 2 2) false [] [J2 (At2 0 PReadByte) []] None []].
Theorem C84_spare_capacity_matters pol : opened neighbours /\
  (exists own, exclusive own /\ forall t w, nth_error (workers neighbours) t = Some w ->
     forall i, let d := b_buf (w_buf w) in s_off d <= i < s_off d + s_len d -> own t (s_blk d) i) /\
  exists sch tr c w, works (job_body pol) neighbours sch tr c /\ nth_error (workers c) 1 = Some w /\ finished w /\
    w_done w = [MReturned (RInt 0) []] /\
    fst (alone (job_body pol) (BufOld V2) (mkSt (memory neighbours) (buffer 0 2 2 2) false []) [J2 (At2 0 PReadByte) []]) = [MReturned (RInt 3) []].
Proof.
  split; [|split].
  - assert (H : wf_heap (memory neighbours)). { apply small_heap. repeat apply Forall_cons; try apply Forall_nil; (split; [small|apply Z.leb_le; reflexivity]). }
    unfold opened. repeat apply Forall_cons; try apply Forall_nil; (split; [apply buffer_WF; [exact H|fits]|]); do 3 (split; [reflexivity|]);
      repeat apply Forall_cons; try apply Forall_nil; cbn; unfold is_i64; (split; [try split; try lia; exact I|discriminate]).
  - exists (fun t b i => 2 * Z.of_nat t <= i < 2 * Z.of_nat t + 2). split.
    + intros t u b i X Y. lia.
    + intros t w E. destruct t as [|[|t]]; cbn in E; [injection E as <-; cbn; lia|injection E as <-; cbn; lia|destruct t; discriminate].
  - destruct (drive_sound (job_body pol) (repeat 0 40 ++ repeat 1 40)%nat neighbours [] [] neighbours (wk_start _ _)) as (sch & tr & W).
    eexists sch, tr, _, _. split; [exact W|]. split; [vm_compute; reflexivity|]. split; [split; reflexivity|]. split; vm_compute; reflexivity.
Qed.
Print Assumptions C84_spare_capacity_matters.
