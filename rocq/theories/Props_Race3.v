(** * Props_Race3: data races on a v3 [Buffer] shared by goroutines (C74).

    The v3 [Buffer] has no mutex.  Any number of goroutines make any calls on one
    buffer, in any schedule.  [traced] lists the memory accesses of an execution,
    [race_free] is the definition of the Go memory model (Race.v), and RaceSpec3.v
    says which parts of the buffer each call reads and writes. *)
From Coq Require Import ZArith List Bool String Lia Arith ZifyBool.
From Verif Require Import GoSem Errors GoParse Conv GoEval Front Tables FrontCalls.
From Verif Require Import Spec GoLemmas Typed Calls Abs History Witness Conc ConcSpec ConcSched.
From Verif Require Import Race RaceLemmas RaceOld FrontOldCalls Enough FrontConc RaceSpec3 Race3 Props_Front.
Import ListNotations.
Open Scope Z_scope.
Open Scope list_scope.

(** ** Compatible calls do not race *)

Theorem C74_race_free s programs tr c :
  WF s -> Forall (Forall (valid_call s)) programs -> Forall (Forall (separate s)) programs -> compatible3 programs ->
  traced do_call (start s programs) tr c -> race_free tr.
Proof. intros W V X C. apply compatible3_race_free; auto. apply wf_blk; exact W. Qed.
Print Assumptions C74_race_free.

(** ** Goroutines that use the buffer in a common way *)

(** Calls that write nothing. *)
Definition reader (c : call slice) : Prop :=
  match c with
  | At _ (OReadBit | OReadBits _ | OReadBytes _ | OReadByte | ORead _ _)
  | CAfterBit _ | CAfterByte _ | CBytes | CByteCapacity | CBitCapacity | CByteOffset | CBitOffset => True
  | _ => False
  end.
Lemma reader_writes c x : reader c -> writes3 c x = false.
Proof. destruct c as [? []| | | | | | | | | | | | | | | | | | | |], x; cbn; tauto. Qed.
Lemma reader_separate s c : reader c -> separate s c.
Proof. destruct c as [? []| | | | | | | | | | | | | | | | | | | |]; cbn; tauto. Qed.

(** Goroutines that only read need no mutex. *)
Theorem C74_readers s programs tr c :
  WF s -> Forall (Forall (valid_call s)) programs -> Forall (Forall reader) programs ->
  traced do_call (start s programs) tr c -> race_free tr.
Proof.
  intros W V R. apply C74_race_free; auto.
  - revert R. apply Forall_impl. intro cs. apply Forall_impl. apply reader_separate.
  - intros t u cs ds d e N E1 E2 I1 I2 (x & X & _). apply nth_error_In in E1.
    rewrite Forall_forall in R. specialize (R cs E1). rewrite Forall_forall in R. now rewrite reader_writes in X by auto.
Qed.
Print Assumptions C74_readers.

(** Positional calls that stay within the bytes [lo, hi); the offsets and limits
    may be asked for. *)
Definition within (lo hi : Z) (c : call slice) : Prop :=
  match c with
  | At off (OReadBit | OSetBit | OClearBit | OFlipBit) => 8 * lo <= off < 8 * hi
  | At off (OReadBits n | OSetBits _ n) => 1 <= n /\ 8 * lo <= off /\ off + n <= 8 * hi
  | At off (OWriteByte _ | OReadByte) => lo <= off < hi
  | At off (OWriteBytes d) => lo <= off /\ off + s_len d <= hi
  | At off (OReadBytes _) => True
  | At off (OWrite t d) => lo <= off /\ off + zlen d * tsize t <= hi
  | At off (ORead t n) => 1 <= n /\ lo <= off /\ off + n * tsize t <= hi
  | c => reader c
  end.

Lemma within_bytes lo hi c i : within lo hi c -> reads3 c (Byte i) = true \/ writes3 c (Byte i) = true -> lo <= i < hi.
Proof.
  intros H X. destruct c as [off o|o| | | |off r|off r|[off|]|[off|]| | |n|n|n| | | | | | |]; cbn in H; try contradiction;
    try (cbn in X; intuition congruence).
  assert (S : span off o i = true) by (cbn in X; destruct X as [X|X]; [auto|now apply andb_true_iff in X]). clear X.
  destruct o; cbn [span] in S; try discriminate S;
    try (apply andb_true_iff in S as [S1 S2]; apply Z.leb_le in S1; apply Z.leb_le in S2;
         assert (8 * (off / 8) <= off < 8 * (off / 8) + 8) by (pose proof (Z.div_mod off 8); pose proof (Z.mod_pos_bound off 8); lia);
         match type of S2 with _ <= ?e / 8 => assert (8 * (e / 8) <= e) by (pose proof (Z.div_mod e 8); pose proof (Z.mod_pos_bound e 8); lia) end;
         lia);
    lia.
Qed.
Lemma within_others lo hi c x : within lo hi c -> writes3 c x = true -> exists i, x = Byte i.
Proof.
  intros H X. destruct x as [|f|i]; [| |eauto]; exfalso;
  destruct c as [off o|o| | | |off r|off r|[off|]|[off|]| | |n|n|n| | | | | | |]; cbn in H, X; try contradiction; discriminate.
Qed.

(** Goroutines that keep to disjoint ranges of bytes need no mutex. *)
Theorem C74_disjoint_ranges s programs (lo hi : nat -> Z) tr c :
  WF s -> Forall (Forall (valid_call s)) programs -> Forall (Forall (separate s)) programs ->
  (forall t cs, nth_error programs t = Some cs -> Forall (within (lo t) (hi t)) cs) ->
  (forall t u, t <> u -> hi t <= lo u \/ hi u <= lo t) ->
  traced do_call (start s programs) tr c -> race_free tr.
Proof.
  intros W V S H D. apply C74_race_free; auto.
  intros t u cs ds d e N E1 E2 I1 I2 (x & X & Y).
  pose proof (H t cs E1) as F1. pose proof (H u ds E2) as F2. rewrite Forall_forall in F1, F2.
  specialize (F1 d I1). specialize (F2 e I2). destruct (within_others _ _ _ _ F1 X) as [i ->].
  pose proof (within_bytes _ _ _ i F1 (or_intror X)). pose proof (within_bytes _ _ _ i F2 Y).
  specialize (D t u N). lia.
Qed.
Print Assumptions C74_disjoint_ranges.

(** Calls that read along the bytes, resp. the bits, with its offset. *)
Definition byte_reader (c : call slice) : Prop :=
  match c with
  | Next (OReadBytes _ | OReadByte | ORead _ _) | CSeekByte _ _ | CByteOffset | CAfterByte _ => True
  | At _ (OReadBit | OReadBits _ | OReadBytes _ | OReadByte | ORead _ _) | CBytes | CByteCapacity | CBitCapacity => True
  | _ => False
  end.
Definition bit_reader (c : call slice) : Prop :=
  match c with
  | Next (OReadBit | OReadBits _) | CSeekBit _ _ | CBitOffset | CAfterBit _ => True
  | At _ (OReadBit | OReadBits _ | OReadBytes _ | OReadByte | ORead _ _) | CBytes | CByteCapacity | CBitCapacity => True
  | _ => False
  end.
Definition plain_reader (c : call slice) : Prop :=
  match c with
  | At _ (OReadBit | OReadBits _ | OReadBytes _ | OReadByte | ORead _ _) | CBytes | CByteCapacity | CBitCapacity => True
  | _ => False
  end.

Definition one_reader_each (t1 t2 : nat) (programs : list (list (call slice))) : Prop :=
  forall t cs, nth_error programs t = Some cs ->
     Forall (if (t =? t1)%nat then byte_reader else if (t =? t2)%nat then bit_reader else plain_reader) cs.
Lemma reader_kind t1 t2 programs t cs d : one_reader_each t1 t2 programs -> nth_error programs t = Some cs -> In d cs ->
  (t = t1 /\ byte_reader d) \/ (t = t2 /\ bit_reader d) \/ plain_reader d.
Proof.
  intros H E I. specialize (H t cs E). rewrite Forall_forall in H. specialize (H d I).
  destruct (Nat.eqb_spec t t1); auto. destruct (Nat.eqb_spec t t2); auto.
Qed.
Lemma one_reader_separate s t1 t2 programs : one_reader_each t1 t2 programs -> Forall (Forall (separate s)) programs.
Proof.
  intro H. apply Forall_forall. intros cs I. apply Forall_forall. intros d J. apply In_nth_error in I as [t E].
  destruct (reader_kind _ _ _ t cs d H E J) as [[_ X]|[[_ X]|X]]; destruct d as [? []|[]| | | | | | | | | | | | | | | | | | |]; cbn in X |- *; tauto.
Qed.
Lemma one_reader_compatible t1 t2 programs : t1 <> t2 -> one_reader_each t1 t2 programs -> compatible3 programs.
Proof.
  intros N12 H.
  intros t u cs ds d e N E1 E2 I1 I2 (x & X & Y).
  assert (A1 : forall d x, byte_reader d -> writes3 d x = true -> x = Fields FOff).
  { clear. intros d x H X. destruct d as [? []|[]| | | |? []|? []|[]|[]| | | | | | | | | | | |], x as [|[]|]; cbn in *; try contradiction; try discriminate; reflexivity. }
  assert (A2 : forall d x, bit_reader d -> writes3 d x = true -> x = Fields FBoff).
  { clear. intros d x H X. destruct d as [? []|[]| | | |? []|? []|[]|[]| | | | | | | | | | | |], x as [|[]|]; cbn in *; try contradiction; try discriminate; reflexivity. }
  assert (A3 : forall d x, plain_reader d -> writes3 d x = false).
  { clear. intros d x H. destruct d as [? []|[]| | | |? []|? []|[]|[]| | | | | | | | | | | |], x as [|[]|]; cbn in *; tauto. }
  assert (B1 : forall d, byte_reader d -> reads3 d (Fields FBoff) = false).
  { clear. intros d H. destruct d as [? []|[]| | | |? []|? []|[]|[]| | | | | | | | | | | |]; cbn in *; tauto. }
  assert (B2 : forall d, bit_reader d -> reads3 d (Fields FOff) = false).
  { clear. intros d H. destruct d as [? []|[]| | | |? []|? []|[]|[]| | | | | | | | | | | |]; cbn in *; tauto. }
  assert (B3 : forall d f, plain_reader d -> f = FOff \/ f = FBoff -> reads3 d (Fields f) = false).
  { clear. intros d f H [->| ->]; destruct d as [? []|[]| | | |? []|? []|[]|[]| | | | | | | | | | | |]; cbn in *; tauto. }
  destruct (reader_kind _ _ _ t cs d H E1 I1) as [[-> D]|[[-> D]|D]]; [apply A1 in X; auto|apply A2 in X; auto|rewrite A3 in X by auto; discriminate]; subst x;
    destruct (reader_kind _ _ _ u ds e H E2 I2) as [[-> E]|[[-> E]|E]]; try congruence; destruct Y as [Y|Y].
  - rewrite B2 in Y by auto. discriminate.
  - apply A2 in Y; [discriminate|auto].
  - rewrite B3 in Y by auto. discriminate.
  - rewrite A3 in Y by auto. discriminate.
  - rewrite B1 in Y by auto. discriminate.
  - apply A1 in Y; [discriminate|auto].
  - rewrite B3 in Y by auto. discriminate.
  - rewrite A3 in Y by auto. discriminate.
Qed.

(** One goroutine reads bytes with the byte offset, another reads bits with the bit
    offset, and the others read at positions of their own. *)
Theorem C74_one_reader_per_offset s programs t1 t2 tr c :
  WF s -> Forall (Forall (valid_call s)) programs -> t1 <> t2 -> one_reader_each t1 t2 programs ->
  traced do_call (start s programs) tr c -> race_free tr.
Proof. intros W V N H. apply C74_race_free; auto; [eapply one_reader_separate|eapply one_reader_compatible]; eauto. Qed.
Print Assumptions C74_one_reader_per_offset.

(** ** Calls that are not compatible race *)

(** The call of the same method with small arguments, at the first byte.  One
    little-endian and one big-endian type stand for all number types. *)
Definition format (t : numty) : numty := match ty_endian t with LE => U16LE | BE => F32BE end.
Definition typical_op (o : opn slice) : opn slice :=
  match o with
  | OReadBits _ => OReadBits 1
  | OSetBits _ _ => OSetBits 1 1
  | OWriteBytes _ => OWriteBytes (mkSlice 1 0 1 1)
  | OWriteByte _ => OWriteByte 5
  | OReadBytes _ => OReadBytes 1
  | OWrite t _ => OWrite (format t) [1]
  | ORead t _ => ORead (format t) 1
  | o => o
  end.
Definition typical (c : call slice) : call slice :=
  match c with
  | At _ o => At 0 (typical_op o)
  | Next o => Next (typical_op o)
  | CSeekBit _ r => CSeekBit 1 r
  | CSeekByte _ r => CSeekByte 1 r
  | CAfterBit (Some _) => CAfterBit (Some 0)
  | CAfterByte (Some _) => CAfterByte (Some 0)
  | CTruncateLeft _ => CTruncateLeft 1
  | CTruncateRight _ => CTruncateRight 1
  | CGrow _ => CGrow 1
  | c => c
  end.
(** Eight bytes, with room for one more, and one byte of the caller. *)
Definition shared3 : St := mkSt [[1; 2; 3; 4; 5; 6; 7; 8; 0]; [9]] (mkBuf (mkSlice 0 0 8 9) 0 8 0 64) false [].

Definition formats : list numty := [U16LE; F32BE].
Definition typical_ops : list (opn slice) :=
  [OReadBit; OReadBits 1; OSetBit; OClearBit; OFlipBit; OSetBits 1 1; OWriteBytes (mkSlice 1 0 1 1); OWriteByte 5; OReadBytes 1; OReadByte]
  ++ map (fun t => OWrite t [1]) formats ++ map (fun t => ORead t 1) formats.
Definition typical_calls : list (call slice) :=
  map (At 0) typical_ops ++ map Next typical_ops ++
  [CClearAllBits; CSetAllBits; CFlipAllBits; CSeekBit 1 true; CSeekBit 1 false; CSeekByte 1 true; CSeekByte 1 false;
   CAfterBit None; CAfterBit (Some 0); CAfterByte None; CAfterByte (Some 0); CAlignBit; CAlignByte;
   CTruncateLeft 1; CTruncateRight 1; CGrow 1; CRefresh; CReset; CBytes; CByteCapacity; CBitCapacity; CByteOffset; CBitOffset].
Lemma formats_all t : In (format t) formats.
Proof. unfold format. destruct (ty_endian t); cbn; auto. Qed.
Lemma typical_op_listed o : In (typical_op o) typical_ops.
Proof.
  unfold typical_ops. destruct o; cbn [typical_op]; rewrite in_app_iff.
  1-10: left; cbn; repeat (first [left; reflexivity|right]).
  - right. apply in_or_app. left. apply (in_map (fun t => OWrite t [1])). apply formats_all.
  - right. apply in_or_app. right. apply (in_map (fun t => ORead t 1)). apply formats_all.
Qed.
Lemma typical_listed c : In (typical c) typical_calls.
Proof.
  unfold typical_calls. destruct c as [? o|o| | | |? []|? []|[]|[]| | |?|?|?| | | | | | |]; cbn [typical]; rewrite in_app_iff.
  1: left; apply in_map, typical_op_listed.
  1: right; apply in_or_app; left; apply in_map, typical_op_listed.
  all: right; apply in_or_app; right; cbn [In]; repeat (first [left; reflexivity|right]).
Qed.
Example C74_shared : WF shared3 /\ forall c, valid_call shared3 (typical c) /\ separate shared3 (typical c).
Proof.
  split; [wf_state|].
  intros [? [| | | | | | | | | |[]|[]]|[| | | | | | | | | |[]|[]]| | | |? ?|? ?|[]|[]| | |?|?|?| | | | | | |];
    cbn [typical typical_op valid_call valid_opn separate]; repeat split; try exact I; try lia; try discriminate; hyp.
Qed.

Definition pieces : list piece := [Slice; Fields FOff; Fields FCap; Fields FBoff; Fields FBcap; Byte 0].
Definition conflictb (c d : call slice) : bool :=
  existsb (fun x => if writes3 c x then reads3 d x || writes3 d x else false) pieces.
(** The typical calls that reach some byte reach the first one. *)
Lemma first_byte c : In c typical_calls -> forall i,
  (reads3 c (Byte i) = true -> reads3 c (Byte 0) = true) /\ (writes3 c (Byte i) = true -> writes3 c (Byte 0) = true).
Proof.
  assert (F : Forall (fun c => (reads3 c (Byte 0) = true \/ forall i, reads3 c (Byte i) = false) /\
                               (writes3 c (Byte 0) = true \/ forall i, writes3 c (Byte i) = false)) typical_calls).
  { unfold typical_calls, typical_ops, formats. cbn [map app].
    repeat (apply Forall_cons; [split; first [left; vm_compute; reflexivity|right; intros; cbn; reflexivity]|]). apply Forall_nil. }
  intros I i. rewrite Forall_forall in F. destruct (F c I) as [[A|A] [B|B]]; split; auto; intro X; rewrite ?A, ?B in X; discriminate.
Qed.
Lemma conflictb_true c d : In c typical_calls -> In d typical_calls -> conflicting3 c d -> conflictb c d = true.
Proof.
  intros C D (x & W & B). apply existsb_exists.
  assert (H : exists y, In y pieces /\ writes3 c y = true /\ (reads3 d y = true \/ writes3 d y = true)).
  { destruct x as [|f|i].
    - exists Slice. cbn. auto.
    - exists (Fields f). split; [destruct f; cbn; auto 10|auto].
    - exists (Byte 0). split; [cbn; auto 10|]. split; [now apply (first_byte c C i)|].
      destruct B as [B|B]; [left|right]; now apply (first_byte d D i). }
  destruct H as (y & I & W' & B'). exists y. split; auto. rewrite W'. now apply orb_true_iff.
Qed.
Definition all_race (l : list (call slice)) : bool :=
  forallb (fun c => let x := accesses 99 (do_call c) shared3 in
    forallb (fun d => if conflictb c d then second_races x (do_call d) else true) l) l.
Lemma all_race_in l c d : all_race l = true -> In c l -> In d l -> conflictb c d = true ->
  second_races (accesses 99 (do_call c) shared3) (do_call d) = true.
Proof.
  intros H C D X. unfold all_race in H. rewrite forallb_forall in H. specialize (H c C). cbv beta zeta in H.
  rewrite forallb_forall in H. specialize (H d D). cbv beta in H. now rewrite X in H.
Qed.
Lemma all_race_v3 : all_race typical_calls = true.
Proof. vm_cast_no_check (eq_refl true). Qed.

(** For every two methods whose calls at the first byte are in conflict there is a
    schedule in which these calls race. *)
Theorem C74_conflicting_calls_race c d : conflicting3 (typical c) (typical d) ->
  exists tr cfg, traced do_call (start shared3 [[typical c]; [typical d]]) tr cfg /\ ~ race_free tr.
Proof.
  intro X. apply in_turn_sound. exact (all_race_in _ _ _ all_race_v3 (typical_listed c) (typical_listed d) (conflictb_true _ _ (typical_listed c) (typical_listed d) X)).
Qed.
Print Assumptions C74_conflicting_calls_race.

(** ** The Go text *)

(** What the interpreter of GoEval.v makes of the call in v3/buffer.generated.go. *)
Definition v3_text (pol : Z -> Z -> Z) (n : nat) (c : call slice) : prog (rv slice) :=
  go_body v3_program pol n (go_call c).

Lemma valid_opn_exists s o : wf_heap (heap s) -> valid_opn s o -> Forall exists_in_go (snd (go_opn o)).
Proof.
  intros W V. destruct o; cbn [go_opn snd valid_opn] in *; repeat apply Forall_cons; try apply Forall_nil; cbn [exists_in_go]; auto; try tauto.
  - eapply wf_slice_short; eauto.
  - unfold wf_data in V. change maxAlloc with (2 ^ 48) in V. assert (1 <= tsize t) by (destruct t; cbv; discriminate).
    assert (zlen d <= 2 ^ 48) by nia. lia.
Qed.
Lemma valid_exists s c : wf_heap (heap s) -> valid_call s c -> Forall exists_in_go (snd (go_call c)).
Proof.
  intros W V. destruct c as [off o|o| | | |off r|off r|[off|]|[off|]| | |n|n|n| | | | | | |]; cbn [valid_call go_call snd optional] in *.
  1: destruct V; apply Forall_cons; [assumption|]; now apply (valid_opn_exists s).
  1: now apply (valid_opn_exists s).
  all: repeat apply Forall_cons; try apply Forall_nil; cbn [exists_in_go]; auto; try exact I; reflexivity.
Qed.
Lemma do_call_enough c : Forall exists_in_go (snd (go_call c)) -> enough any (do_call c).
Proof.
  destruct c as [off o|o| | | |off r|off r|off|off| | |n|n|n| | | | | | |]; cbn [go_call do_call snd];
    try destruct o; cbn [go_opn snd do_at do_next]; try match goal with t : numty |- _ => destruct t end;
    cbn [WriteT WriteTNext ReadT ReadTNext]; intros H; args_tac H; enough_tac.
Qed.
Lemma v3_text_same pol s programs : WF s -> Forall (Forall (valid_call s)) programs ->
  exists N, forall n, (N <= n)%nat -> matched do_call (v3_text pol n) (start s programs) (start s programs).
Proof.
  intros W F. apply (matched_start do_call (v3_text pol) (valid_call s)).
  - intros c _. unfold v3_text. rewrite v3_program_text. apply body_conv. apply do_call_text.
  - intros c V. apply do_call_enough. eapply valid_exists; [|exact V]. apply W.
  - apply (wf_slice_short (heap s)); apply W.
  - exact F.
Qed.

Theorem C74_text_race_free pol s programs :
  WF s -> Forall (Forall (valid_call s)) programs -> Forall (Forall (separate s)) programs -> compatible3 programs ->
  exists N, forall n, (N <= n)%nat -> forall tr cfg, traced (v3_text pol n) (start s programs) tr cfg -> race_free tr.
Proof.
  intros W V X C. destruct (v3_text_same pol s programs W V) as [N HN]. exists N. intros n Hn tr cfg T.
  destruct (matched_traced' _ _ _ _ _ _ (HN n Hn) T) as (c2 & T2 & _). eapply C74_race_free; eauto.
Qed.
Print Assumptions C74_text_race_free.

Theorem C74_text_conflicting_calls_race pol c d : conflicting3 (typical c) (typical d) ->
  exists N, forall n, (N <= n)%nat -> exists tr cfg,
    traced (v3_text pol n) (start shared3 [[typical c]; [typical d]]) tr cfg /\ ~ race_free tr.
Proof.
  intro X. destruct C74_shared as [W V].
  destruct (v3_text_same pol shared3 [[typical c]; [typical d]] W) as [N HN].
  { repeat constructor; apply V. }
  exists N. intros n Hn. destruct (C74_conflicting_calls_race c d X) as (tr & cfg & T & F).
  destruct (matched_traced _ _ _ _ _ _ (HN n Hn) T) as (c2 & T2 & _). eauto.
Qed.
Print Assumptions C74_text_conflicting_calls_race.

(** ** Concrete cases *)

(** Three goroutines that keep to the bytes 0-1, 2-5 and 6-7. *)
Definition three_ranges : list (list (call slice)) :=
  [[At 0 (OWriteByte 7); At 8 OSetBit; CByteOffset]; [At 2 (OWrite F32BE [1065353216]); At 2 (ORead U16LE 2); At 40 (OSetBits 5 8)];
   [At 6 (OWriteBytes (mkSlice 1 0 1 1)); At 7 OReadByte; CBytes]].
Definition range_lo (t : nat) : Z := match t with O => 0 | 1%nat => 2 | 2%nat => 6 | _ => 8 + Z.of_nat t end.
Definition range_hi (t : nat) : Z := match t with O => 2 | 1%nat => 6 | 2%nat => 8 | _ => 8 + Z.of_nat t end.
Example C74_case :
  WF shared3 /\ Forall (Forall (valid_call shared3)) three_ranges /\ Forall (Forall (separate shared3)) three_ranges /\
  (forall t cs, nth_error three_ranges t = Some cs -> Forall (within (range_lo t) (range_hi t)) cs) /\
  (forall t u, t <> u -> range_hi t <= range_lo u \/ range_hi u <= range_lo t) /\
  compatible3 three_ranges /\
  exists tr cfg, traced do_call (start shared3 three_ranges) tr cfg /\ finished cfg /\
    content (sh cfg) = [7; 130; 63; 128; 0; 5; 9; 8].
Proof.
  split; [apply C74_shared|].
  split; [repeat (constructor || (cbn [valid_call valid_opn]; hyp) || (cbn; unfold is_i64, is_byte; lia))|].
  split; [repeat (constructor; cbn [separate]; auto); discriminate|].
  assert (W : forall t cs, nth_error three_ranges t = Some cs -> Forall (within (range_lo t) (range_hi t)) cs).
  { intros [|[|[|t]]] cs E; [..|destruct t; discriminate E]; injection E as <-;
      (repeat (apply Forall_cons; [cbn [within reader range_lo range_hi s_len]; try exact I; try lia; try (change (tsize U16LE) with 2; lia); try (change (zlen [1065353216]) with 1; change (tsize F32BE) with 4; lia)|])); apply Forall_nil. }
  assert (D : forall t u, t <> u -> range_hi t <= range_lo u \/ range_hi u <= range_lo t).
  { intros [|[|[|t]]] [|[|[|u]]] N; cbn [range_lo range_hi]; try lia; try congruence. }
  split; [exact W|]. split; [exact D|]. split.
  { intros t u cs ds d e N E1 E2 I1 I2 (x & X & Y).
    pose proof (W t cs E1) as F1. pose proof (W u ds E2) as F2. rewrite Forall_forall in F1, F2.
    specialize (F1 d I1). specialize (F2 e I2). destruct (within_others _ _ _ _ F1 X) as [i ->].
    pose proof (within_bytes _ _ _ i F1 (or_intror X)). pose proof (within_bytes _ _ _ i F2 Y).
    specialize (D t u N). lia. }
  destruct (tsched do_call [(0, 3); (1, 5); (2, 3); (1, 9); (0, 99); (2, 99); (1, 99)]%nat (start shared3 three_ranges)) as [tr cfg] eqn:E.
  exists tr, cfg. split; [eapply tsched_sound; exact E|].
  vm_compute in E. injection E as <- <-. split; [repeat constructor|]. vm_compute. reflexivity.
Qed.

(** A Grow and a read, two reads with one offset, writes to one byte: conflicts.
    A write of two bytes and a write of the next byte are compatible. *)
Example C74_conflicts :
  conflicting3 (CGrow 4) (At 0 OReadByte) /\ conflicting3 (Next OReadByte) (Next OReadByte) /\
  conflicting3 (At 4 (OWrite U16LE [1])) (At 5 (OWriteByte 1)) /\ conflicting3 (At 3 OSetBit) (At 5 OReadBit) /\
  ~ conflicting3 (At 4 (OWrite U16LE [1])) (At 6 (OWriteByte 1)) /\ ~ conflicting3 (Next OReadByte) (Next OReadBit).
Proof.
  repeat split.
  - exists Slice. cbn; auto.
  - exists (Fields FOff). cbn; auto.
  - exists (Byte 5). cbn; auto.
  - exists (Byte 0). cbn; auto.
  - intros ([|[]|i] & X & Y); cbn in X, Y; try discriminate. change (tsize U16LE) with 2 in *. change (zlen [1]) with 1 in *. lia.
  - intros ([|[]|i] & X & Y); cbn in X, Y; try discriminate; destruct Y; discriminate.
Qed.
