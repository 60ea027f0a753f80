(** * FrontOldCalls: the calls of OldCalls.v as calls in the Go text of v2 and v1. *)
From Coq Require Import ZArith List Bool String Lia.
From Verif Require Import GoSem GoLemmas Conv GoEval Front Tables TableProofs Spec Typed Calls FrontCalls OldCalls V1Lemmas V1Calls Enough.
From Verif Require V2Buffer V2BufferTyped V1Buffer FrontV2 FrontV2Typed FrontV1.
Import ListNotations.
Open Scope Z_scope.

(** ** v2 *)

Definition go_op2 (o : op2 slice) : string * list val :=
  match o with
  | PReadBit => ("ReadBit", [])
  | PReadBits n => ("ReadBits", [VInt I64 n])
  | PSetBit data => ("SetBit", [VInt U8 data])
  | PSetBits data n => ("SetBits", [VInt U64 data; VInt I64 n])
  | PFlipBit => ("FlipBit", [])
  | PWriteBytes d => ("WriteBytes", [VBytes d])
  | PWriteByte v => ("WriteByte", [VInt U8 v])
  | PReadBytes n => ("ReadBytes", [VInt I64 n])
  | PReadByte => ("ReadByte", [])
  | PWrite t d => (String.append "Write" (num_name (fmt t)), [VInts (ity_of_num (fmt t)) d])
  | PRead t n => (String.append "Read" (num_name (fmt t)), [VInt I64 n])
  end%string.
Definition go_other2 (c : call2 slice) : string * list val :=
  match c with
  | At2 _ _ | Next2 _ => (""%string, [])
  | KClearAllBits => ("ClearAllBits", [])
  | KSetAllBits => ("SetAllBits", [])
  | KFlipAllBits => ("FlipAllBits", [])
  | KSeekBit off r => ("SeekBit", [VInt I64 off; VBool r])
  | KSeek off r => ("Seek", [VInt I64 off; VBool r])
  | KAfterBit o => ("AfterBit", [VInts I64 (optional o)])
  | KAfter o => ("After", [VInts I64 (optional o)])
  | KAlignBit => ("AlignBit", [])
  | KAlignByte => ("AlignByte", [])
  | KGrow n => ("Grow", [VInt I64 n])
  | KRefresh => ("Refresh", [])
  | KReset => ("Reset", [])
  | KBytes => ("Bytes", [])
  | KCapacity => ("Capacity", [])
  | KBitCapacity => ("BitCapacity", [])
  | KOffset => ("Offset", [])
  | KBitOffset => ("BitOffset", [])
  end%string.
Definition go_call2 (c : call2 slice) : string * list val :=
  match c with
  | At2 off o => (fst (go_op2 o), VInt I64 off :: snd (go_op2 o))
  | Next2 o => (String.append (fst (go_op2 o)) "Next", snd (go_op2 o))
  | _ => go_other2 c
  end.

Section V2.
Variable pol : Z -> Z -> Z.
Import FrontV2 FrontV2Typed.

Lemma WriteU_text t off d :
  text_of B2 pol (String.append "Write" (num_name (fmt t))) [VInt I64 off; VInts (ity_of_num (fmt t)) d] unit_ (WriteU t off d).
Proof.
  destruct t; [apply WriteU16LE_text|apply WriteU16BE_text|apply WriteU32LE_text|apply WriteU32BE_text
  |apply WriteU64LE_text|apply WriteU64BE_text].
Qed.
Lemma WriteUNext_text t d :
  text_of B2 pol (String.append (String.append "Write" (num_name (fmt t))) "Next") [VInts (ity_of_num (fmt t)) d] unit_ (WriteUNext t d).
Proof.
  destruct t; [apply WriteU16LENext_text|apply WriteU16BENext_text|apply WriteU32LENext_text|apply WriteU32BENext_text
  |apply WriteU64LENext_text|apply WriteU64BENext_text].
Qed.
Lemma ReadU_text t off n :
  text_of B2 pol (String.append "Read" (num_name (fmt t))) [VInt I64 off; VInt I64 n] (VInts (ity_of_num (fmt t))) (ReadU t off n).
Proof.
  destruct t; [apply ReadU16LE_text|apply ReadU16BE_text|apply ReadU32LE_text|apply ReadU32BE_text
  |apply ReadU64LE_text|apply ReadU64BE_text].
Qed.
Lemma ReadUNext_text t n :
  text_of B2 pol (String.append (String.append "Read" (num_name (fmt t))) "Next") [VInt I64 n] (VInts (ity_of_num (fmt t))) (ReadUNext t n).
Proof.
  destruct t; [apply ReadU16LENext_text|apply ReadU16BENext_text|apply ReadU32LENext_text|apply ReadU32BENext_text
  |apply ReadU64LENext_text|apply ReadU64BENext_text].
Qed.

(** Every call of the API. *)
Lemma do2_call_text c : means B2 pol (go_call2 c) (do2_call pol c).
Proof.
  destruct c as [off o|o| | | |off r|off r|off|off| | |n| | | | | | |]; cbn [go_call2 go_other2 do2_call].
  - destruct o; cbn [go_op2 do2_at fst snd].
    + eapply means_int, ReadBit_text.
    + eapply means_int, ReadBits_text.
    + apply means_unit, SetBit_text.
    + apply means_unit, SetBits_text.
    + apply means_unit, FlipBit_text.
    + apply means_unit, WriteBytes_text.
    + apply means_unit, WriteByte_text.
    + apply means_bytes, ReadBytes_text.
    + eapply means_int, ReadByte_text.
    + apply means_unit, WriteU_text.
    + eapply means_nums, ReadU_text.
  - destruct o; cbn [go_op2 do2_next fst snd].
    + eapply means_int, ReadBitNext_text.
    + eapply means_int, ReadBitsNext_text.
    + apply means_unit, SetBitNext_text.
    + apply means_unit, SetBitsNext_text.
    + apply means_unit, FlipBitNext_text.
    + apply means_unit, WriteBytesNext_text.
    + apply means_unit, WriteByteNext_text.
    + apply means_bytes, ReadBytesNext_text.
    + eapply means_int, ReadByteNext_text.
    + apply means_unit, WriteUNext_text.
    + eapply means_nums, ReadUNext_text.
  - apply means_unit, ClearAllBits_text.
  - apply means_unit, SetAllBits_text.
  - apply means_unit, FlipAllBits_text.
  - apply means_unit, SeekBit_text.
  - apply means_unit, Seek_text.
  - eapply means_int. replace off with (hd_error (optional off)) at 2 by (destruct off; reflexivity). apply AfterBit_text.
  - eapply means_int. replace off with (hd_error (optional off)) at 2 by (destruct off; reflexivity). apply After_text.
  - apply means_unit, AlignBit_text.
  - apply means_unit, AlignByte_text.
  - apply means_unit, Grow_text.
  - apply means_unit, Refresh_text.
  - apply means_unit, Reset_text.
  - apply means_bytes, Bytes_text.
  - eapply means_int, Capacity_text.
  - eapply means_int, BitCapacity_text.
  - eapply means_int, Offset_text.
  - eapply means_int, BitOffset_text.
Qed.

(** The arguments that a Go program can pass make every model complete. *)
Lemma do2_call_enough c : Forall exists_in_go (snd (go_call2 c)) -> enough any (do2_call pol c).
Proof.
  destruct c as [off o|o| | | |off r|off r|off|off| | |n| | | | | | |]; cbn [go_call2 go_other2 do2_call snd];
    try destruct o; cbn [go_op2 snd do2_at do2_next]; try match goal with t : uty |- _ => destruct t end;
    cbn [WriteU WriteUNext ReadU ReadUNext]; intros H; args_tac H; enough_tac.
Qed.
End V2.

Lemma wf_slice_short h d : wf_heap h -> wf_slice h d -> short d.
Proof.
  intros H (H1 & H2 & H3 & H4). pose proof (proj1 (Forall_forall _ _) H (nth (s_blk d) h [])) as B.
  destruct B as [_ B]. { apply nth_In. exact H1. } unfold maxAlloc in B. split; lia.
Qed.
Lemma valid2_exists s c : wf_heap (heap s) -> valid_call2 s c -> Forall exists_in_go (snd (go_call2 c)).
Proof.
  intros W V. unfold valid_call2, valid_op2 in V.
  destruct c as [off o|o| | | |off r|off r|off|off| | |n| | | | | | |]; cbn [go_call2 go_other2 snd] in *;
    try destruct o; try match goal with o : option Z |- _ => destruct o end; cbn [go_op2 snd optional] in *;
    try match goal with t : uty |- _ => destruct t end;
    unfold wf_data, maxAlloc in V; cbn [tsize fmt] in V; change (2 ^ 47) with 140737488355328 in *;
    repeat match goal with |- Forall _ (_ :: _) => constructor | |- Forall _ [] => constructor end;
    cbn [exists_in_go ity_of_num fmt]; try exact I; try tauto;
    try (eapply wf_slice_short; [exact W|]; tauto); change (2 ^ 63) with 9223372036854775808;
    try (change (zlen [z]) with 1); try (change (zlen (@nil Z)) with 0); try lia.
  all: repeat match type of V with _ /\ _ => destruct V as [_ V] end; pose proof (zlen_nonneg d);
    match type of V with _ * ?c <= ?m => let c' := eval compute in c in let m' := eval compute in m in change c with c' in V; change m with m' in V end; lia.
Qed.

(** ** v1 *)

(** Every result satisfies [Q], whatever the memory answers. *)
Fixpoint always {A} (Q : A -> Prop) (T : prog A) : Prop :=
  match T with
  | Ret a => Q a
  | Panic _ | OutOfFuel => True
  | GetBuf k => forall x, always Q (k x)
  | GetF _ k | Load _ _ k => forall x, always Q (k x)
  | Alloc _ k => forall x, always Q (k x)
  | GetOuts k => forall x, always Q (k x)
  | SetBuf _ k | SetF _ _ k | Store _ _ _ k | Move _ _ _ _ _ k | SetOuts _ k | Lock k | Unlock k => always Q k
  end.
Lemma always_bind2 {A B} (Q : A -> Prop) (Q' : B -> Prop) (T : prog A) (f : A -> prog B) :
  always Q T -> (forall a, Q a -> always Q' (f a)) -> always Q' (bind T f).
Proof. intros HT H. revert HT. conv_cases T IH; cbn [always bind]; auto. Qed.
Lemma always_bind {A B} (Q : B -> Prop) (T : prog A) (f : A -> prog B) :
  (forall a, always Q (f a)) -> always Q (bind T f).
Proof. intros H. conv_cases T IH; cbn [always bind]; auto. Qed.
Lemma conv_map_always {A B C} (R : A -> C -> Prop) (R' : B -> C -> Prop) (Q : A -> Prop) (f : A -> prog B) T :
  (forall a c, R a c -> Q a -> exists b, f a = Ret b /\ R' b c) -> forall P, always Q T -> conv R T P -> conv R' (bind T f) P.
Proof.
  intros HR. conv_cases T IH; intros P; cbn [conv bind always]; intros HQ; try exact (fun H => H);
    try (intros [M [K [HK H]]]; exists M, K; (split; [exact HK|]); first [intros x; apply IH; [apply HQ | apply H] | apply IH; assumption]).
  intros [M [b [Hb H]]]. destruct (HR a b Hb HQ) as [b' [-> Hb']]. exists M, b. auto.
Qed.

(** v2's typed names, as calls of WriteComplex and ReadComplex. *)
Definition go_order (t : uty) : endian := order_of t.
Definition go_op1 (o : op2 slice) : string * list val :=
  match o with
  | PWrite t d => ("WriteComplex", [VAny (VInts (ity_of_num (fmt t)) d); VInt IInt (tsize (fmt t)); VEndian (go_order t)])
  | PRead t n => ("ReadComplex", [VInt I64 n; VInt IInt (tsize (fmt t)); VEndian (go_order t)])
  | _ => go_op2 o
  end%string.
Definition go_call1 (c : call2 slice) : string * list val :=
  match c with
  | At2 off o => (fst (go_op1 o), VInt I64 off :: snd (go_op1 o))
  | Next2 o => (String.append (fst (go_op1 o)) "Next", snd (go_op1 o))
  | _ => go_other2 c
  end.

Section V1.
Variable pol : Z -> Z -> Z.
Import FrontV1.

Lemma readComplex_type t off n : always (fun x => exists l, x = idata_of t l) (V1Buffer.readComplex off n (tsize (fmt t)) (order_of t)).
Proof.
  unfold V1Buffer.readComplex. apply always_bind. intros d.
  destruct t; cbn; apply always_bind; intros l; exists l; reflexivity.
Qed.
Lemma readComplexNext_type t n : always (fun x => exists l, x = idata_of t l) (V1Buffer.ReadComplexNext n (tsize (fmt t)) (order_of t)).
Proof.
  unfold V1Buffer.ReadComplexNext. apply always_bind. intros off.
  eapply always_bind2; [apply readComplex_type|]. intros x Hx. apply always_bind. intros []. exact Hx.
Qed.

Lemma means_idata p t f args T : always (fun x => exists l, x = idata_of t l) T ->
  text_of p pol f args any_ T -> means p pol (f, args) (ret_idata t T).
Proof.
  intros HA. unfold ret_idata. refine (conv_map_always (returns any_) answers _ _ T _ _ HA).
  intros a c -> [l ->]. rewrite nums_of_idata. exists (RNums l). split; [reflexivity|].
  exists (any_ (idata_of t l)). split; [reflexivity|]. destruct t; reflexivity.
Qed.

(** Every call v1 has. *)
Lemma do1_call_text c T : do1_call pol c = Some T -> means B1 pol (go_call1 c) T.
Proof.
  destruct c as [off o|o| | | |off r|off r|off|off| | |n| | | | | | |]; cbn [go_call1 go_other2 do1_call]; intros E;
    try discriminate E; injection E as <-.
  - destruct o; cbn [go_op1 go_op2 do1_at fst snd].
    + eapply means_int, ReadBit_text.
    + eapply means_int, ReadBits_text.
    + apply means_unit, SetBit_text.
    + apply means_unit, SetBits_text.
    + apply means_unit, FlipBit_text.
    + apply means_unit, WriteBytes_text.
    + apply means_unit, WriteByte_text.
    + apply means_bytes, ReadBytes_text.
    + eapply means_int, ReadByte_text.
    + apply means_unit.
      replace (VInts (ity_of_num (fmt t)) d) with (dyn (idata_of t d)) by (destruct t; reflexivity). apply WriteComplex_text.
    + apply means_idata; [apply readComplex_type|apply ReadComplex_text].
  - destruct o; cbn [go_op1 go_op2 do1_next fst snd].
    + eapply means_int, ReadBitNext_text.
    + eapply means_int, ReadBitsNext_text.
    + apply means_unit, SetBitNext_text.
    + apply means_unit, SetBitsNext_text.
    + apply means_unit, FlipBitNext_text.
    + apply means_unit, WriteBytesNext_text.
    + apply means_unit, WriteByteNext_text.
    + apply means_bytes, ReadBytesNext_text.
    + eapply means_int, ReadByteNext_text.
    + apply means_unit.
      replace (VInts (ity_of_num (fmt t)) d) with (dyn (idata_of t d)) by (destruct t; reflexivity). apply WriteComplexNext_text.
    + apply means_idata; [apply readComplexNext_type|apply ReadComplexNext_text].
  - apply means_unit, ClearAllBits_text.
  - apply means_unit, SetAllBits_text.
  - apply means_unit, FlipAllBits_text.
  - apply means_unit, SeekBit_text.
  - apply means_unit, Seek_text.
  - eapply means_int. replace off with (hd_error (optional off)) at 2 by (destruct off; reflexivity). apply AfterBit_text.
  - eapply means_int. replace off with (hd_error (optional off)) at 2 by (destruct off; reflexivity). apply After_text.
  - apply means_unit, AlignBit_text.
  - apply means_unit, AlignByte_text.
  - apply means_unit, Grow_text.
  - apply means_unit, Refresh_text.
  - apply means_bytes, Bytes_text.
  - eapply means_int, Capacity_text.
  - eapply means_int, BitCapacity_text.
  - eapply means_int, Offset_text.
  - eapply means_int, BitOffset_text.
Qed.
End V1.
