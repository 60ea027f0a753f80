(** * FrontCalls: the calls of Calls.v as calls in the Go text of v3. *)
From Coq Require Import ZArith List Bool String Lia.
From Verif Require Import GoSem Conv GoEval Front Tables TableProofs Spec Typed Calls.
From Verif Require V3Buffer V3BufferTyped FrontV3 FrontV3Typed.
Import ListNotations.
Open Scope Z_scope.

(** The Go type of the elements of a format, and its name in method names. *)
Definition ity_of_num (t : numty) : ity :=
  match t with
  | U16LE | U16BE => U16 | U32LE | U32BE => U32 | U64LE | U64BE => U64
  | I16LE | I16BE => I16 | I32LE | I32BE => I32 | I64LE | I64BE => I64
  | F32LE | F32BE => F32 | F64LE | F64BE => F64
  end.
Definition num_name (t : numty) : string :=
  match t with
  | U16LE => "U16LE" | U16BE => "U16BE" | U32LE => "U32LE" | U32BE => "U32BE" | U64LE => "U64LE" | U64BE => "U64BE"
  | I16LE => "I16LE" | I16BE => "I16BE" | I32LE => "I32LE" | I32BE => "I32BE" | I64LE => "I64LE" | I64BE => "I64BE"
  | F32LE => "F32LE" | F32BE => "F32BE" | F64LE => "F64LE" | F64BE => "F64BE"
  end.

(** An operation as a Go call: the method and the arguments after the offset. *)
Definition go_opn (o : opn slice) : string * list val :=
  match o with
  | OReadBit => ("ReadBit", [])
  | OReadBits n => ("ReadBits", [VInt I64 n])
  | OSetBit => ("SetBit", [])
  | OClearBit => ("ClearBit", [])
  | OFlipBit => ("FlipBit", [])
  | OSetBits data n => ("SetBits", [VInt U64 data; VInt I64 n])
  | OWriteBytes d => ("WriteBytes", [VBytes d])
  | OWriteByte v => ("WriteByte", [VInt U8 v])
  | OReadBytes n => ("ReadBytes", [VInt I64 n])
  | OReadByte => ("ReadByte", [])
  | OWrite t d => (String.append "Write" (num_name t), [VInts (ity_of_num t) d])
  | ORead t n => (String.append "Read" (num_name t), [VInt I64 n])
  end%string.
Definition optional (o : option Z) : list Z := match o with Some x => [x] | None => [] end.
Definition go_call (c : call slice) : string * list val :=
  match c with
  | At off o => (fst (go_opn o), VInt I64 off :: snd (go_opn o))
  | Next o => (String.append (fst (go_opn o)) "Next", snd (go_opn o))
  | CClearAllBits => ("ClearAllBits", [])
  | CSetAllBits => ("SetAllBits", [])
  | CFlipAllBits => ("FlipAllBits", [])
  | CSeekBit off r => ("SeekBit", [VInt I64 off; VBool r])
  | CSeekByte off r => ("SeekByte", [VInt I64 off; VBool r])
  | CAfterBit o => ("AfterBit", [VInts I64 (optional o)])
  | CAfterByte o => ("AfterByte", [VInts I64 (optional o)])
  | CAlignBit => ("AlignBit", [])
  | CAlignByte => ("AlignByte", [])
  | CTruncateLeft n => ("TruncateLeft", [VInt I64 n])
  | CTruncateRight n => ("TruncateRight", [VInt I64 n])
  | CGrow n => ("Grow", [VInt I64 n])
  | CRefresh => ("Refresh", [])
  | CReset => ("Reset", [])
  | CBytes => ("Bytes", [])
  | CByteCapacity => ("ByteCapacity", [])
  | CBitCapacity => ("BitCapacity", [])
  | CByteOffset => ("ByteOffset", [])
  | CBitOffset => ("BitOffset", [])
  end%string.

(** A Go value as an answer.  v1's ReadComplex returns its slice as an [interface{}]. *)
Definition answer_of (v : val) : option (rv slice) :=
  match v with
  | VUnit => Some RUnit
  | VInt _ z => Some (RInt z)
  | VBytes s => Some (RBytes s)
  | VInts _ l => Some (RNums l)
  | VAny (VInts _ l) => Some (RNums l)
  | _ => None
  end.
Definition answers (a : rv slice) (r : env * signal) : Prop :=
  exists v, r = ([], Return v) /\ answer_of v = Some a.

Lemma conv_map {A B C} (R : A -> C -> Prop) (R' : B -> C -> Prop) (f : A -> B) T :
  (forall a c, R a c -> R' (f a) c) -> forall P, conv R T P -> conv R' (bind T (fun a => Ret (f a))) P.
Proof.
  intros HR. conv_cases T IH; intros P; cbn [conv bind]; try exact (fun H => H);
    try (intros [M [K [HK H]]]; exists M, K; (split; [exact HK|]); first [intros x; apply IH; apply H | apply IH; exact H]).
  intros [M [b [Hb H]]]. exists M, b. auto.
Qed.

(** All large [n] give one and the same outcome. *)
Lemma conv_limit {A B} (R : A -> B -> Prop) T : forall P s,
  conv R T P -> run T s <> Stuck ->
  exists r, res_rel R (run T s) r /\ exists N, forall n, (N <= n)%nat -> run (P n) s = r.
Proof.
  conv_cases T IH; intros P st; cbn [conv run]; intros H HS; try congruence.
  - destruct H as [M [b [Hb H]]]. exists (Done b st). split; [constructor; exact Hb|].
    exists M. intros n Hn. now rewrite H by lia.
  - destruct H as [M H]. exists (Panicked er st). split; [constructor|]. exists M. intros n Hn. now rewrite H by lia.
  - destruct H as [M [K [HK H]]].
    destruct (IH (b_buf (bb st)) (fun n => K n (b_buf (bb st))) st (H _) HS) as [r [Hr [N HN]]].
    exists r. split; [exact Hr|]. exists (M + N)%nat. intros n Hn. rewrite HK by lia. apply HN; lia.
  - destruct H as [M [K [HK H]]].
    destruct (IH K _ H HS) as [r [Hr [N HN]]].
    exists r. split; [exact Hr|]. exists (M + N)%nat. intros n Hn. rewrite HK by lia. apply HN; lia.
  - destruct H as [M [K [HK H]]].
    destruct (IH _ (fun n => K n _) st (H (get_fld (bb st) fd)) HS) as [r [Hr [N HN]]].
    exists r. split; [exact Hr|]. exists (M + N)%nat. intros n Hn. rewrite HK by lia. apply HN; lia.
  - destruct H as [M [K [HK H]]].
    destruct (IH K _ H HS) as [r [Hr [N HN]]].
    exists r. split; [exact Hr|]. exists (M + N)%nat. intros n Hn. rewrite HK by lia. apply HN; lia.
  - destruct H as [M [K [HK H]]].
    destruct (heap_read (heap st) bk i 1) as [[|w [|? ?]]|] eqn:E; try congruence.
    destruct (IH w (fun n => K n w) st (H w) HS) as [r [Hr [N HN]]].
    exists r. split; [exact Hr|]. exists (M + N)%nat. intros n Hn. rewrite HK by lia. cbn [run]. rewrite E. apply HN; lia.
  - destruct H as [M [K [HK H]]].
    destruct (heap_write (heap st) bk i [v]) as [h|] eqn:E; try congruence.
    destruct (IH K _ H HS) as [r [Hr [N HN]]].
    exists r. split; [exact Hr|]. exists (M + N)%nat. intros n Hn. rewrite HK by lia. cbn [run]. rewrite E. apply HN; lia.
  - destruct H as [M [K [HK H]]].
    destruct (heap_read (heap st) sb si c') as [d|] eqn:E1; try congruence.
    destruct (heap_write (heap st) db di d) as [h|] eqn:E2; try congruence.
    destruct (IH K _ H HS) as [r [Hr [N HN]]].
    exists r. split; [exact Hr|]. exists (M + N)%nat. intros n Hn. rewrite HK by lia. cbn [run]. rewrite E1, E2. apply HN; lia.
  - destruct H as [M [K [HK H]]].
    destruct (IH _ (fun n => K n _) _ (H (List.length (heap st))) HS) as [r [Hr [N HN]]].
    exists r. split; [exact Hr|]. exists (M + N)%nat. intros n Hn. rewrite HK by lia. apply HN; lia.
  - destruct H as [M [K [HK H]]].
    destruct (IH (outs st) (fun n => K n (outs st)) st (H _) HS) as [r [Hr [N HN]]].
    exists r. split; [exact Hr|]. exists (M + N)%nat. intros n Hn. rewrite HK by lia. apply HN; lia.
  - destruct H as [M [K [HK H]]].
    destruct (IH K _ H HS) as [r [Hr [N HN]]].
    exists r. split; [exact Hr|]. exists (M + N)%nat. intros n Hn. rewrite HK by lia. apply HN; lia.
  - destruct H as [M [K [HK H]]]. destruct (mu st) eqn:E.
    + exists (Deadlock st). split; [constructor|]. exists M. intros n Hn. rewrite HK by lia. cbn [run]. now rewrite E.
    + destruct (IH K _ H HS) as [r [Hr [N HN]]].
      exists r. split; [exact Hr|]. exists (M + N)%nat. intros n Hn. rewrite HK by lia. cbn [run]. rewrite E. apply HN; lia.
  - destruct H as [M [K [HK H]]]. destruct (mu st) eqn:E; try congruence.
    destruct (IH K _ H HS) as [r [Hr [N HN]]].
    exists r. split; [exact Hr|]. exists (M + N)%nat. intros n Hn. rewrite HK by lia. cbn [run]. rewrite E. apply HN; lia.
Qed.

Section M.
Variable p : part.
Variable pol : Z -> Z -> Z.

(** The call [q] of the text is [T]. *)
Definition means (q : string * list val) (T : prog (rv slice)) : Prop :=
  conv answers T (fun n => D p pol n (QCall (fst q) (snd q))).

Lemma means_unit f args T : text_of p pol f args unit_ T -> means (f, args) (ret_unit T).
Proof. apply (conv_map (returns unit_) answers (fun _ => RUnit)). intros a c ->. exists VUnit. auto. Qed.
Lemma means_int f args t T : text_of p pol f args (VInt t) T -> means (f, args) (ret_int T).
Proof. apply (conv_map (returns (VInt t)) answers RInt). intros a c ->. exists (VInt t a). auto. Qed.
Lemma means_bytes f args T : text_of p pol f args VBytes T -> means (f, args) (ret_bytes T).
Proof. apply (conv_map (returns VBytes) answers RBytes). intros a c ->. exists (VBytes a). auto. Qed.
Lemma means_nums f args t T : text_of p pol f args (VInts t) T -> means (f, args) (ret_nums T).
Proof. apply (conv_map (returns (VInts t)) answers RNums). intros a c ->. exists (VInts t a). auto. Qed.

End M.

Section C.
Variable pol : Z -> Z -> Z.
Import FrontV3 FrontV3Typed.

Lemma WriteT_text t off d :
  text_of B3 pol (String.append "Write" (num_name t)) [VInt I64 off; VInts (ity_of_num t) d] unit_ (WriteT t off d).
Proof.
  destruct t; [apply WriteU16LE_text|apply WriteU16BE_text|apply WriteU32LE_text|apply WriteU32BE_text
  |apply WriteU64LE_text|apply WriteU64BE_text|apply WriteI16LE_text|apply WriteI16BE_text|apply WriteI32LE_text
  |apply WriteI32BE_text|apply WriteI64LE_text|apply WriteI64BE_text|apply WriteF32LE_text|apply WriteF32BE_text
  |apply WriteF64LE_text|apply WriteF64BE_text].
Qed.
Lemma WriteTNext_text t d :
  text_of B3 pol (String.append (String.append "Write" (num_name t)) "Next") [VInts (ity_of_num t) d] unit_ (WriteTNext t d).
Proof.
  destruct t; [apply WriteU16LENext_text|apply WriteU16BENext_text|apply WriteU32LENext_text|apply WriteU32BENext_text
  |apply WriteU64LENext_text|apply WriteU64BENext_text|apply WriteI16LENext_text|apply WriteI16BENext_text|apply WriteI32LENext_text
  |apply WriteI32BENext_text|apply WriteI64LENext_text|apply WriteI64BENext_text|apply WriteF32LENext_text|apply WriteF32BENext_text
  |apply WriteF64LENext_text|apply WriteF64BENext_text].
Qed.
Lemma ReadT_text t off n :
  text_of B3 pol (String.append "Read" (num_name t)) [VInt I64 off; VInt I64 n] (VInts (ity_of_num t)) (ReadT t off n).
Proof.
  destruct t; [apply ReadU16LE_text|apply ReadU16BE_text|apply ReadU32LE_text|apply ReadU32BE_text
  |apply ReadU64LE_text|apply ReadU64BE_text|apply ReadI16LE_text|apply ReadI16BE_text|apply ReadI32LE_text
  |apply ReadI32BE_text|apply ReadI64LE_text|apply ReadI64BE_text|apply ReadF32LE_text|apply ReadF32BE_text
  |apply ReadF64LE_text|apply ReadF64BE_text].
Qed.
Lemma ReadTNext_text t n :
  text_of B3 pol (String.append (String.append "Read" (num_name t)) "Next") [VInt I64 n] (VInts (ity_of_num t)) (ReadTNext t n).
Proof.
  destruct t; [apply ReadU16LENext_text|apply ReadU16BENext_text|apply ReadU32LENext_text|apply ReadU32BENext_text
  |apply ReadU64LENext_text|apply ReadU64BENext_text|apply ReadI16LENext_text|apply ReadI16BENext_text|apply ReadI32LENext_text
  |apply ReadI32BENext_text|apply ReadI64LENext_text|apply ReadI64BENext_text|apply ReadF32LENext_text|apply ReadF32BENext_text
  |apply ReadF64LENext_text|apply ReadF64BENext_text].
Qed.

(** Every call of the API. *)
Lemma do_call_text c : means B3 pol (go_call c) (do_call c).
Proof.
  destruct c as [off o|o| | | |off r|off r|off|off| | |n|n|n| | | | | | |]; cbn [go_call do_call].
  - destruct o; cbn [go_opn do_at fst snd].
    + eapply means_int, ReadBit_text.
    + eapply means_int, ReadBits_text.
    + apply means_unit, SetBit_text.
    + apply means_unit, ClearBit_text.
    + apply means_unit, FlipBit_text.
    + apply means_unit, SetBits_text.
    + apply means_unit, WriteBytes_text.
    + apply means_unit, WriteByte_text.
    + apply means_bytes, ReadBytes_text.
    + eapply means_int, ReadByte_text.
    + apply means_unit, WriteT_text.
    + eapply means_nums, ReadT_text.
  - destruct o; cbn [go_opn do_next fst snd].
    + eapply means_int, ReadBitNext_text.
    + eapply means_int, ReadBitsNext_text.
    + apply means_unit, SetBitNext_text.
    + apply means_unit, ClearBitNext_text.
    + apply means_unit, FlipBitNext_text.
    + apply means_unit, SetBitsNext_text.
    + apply means_unit, WriteBytesNext_text.
    + apply means_unit, WriteByteNext_text.
    + apply means_bytes, ReadBytesNext_text.
    + eapply means_int, ReadByteNext_text.
    + apply means_unit, WriteTNext_text.
    + eapply means_nums, ReadTNext_text.
  - apply means_unit, ClearAllBits_text.
  - apply means_unit, SetAllBits_text.
  - apply means_unit, FlipAllBits_text.
  - apply means_unit, SeekBit_text.
  - apply means_unit, SeekByte_text.
  - eapply means_int. replace off with (hd_error (optional off)) at 2 by (destruct off; reflexivity). apply AfterBit_text.
  - eapply means_int. replace off with (hd_error (optional off)) at 2 by (destruct off; reflexivity). apply AfterByte_text.
  - apply means_unit, AlignBit_text.
  - apply means_unit, AlignByte_text.
  - apply means_unit, TruncateLeft_text.
  - apply means_unit, TruncateRight_text.
  - apply means_unit, Grow_text.
  - apply means_unit, Refresh_text.
  - apply means_unit, Reset_text.
  - apply means_bytes, Bytes_text.
  - eapply means_int, ByteCapacity_text.
  - eapply means_int, BitCapacity_text.
  - eapply means_int, ByteOffset_text.
  - eapply means_int, BitOffset_text.
Qed.
End C.
