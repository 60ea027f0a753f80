(** * Props_GenText: what the generated code does (C51). *)
From Coq Require Import ZArith List Bool String Lia.
From Verif Require Import Gen GenSpec.
From Verif Require Import GoSem Errors GoLex GoParse SrcV3 AstV3 Conv GoEval Front Tables TableProofs.
From Verif Require Import Spec GoLemmas V3BitLemmas V3ByteLemmas Typed TypedCanon TypedLemmas TypedReadLemmas CodecLemmas Calls FrontCalls Abs Sim History NewBuf
  Witness MiniAbs MiniLemmas MiniSim MiniHistory FrontMiniCalls.
From Verif Require Import Props_Front.
From Verif Require GenLemmas Props_Gen Props_Bytes Props_Mini Props_State.

Import ListNotations.
Open Scope Z_scope.

(** The program that the methods of a type are part of. *)
Definition program_of (recv : string) : list gdecl :=
  if String.eqb recv "Buffer" then v3_program else v3_mini_program.

Lemma find_func_in ds f : NoDup (functions ds) -> In (DFunc f) ds -> find_func (f_name f) ds = Some f.
Proof.
  unfold find_func. induction ds as [|d ds IH]; intros N I; [destruct I|].
  cbn [functions flat_map] in N. destruct I as [->|I].
  - now rewrite String.eqb_refl.
  - destruct d as [g| | | | |]; try (apply IH; assumption).
    cbn [app] in N. inversion N as [|? ? N1 N2]; subst.
    destruct (String.eqb_spec (f_name g) (f_name f)) as [E|E]; [|apply IH; assumption].
    exfalso. apply N1. rewrite E. apply in_flat_map. exists (DFunc f). split; [exact I|left; reflexivity].
Qed.

(** C51: a program that calls the methods a directive asks for, in the package
    with the committed files, runs the generated code. *)
Theorem C51_generated_code_runs a :
  invalid a = None -> ~ float16 a ->
  exists f g, p_decls fuel (no_comments (code_of a)) = Some [DFunc f; DFunc g]
    /\ find_func (method_name a) (program_of (a_recv a)) = Some f
    /\ find_func (method_name a ++ "Next") (program_of (a_recv a)) = Some g.
Proof.
  intros V F. destruct (Props_Gen.C51_functions a V F) as (ds & f & g & P & G & If & Nf & Ig & Ng).
  assert (E : exists es, program_of (a_recv a) = (ds ++ es)%list /\ NoDup (functions (ds ++ es))).
  { unfold program_of, committed in *. destruct (String.eqb (a_recv a) "Buffer").
    - exists errors_ast. rewrite buffer_ast_parsed in P. inversion P; subst.
      split; [exact v3_program_text|no_dup].
    - exists errors_ast. rewrite minibuf_ast_parsed in P. inversion P; subst.
      split; [exact v3_mini_program_text|no_dup]. }
  destruct E as (es & -> & N).
  assert (K : forall name d, In d ds -> is_func (a_recv a) name d = true ->
             exists h, d = DFunc h /\ find_func name (ds ++ es) = Some h).
  { intros name d I H. destruct d as [[[[x r]|] n ps rs b]| | | | |]; cbn in H; try discriminate.
    destruct r as [|? ?|r| | |]; try discriminate. destruct r as [r| | | | |]; try discriminate.
    apply andb_prop in H as [_ H]. apply String.eqb_eq in H. subst n.
    eexists. split; [reflexivity|].
    apply (find_func_in _ (mkFunc _ name _ _ _) N). apply in_or_app. left. exact I. }
  destruct (K _ f If Nf) as (f' & -> & Ff). destruct (K _ g Ig Ng) as (g' & -> & Fg). eauto.
Qed.
Print Assumptions C51_generated_code_runs.

(** The format a directive is about. *)
Definition about (a : args) (t : numty) : Prop := num_name t = (a_sn a ++ a_is a ++ a_en a)%string.

Lemma formats : forall a, invalid a = None -> ~ float16 a -> exists t, about a t.
Proof.
  intros [r w s i e] V F. apply GenLemmas.invalid_spec, GenLemmas.in_valid in V. destruct V as (_ & _ & Hs & Hi & He).
  unfold about, float16 in *; cbn [a_sn a_is a_en] in *.
  destruct Hs as [<-|[<-|[<-|[]]]]; destruct Hi as [<-|[<-|[<-|[]]]]; destruct He as [<-|[<-|[]]];
    try (exfalso; apply F; split; reflexivity).
  1: exists I16BE. 2: exists I16LE. 3: exists I32BE. 4: exists I32LE. 5: exists I64BE. 6: exists I64LE.
  7: exists U16BE. 8: exists U16LE. 9: exists U32BE. 10: exists U32LE. 11: exists U64BE. 12: exists U64LE.
  13: exists F32BE. 14: exists F32LE. 15: exists F64BE. 16: exists F64LE.
  all: reflexivity.
Qed.

Lemma recv_cases a : invalid a = None -> a_recv a = "Buffer"%string \/ a_recv a = "MiniBuffer"%string.
Proof.
  destruct a as [r w s i e]. intros V. apply GenLemmas.invalid_spec, GenLemmas.in_valid in V.
  cbn. destruct V as ([<-|[<-|[]]] & _); auto.
Qed.

(** C51: a generated writer stores the encoding of the values, and nothing else
    changes. *)
Theorem C51_writer a t pol s off d :
  invalid a = None -> about a t -> a_rw a = "Write"%string ->
  WF s -> wf_data (tsize t) d -> d <> [] -> 0 <= off -> off + zlen d * tsize t <= zlen (content s) ->
  exists s', runs_to (program_of (a_recv a)) pol (method_name a, [VInt I64 off; VInts (ity_of_num t) d]) s
               (Done ([], Return VUnit) s')
    /\ WF s' /\ Props_Bytes.bytes_set s off (encode_all t d) s'.
Proof.
  intros V A R W D N H1 H2. unfold method_name. rewrite R. unfold about in A. rewrite <- A.
  destruct (Props_Bytes.C12_typed_write t s off d W D N H1 H2) as (s' & E & W' & B).
  pose proof (content_max s W) as CM. rewrite max_alloc_val in CM.
  pose proof (zlen_nonneg d) as ZD. pose proof (tsize_pos t) as TP.
  assert (ZN : zlen d <> 0) by (destruct d; [congruence|]; rewrite zlen_cons; pose proof (zlen_nonneg d); lia).
  assert (I : is_i64 off) by (unfold is_i64; nia).
  assert (Q : run (MiniWriteT t off d) s = Done tt s').
  { rewrite mini_WriteT by assumption. rewrite run_WriteT in E by assumption. revert E.
    replace (zlen (content s) <? off + zlen d * tsize t) with false by lia.
    replace (off + zlen d * tsize t <=? zlen (content s)) with true by lia.
    replace (off <? 0) with false by lia. replace (zlen (content s) <? off) with false by nia.
    replace (zlen d =? 0) with false by lia. cbn [orb]. exact (fun e => e). }
  exists s'. split; [|auto]. destruct (recv_cases a V) as [->| ->]; cbn [program_of].
  - pose proof (means_outcome B3 pol _ _ s (means_unit B3 pol _ _ _ (FrontCalls.WriteT_text pol t off d))) as O.
    unfold ret_unit in O. rewrite run_bind, E in O. cbn [run text_outcome] in O.
    change (program_of "Buffer") with v3_program. rewrite v3_program_text.
    destruct O as (v & O & Ov). destruct v; try discriminate; [destruct v; discriminate|exact O].
  - pose proof (means_outcome M3 pol _ _ s (means_unit M3 pol _ _ _ (FrontMiniCalls.WriteT_text pol t off d))) as O.
    unfold ret_unit in O. rewrite run_bind, Q in O. cbn [run text_outcome] in O.
    change (program_of "MiniBuffer") with v3_mini_program. rewrite v3_mini_program_text.
    destruct O as (v & O & Ov). destruct v; try discriminate; [destruct v; discriminate|exact O].
Qed.
Print Assumptions C51_writer.

(** C51: a generated reader returns (Buffer) or stores in the first elements of
    [*out] (MiniBuffer) the values whose encoding is there; nothing else changes. *)
Theorem C51_reader a t pol s off n :
  invalid a = None -> about a t -> a_rw a = "Read"%string ->
  WF s -> 1 <= n -> 0 <= off -> off + n * tsize t <= zlen (content s) ->
  exists vs, zlen vs = n /\ Forall (in_format t) vs /\ encode_all t vs = sub (content s) off (n * tsize t)
    /\ (a_recv a = "Buffer"%string ->
        runs_to (program_of (a_recv a)) pol (method_name a, [VInt I64 off; VInt I64 n]) s
          (Done ([], Return (VInts (ity_of_num t) vs)) s))
    /\ (a_recv a = "MiniBuffer"%string -> n <= zlen (outs s) ->
        runs_to (program_of (a_recv a)) pol (method_name a, [VOutSlice (ity_of_num t); VInt I64 off; VInt I64 n]) s
          (Done ([], Return VUnit) (set_outs s (put (outs s) 0 vs)))).
Proof.
  intros V A R W H1 H2 H3. unfold method_name. rewrite R. unfold about in A. rewrite <- A.
  pose proof (content_max s W) as CM. rewrite max_alloc_val in CM. pose proof (tsize_pos t) as TP.
  assert (I : is_i64 off) by (unfold is_i64; nia). assert (J : is_i64 n) by (unfold is_i64; nia).
  destruct (Props_Bytes.C13_typed_read t s off n W H1 H2 H3) as (vs & E & L & F & En).
  assert (EV : vs = decode_all t (content s) off (Z.to_nat n)).
  { rewrite run_ReadT_ok in E by (auto; unfold is_i64; lia). congruence. }
  exists vs. split; [exact L|]. split; [exact F|]. split; [exact En|]. split.
  - intros ->. pose proof (means_outcome B3 pol _ _ s (means_nums B3 pol _ _ _ _ (FrontCalls.ReadT_text pol t off n))) as O.
    unfold ret_nums in O. rewrite run_bind, E in O. cbn [run text_outcome] in O.
    change (program_of "Buffer") with v3_program. rewrite v3_program_text.
    destruct (conv_limit _ _ _ s (FrontCalls.ReadT_text pol t off n) ltac:(rewrite E; discriminate)) as [r [Hr HN]].
    rewrite E in Hr. inversion Hr as [x b s' Hv E1 E2| |]; subst. rewrite Hv in HN.
    Transparent D. unfold D in HN. Opaque D. exact HN.
  - intros -> Ho. change (program_of "MiniBuffer") with v3_mini_program. rewrite v3_mini_program_text.
    assert (Q : run (MiniReadT t off n) s = Done tt (set_outs s (put (outs s) 0 vs))).
    { rewrite mini_ReadT_all by assumption. cbv zeta.
      replace (off <? 0) with false by lia. replace (zlen (content s) <? off) with false by nia. cbn [orb].
      assert (n <= (zlen (content s) - off) / tsize t) by (apply Z.div_le_lower_bound; nia).
      replace (Z.max 1 n) with n by lia. rewrite (proj2 (Z.leb_le _ _)) by lia. now rewrite EV. }
    destruct (conv_limit _ _ _ s (FrontMiniCalls.ReadT_text pol t off n) ltac:(rewrite Q; discriminate)) as [r [Hr HN]].
    rewrite Q in Hr. inversion Hr as [x b s' Hv E1 E2| |]; subst. rewrite Hv in HN.
    Transparent D. unfold D in HN. Opaque D. exact HN.
Qed.
Print Assumptions C51_reader.

(** Every directive is about a format; the cases exist. *)
Theorem C51_formats a : invalid a = None -> ~ float16 a -> exists t, about a t.
Proof. exact (formats a). Qed.
Print Assumptions C51_formats.
Example C51_writer_case :
  let a := mkArgs "MiniBuffer" "Write" "I" "32" "BE" in
  invalid a = None /\ about a I32BE /\ WF ex /\ wf_data (tsize I32BE) [-2] /\ 0 + zlen [-2] * tsize I32BE <= zlen (content ex).
Proof. cbn zeta. split; [reflexivity|]. split; [reflexivity|]. split; [exact ex_WF|]. split; vm_compute; congruence. Qed.
