(** * AstV2: the syntax trees of the v2 sources, computed by the parser of
    GoParse.v from the embedded text. *)
From Coq Require Import List.
From Verif Require Import GoLex GoParse SrcV2 AstV3.
Import ListNotations.

(** v2/buffer.go *)
Definition v2_buffer_ast : list gdecl := Eval vm_compute in or_nil (parse v2_buffer).
Lemma v2_buffer_ast_parsed : parse v2_buffer = Some v2_buffer_ast.
Proof. vm_cast_no_check (eq_refl (Some v2_buffer_ast)). Qed.
(** v2/minibuf.go *)
Definition v2_minibuf_ast : list gdecl := Eval vm_compute in or_nil (parse v2_minibuf).
Lemma v2_minibuf_ast_parsed : parse v2_minibuf = Some v2_minibuf_ast.
Proof. vm_cast_no_check (eq_refl (Some v2_minibuf_ast)). Qed.
(** v2/errors.go *)
Definition v2_errors_ast : list gdecl := Eval vm_compute in or_nil (parse v2_errors).
Lemma v2_errors_ast_parsed : parse v2_errors = Some v2_errors_ast.
Proof. vm_cast_no_check (eq_refl (Some v2_errors_ast)). Qed.
(** v2/utils.go *)
Definition v2_utils_ast : list gdecl := Eval vm_compute in or_nil (parse v2_utils).
Lemma v2_utils_ast_parsed : parse v2_utils = Some v2_utils_ast.
Proof. vm_cast_no_check (eq_refl (Some v2_utils_ast)). Qed.
