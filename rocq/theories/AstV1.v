(** * AstV1: the syntax trees of the v1 sources, computed by the parser of
    GoParse.v from the embedded text. *)
From Coq Require Import List.
From Verif Require Import GoLex GoParse SrcV1 AstV3.
Import ListNotations.

(** v1/buffer.go *)
Definition v1_buffer_ast : list gdecl := Eval vm_compute in or_nil (parse v1_buffer).
Lemma v1_buffer_ast_parsed : parse v1_buffer = Some v1_buffer_ast.
Proof. vm_cast_no_check (eq_refl (Some v1_buffer_ast)). Qed.
(** v1/minibuf.go *)
Definition v1_minibuf_ast : list gdecl := Eval vm_compute in or_nil (parse v1_minibuf).
Lemma v1_minibuf_ast_parsed : parse v1_minibuf = Some v1_minibuf_ast.
Proof. vm_cast_no_check (eq_refl (Some v1_minibuf_ast)). Qed.
(** v1/errors.go *)
Definition v1_errors_ast : list gdecl := Eval vm_compute in or_nil (parse v1_errors).
Lemma v1_errors_ast_parsed : parse v1_errors = Some v1_errors_ast.
Proof. vm_cast_no_check (eq_refl (Some v1_errors_ast)). Qed.
(** v1/utils.go *)
Definition v1_utils_ast : list gdecl := Eval vm_compute in or_nil (parse v1_utils).
Lemma v1_utils_ast_parsed : parse v1_utils = Some v1_utils_ast.
Proof. vm_cast_no_check (eq_refl (Some v1_utils_ast)). Qed.
(** v1/crunch.go *)
Definition v1_crunch_ast : list gdecl := Eval vm_compute in or_nil (parse v1_crunch).
Lemma v1_crunch_ast_parsed : parse v1_crunch = Some v1_crunch_ast.
Proof. vm_cast_no_check (eq_refl (Some v1_crunch_ast)). Qed.
