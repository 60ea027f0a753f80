(** * AstV3: the syntax trees of the v3 sources, computed by the parser of
    GoParse.v from the embedded text. *)
From Coq Require Import List.
From Verif Require Import GoLex GoParse SrcV3.
Import ListNotations.

Definition or_nil (o : option (list gdecl)) : list gdecl := match o with Some d => d | None => [] end.

(** v3/buffer.generated.go *)
Definition buffer_ast : list gdecl := Eval vm_compute in or_nil (parse v3_buffer).
Lemma buffer_ast_parsed : parse v3_buffer = Some buffer_ast.
Proof. vm_cast_no_check (eq_refl (Some buffer_ast)). Qed.
(** v3/minibuf.generated.go *)
Definition minibuf_ast : list gdecl := Eval vm_compute in or_nil (parse v3_minibuf).
Lemma minibuf_ast_parsed : parse v3_minibuf = Some minibuf_ast.
Proof. vm_cast_no_check (eq_refl (Some minibuf_ast)). Qed.
(** v3/errors.go *)
Definition errors_ast : list gdecl := Eval vm_compute in or_nil (parse v3_errors).
Lemma errors_ast_parsed : parse v3_errors = Some errors_ast.
Proof. vm_cast_no_check (eq_refl (Some errors_ast)). Qed.
