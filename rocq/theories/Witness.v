(** * Witness: concrete states used to show that hypotheses can be met. *)
From Coq Require Import ZArith List Bool Lia.
From Verif Require Import GoSem Spec.
Import ListNotations.
Open Scope Z_scope.

(** A buffer of four bytes inside an array of eight, with two spare bytes, with
    byte offset 1 and bit offset 3, next to an unrelated array. *)
Definition ex : St :=
  mkSt [[1; 165; 15; 255; 8; 77; 66; 2]; [9; 9; 9]]
       (mkBuf (mkSlice 0 1 4 6) 1 4 3 32) false [].

(** An empty buffer. *)
Definition ex_empty : St :=
  mkSt [[]] (mkBuf (mkSlice 0 0 0 0) 0 0 0 0) false [].

(** A buffer of twelve zero bytes. *)
Definition ex_zero : St :=
  mkSt [repeat 0 12] (mkBuf (mkSlice 0 0 12 12) 0 12 0 96) false [].

Ltac wf_state :=
  constructor; cbn;
  [ repeat (constructor; [split; [repeat (constructor; [unfold is_byte; lia|]); constructor | vm_compute; discriminate]|]); constructor
  | unfold wf_slice; cbn; repeat split; try lia; vm_compute; discriminate
  | reflexivity | reflexivity | unfold is_i64; lia | unfold is_i64; lia ].

(** Discharges the hypotheses of a theorem on a concrete state. *)
Ltac hyp := solve [ vm_compute; repeat split; congruence | vm_compute; auto ].

Lemma ex_WF : WF ex.
Proof. wf_state. Qed.
Lemma ex_empty_WF : WF ex_empty.
Proof. wf_state. Qed.
Lemma ex_zero_WF : WF ex_zero.
Proof. wf_state. Qed.

Lemma ex_content : content ex = [165; 15; 255; 8].
Proof. reflexivity. Qed.
Lemma ex_spare : spare ex = [77; 66].
Proof. reflexivity. Qed.

(** Computes a concrete case: existentials are found, equations evaluated. *)
Ltac vm_all :=
  lazymatch goal with
  | |- _ /\ _ => split; [vm_all|vm_all]
  | |- exists _, _ => eexists; vm_all
  | |- _ => vm_compute; reflexivity
  end.
