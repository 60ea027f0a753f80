(** * Validate: the repository's unit tests, run by the interpreter.

    These are tests, not proofs: they show that the meaning that GoLex.v, GoParse.v,
    GoEval.v and GoSem.v give to the text of the repository is the one that its
    authors expect in each of their 363 test functions of the two types. *)
From Coq Require Import ZArith List Bool String.
From Verif Require Import GoSem GoLex GoParse GoEval GoMain GoTest SrcTest Front.
Import ListNotations.
Open Scope string_scope.
Open Scope Z_scope.

(** Two ways for [append] to choose a capacity: what is needed, and twice the old
    capacity and more. *)
Definition exact (old want : Z) : Z := want.
Definition double (old want : Z) : Z := 2 * old + want.

Definition count (src : list string) : nat := List.length (tests_of src).
(** Every test function of the file is understood and passes. *)
Definition all_pass (p : part) (pol : Z -> Z -> Z) (src : list string) : bool :=
  match failing (sources p) pol 300 src with [] => true | _ => false end.

Example the_tests : map count [v1_buffer_test; v1_minibuf_test; v2_buffer_test; v2_minibuf_test; v3_buffer_test; v3_minibuf_test]
  = [52; 38; 75; 37; 122; 39]%nat.
Proof. vm_compute. reflexivity. Qed.

Example v1_buffer_tests : map (fun pol => all_pass B1 pol v1_buffer_test) [exact; double] = [true; true].
Proof. vm_compute. reflexivity. Qed.
Example v1_minibuf_tests : map (fun pol => all_pass M1 pol v1_minibuf_test) [exact; double] = [true; true].
Proof. vm_compute. reflexivity. Qed.
Example v2_buffer_tests : map (fun pol => all_pass B2 pol v2_buffer_test) [exact; double] = [true; true].
Proof. vm_compute. reflexivity. Qed.
Example v2_minibuf_tests : map (fun pol => all_pass M2 pol v2_minibuf_test) [exact; double] = [true; true].
Proof. vm_compute. reflexivity. Qed.
Example v3_buffer_tests : map (fun pol => all_pass B3 pol v3_buffer_test) [exact; double] = [true; true].
Proof. vm_compute. reflexivity. Qed.
Example v3_minibuf_tests : map (fun pol => all_pass M3 pol v3_minibuf_test) [exact; double] = [true; true].
Proof. vm_compute. reflexivity. Qed.

(** A test can fail: one with a wrong expectation, one that expects a panic that
    does not come, and one that expects another error. *)
Definition wrong_tests : list string :=
  ["func TestA(t *testing.T) {";
   "	var expected int64 = 5";
   "	buf := NewBuffer([]byte{0x00, 0x00, 0x00, 0x00})";
   "	out := buf.ByteCapacity()";
   "	if expected != out {";
   "		t.Fatalf(""no"")";
   "	}";
   "}";
   "func TestB(t *testing.T) {";
   "	defer panicChecker(t, BufferOverreadError)";
   "	buf := NewBuffer([]byte{0x00, 0x00, 0x00, 0x00})";
   "	buf.SeekByte(1, false)";
   "}";
   "func TestC(t *testing.T) {";
   "	defer panicChecker(t, BufferOverreadError)";
   "	buf := NewBuffer([]byte{0x00, 0x00, 0x00, 0x00})";
   "	buf.WriteByte(9, 1)";
   "}";
   "func TestD(t *testing.T) {";
   "	buf := NewBuffer([]byte{0x01, 0x02, 0x00, 0x00})";
   "	if !cmp.Equal([]uint16{0x0102}, buf.ReadU16LE(0x00, 1)) {";
   "		t.Fatalf(""no"")";
   "	}";
   "}";
   "func TestE(t *testing.T) {";
   "	buf := NewBuffer([]byte{0x01, 0x02, 0x00, 0x00})";
   "	if !cmp.Equal([]uint16{0x0201}, buf.ReadU16LE(0x00, 1)) {";
   "		t.Fatalf(""no"")";
   "	}";
   "}"].
Example wrong_tests_fail : failing (sources B3) exact 300 wrong_tests = ["TestA"; "TestB"; "TestC"; "TestD"].
Proof. vm_compute. reflexivity. Qed.
