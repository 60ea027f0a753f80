(** * SrcEx: source files of /repo, line by line, written by tools/embed.py.
    Nothing here is a model: these are the bytes of the files. *)
From Coq Require Import List String.
Import ListNotations.
Open Scope string_scope.

(** examples/floating-point/main.go:1-36 *)
Definition ex_floating_point_0 : list string := [
"package main";
"";
"import (";
"	""fmt""";
"";
"	crunch ""github.com/superwhiskers/crunch/v3""";
")";
"";
"func main() {";
"";
"	// create a new (empty) buffer";
"	buf := crunch.NewBuffer()";
"";
"	// make it bigger (the size of four 64-bit floating point numbers)";
"	//";
"	//       | the size of a 64-bit floating point number (in bytes)";
"	//       |";
"	//       |   | four integers";
"	//       |   |";
"	//       v   v";
"	buf.Grow(8 * 4)";
"";
"	// write four float64s to the buffer (in big-endian, a different endianness";
"	// that i'm using to exemplify the control that crunch gives you)";
"	buf.WriteF64BENext([]float64{69.0, -21.0, -42.42, 3.621})";
"";
"	// output the buffer";
"	fmt.Println(buf.Bytes())";
"";
"	// seek to the beginning again";
"	buf.SeekByte(0x00, false)";
"";
"	// read out the floats to ensure validity";
"	fmt.Println(buf.ReadF64BENext(4))";
"";
"}"].

(** examples/floating-point/main.go *)
Definition ex_floating_point : list string := (ex_floating_point_0)%list.

(** examples/helloworld/main.go:1-23 *)
Definition ex_helloworld_0 : list string := [
"package main";
"";
"import (";
"	""fmt""";
"";
"	crunch ""github.com/superwhiskers/crunch/v3""";
")";
"";
"func main() {";
"";
"	// create a new empty buffer";
"	buf := crunch.NewBuffer()";
"";
"	// expand it to have 12 null bytes";
"	buf.Grow(12)";
"";
"	// write ""hello, world"" to it";
"	buf.WriteBytesNext([]byte(""hello, world""))";
"";
"	// output the buffer to the console";
"	fmt.Println(string(buf.Bytes()))";
"";
"}"].

(** examples/helloworld/main.go *)
Definition ex_helloworld : list string := (ex_helloworld_0)%list.

(** examples/signed-integers/main.go:1-35 *)
Definition ex_signed_integers_0 : list string := [
"package main";
"";
"import (";
"	""fmt""";
"";
"	crunch ""github.com/superwhiskers/crunch/v3""";
")";
"";
"func main() {";
"";
"	// create a new (empty) buffer";
"	buf := crunch.NewBuffer()";
"";
"	// make it bigger (the size of two 32-bit signed integers)";
"	//";
"	//       | the size of a 32-bit signed integer (in bytes)";
"	//       |";
"	//       |   | two integers";
"	//       |   |";
"	//       v   v";
"	buf.Grow(4 * 2)";
"";
"	// write two int32s to the buffer (in little-endian, the most common endianness)";
"	buf.WriteI32LENext([]int32{-42, 69})";
"";
"	// output the buffer";
"	fmt.Println(buf.Bytes())";
"";
"	// seek to the beginning again";
"	buf.SeekByte(0x00, false)";
"";
"	// read out the integers to ensure validity";
"	fmt.Println(buf.ReadI32LENext(2))";
"";
"}"].

(** examples/signed-integers/main.go *)
Definition ex_signed_integers : list string := (ex_signed_integers_0)%list.
