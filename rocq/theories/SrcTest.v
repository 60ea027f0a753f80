(** * SrcTest: source files of /repo, line by line, written by tools/embed.py.
    Nothing here is a model: these are the bytes of the files. *)
From Coq Require Import List String.
Import ListNotations.
Open Scope string_scope.

(** v1/buffer_test.go:1-100 *)
Definition v1_buffer_test_0 : list string := [
"/*";
"";
"crunch - utilities for taking bytes out of things";
"Copyright (c) 2019-2020 superwhiskers <whiskerdev@protonmail.com>";
"";
"This Source Code Form is subject to the terms of the Mozilla Public";
"License, v. 2.0. If a copy of the MPL was not distributed with this";
"file, You can obtain one at https://mozilla.org/MPL/2.0/.";
"";
"*/";
"";
"package v1";
"";
"import (";
"	""testing""";
"";
"	""github.com/google/go-cmp/cmp""";
")";
"";
"/*";
"";
"utilities";
"";
"*/";
"";
"var BufferComparer = cmp.Comparer(func(x, y *Buffer) bool {";
"";
"	return cmp.Equal(x.buf, y.buf) &&";
"		x.off == y.off &&";
"		x.cap == y.cap &&";
"		x.boff == y.boff &&";
"		x.bcap == y.bcap";
"";
"})";
"";
"/*";
"";
"tests";
"";
"*/";
"";
"func TestNewBuffer(t *testing.T) {";
"";
"	var (";
"		expected1 = &Buffer{";
"			buf:  []byte{0x00, 0x00, 0x00, 0x00},";
"			off:  0x00,";
"			cap:  4,";
"			boff: 0x00,";
"			bcap: 32,";
"		}";
"		expected2 = &Buffer{";
"			buf:  []byte{},";
"			off:  0x00,";
"			cap:  0,";
"			boff: 0x00,";
"			bcap: 0,";
"		}";
"		expected3 = &Buffer{";
"			buf:  []byte{0x00, 0x00, 0x00, 0x00, 0x00, 0x00, 0x00, 0x00},";
"			off:  0x00,";
"			cap:  8,";
"			boff: 0x00,";
"			bcap: 64,";
"		}";
"	)";
"";
"	out := NewBuffer([]byte{0x00, 0x00, 0x00, 0x00})";
"	if !cmp.Equal(expected1, out, BufferComparer) {";
"";
"		t.Fatalf(""expected buffer does not match the one gotten (got %#v, expected %#v)"", out, expected1)";
"";
"	}";
"";
"	out = NewBuffer()";
"	if !cmp.Equal(expected2, out, BufferComparer) {";
"";
"		t.Fatalf(""expected buffer does not match the one gotten (got %#v, expected %#v)"", out, expected2)";
"";
"	}";
"";
"	out = NewBuffer([]byte{0x00, 0x00, 0x00, 0x00}, []byte{0x00, 0x00, 0x00, 0x00})";
"	if !cmp.Equal(expected3, out, BufferComparer) {";
"";
"		t.Fatalf(""expected buffer does not match the one gotten (got %#v, expected %#v)"", out, expected3)";
"";
"	}";
"";
"}";
"";
"func TestBufferBytes(t *testing.T) {";
"";
"	var expected = []byte{0x01, 0x02, 0x03, 0x04}";
"";
"	buf := NewBuffer([]byte{0x01, 0x02, 0x03, 0x04})";
"";
"	out := buf.Bytes()";
"	if !cmp.Equal(expected, out) {";
"";
"		t.Fatalf(""expected byte array does not match the one gotten (got %#v, expected %#v)"", out, expected)"].

(** v1/buffer_test.go:101-200 *)
Definition v1_buffer_test_1 : list string := [
"";
"	}";
"";
"}";
"";
"func TestBufferCapacity(t *testing.T) {";
"";
"	var expected int64 = 4";
"";
"	buf := NewBuffer([]byte{0x00, 0x00, 0x00, 0x00})";
"";
"	out := buf.Capacity()";
"	if expected != out {";
"";
"		t.Fatalf(""expected int64 does not match the one gotten (got %d, expected %d)"", out, expected)";
"";
"	}";
"";
"}";
"";
"func TestBufferBitCapacity(t *testing.T) {";
"";
"	var expected int64 = 32";
"";
"	buf := NewBuffer([]byte{0x00, 0x00, 0x00, 0x00})";
"";
"	out := buf.BitCapacity()";
"	if expected != out {";
"";
"		t.Fatalf(""expected int64 does not match the one gotten (got %d, expected %d)"", out, expected)";
"";
"	}";
"";
"}";
"";
"func TestBufferOffset(t *testing.T) {";
"";
"	var expected int64 = 0x02";
"";
"	buf := NewBuffer([]byte{0x00, 0x00, 0x00, 0x00})";
"";
"	buf.Seek(0x02, false)";
"";
"	out := buf.Offset()";
"	if expected != out {";
"";
"		t.Fatalf(""expected int64 does not match the one gotten (got %d, expected %d)"", out, expected)";
"";
"	}";
"";
"}";
"";
"func TestBufferBitOffset(t *testing.T) {";
"";
"	var expected int64 = 0x0f";
"";
"	buf := NewBuffer([]byte{0x00, 0x00, 0x00, 0x00})";
"";
"	buf.SeekBit(0x0f, false)";
"";
"	out := buf.BitOffset()";
"	if expected != out {";
"";
"		t.Fatalf(""expected int64 does not match the one gotten (got %d, expected %d)"", out, expected)";
"";
"	}";
"";
"}";
"";
"func TestBufferRefresh(t *testing.T) {";
"";
"	var (";
"		expected1 int64 = 4";
"		expected2 int64 = 32";
"	)";
"";
"	buf := NewBuffer([]byte{0x00, 0x00, 0x00, 0x00})";
"";
"	buf.Refresh()";
"";
"	if expected1 != buf.cap || expected2 != buf.bcap {";
"";
"		t.Fatalf(""expected int64(s) do not match the ones gotten (got %d and %d, expected %d and %d)"", buf.cap, buf.bcap, expected1, expected2)";
"";
"	}";
"";
"}";
"";
"func TestBufferGrow(t *testing.T) {";
"";
"	var expected int64 = 4";
"";
"	buf := NewBuffer([]byte{0x00, 0x00})";
"";
"	buf.Grow(2)";
"";
"	out := buf.Capacity()";
"	if expected != out {";
"";
"		t.Fatalf(""expected int64 does not match the one gotten (got %d, expected %d)"", out, expected)"].

(** v1/buffer_test.go:201-300 *)
Definition v1_buffer_test_2 : list string := [
"";
"	}";
"";
"}";
"";
"func TestBufferSeek(t *testing.T) {";
"";
"	var expected int64 = 0x04";
"";
"	buf := NewBuffer([]byte{0x00, 0x00, 0x00, 0x00})";
"";
"	buf.Seek(2, true)";
"	buf.Seek(2, true)";
"";
"	out := buf.Offset()";
"	if expected != out {";
"";
"		t.Fatalf(""expected int64 does not match the one gotten (got %d, expected %d)"", out, expected)";
"";
"	}";
"";
"}";
"";
"func TestBufferSeekBit(t *testing.T) {";
"";
"	var expected int64 = 0x20";
"";
"	buf := NewBuffer([]byte{0x00, 0x00, 0x00, 0x00})";
"";
"	buf.SeekBit(16, true)";
"	buf.SeekBit(16, true)";
"";
"	out := buf.BitOffset()";
"	if expected != out {";
"";
"		t.Fatalf(""expected int64 does not match the one gotten (got %d, expected %d)"", out, expected)";
"";
"	}";
"";
"}";
"";
"func TestBufferAlignBit(t *testing.T) {";
"";
"	var expected int64 = 0x20";
"";
"	buf := NewBuffer([]byte{0x00, 0x00, 0x00, 0x00})";
"";
"	buf.Seek(0x04, false)";
"	buf.AlignBit()";
"";
"	out := buf.BitOffset()";
"	if expected != out {";
"";
"		t.Fatalf(""expected int64 does not match the one gotten (got %d, expected %d)"", out, expected)";
"";
"	}";
"";
"}";
"";
"func TestBufferAlignByte(t *testing.T) {";
"";
"	var expected int64 = 0x04";
"";
"	buf := NewBuffer([]byte{0x00, 0x00, 0x00, 0x00})";
"";
"	buf.SeekBit(0x20, false)";
"	buf.AlignByte()";
"";
"	out := buf.Offset()";
"	if expected != out {";
"";
"		t.Fatalf(""expected int64 does not match the one gotten (got %d, expected %d)"", out, expected)";
"";
"	}";
"";
"}";
"";
"func TestBufferAfter(t *testing.T) {";
"";
"	var expected int64 = 2";
"";
"	buf := NewBuffer([]byte{0x00, 0x00, 0x00, 0x00})";
"";
"	buf.Seek(0x01, false)";
"	out := buf.After()";
"";
"	if expected != out {";
"";
"		t.Fatalf(""expected int64 does not match the one gotten (got %d, expected %d)"", out, expected)";
"";
"	}";
"";
"	out = buf.After(0x01)";
"";
"	if expected != out {";
"";
"		t.Fatalf(""expected int64 does not match the one gotten (got %d, expected %d)"", out, expected)";
"";
"	}";
""].

(** v1/buffer_test.go:301-400 *)
Definition v1_buffer_test_3 : list string := [
"}";
"";
"func TestBufferAfterBit(t *testing.T) {";
"";
"	var expected int64 = 16";
"";
"	buf := NewBuffer([]byte{0x00, 0x00, 0x00, 0x00})";
"";
"	buf.SeekBit(0x0f, false)";
"	out := buf.AfterBit()";
"";
"	if expected != out {";
"";
"		t.Fatalf(""expected int64 does not match the one gotten (got %d, expected %d)"", out, expected)";
"";
"	}";
"";
"	out = buf.AfterBit(0x0f)";
"";
"	if expected != out {";
"";
"		t.Fatalf(""expected int64 does not match the one gotten (got %d, expected %d)"", out, expected)";
"";
"	}";
"";
"}";
"";
"func TestBufferReadByte(t *testing.T) {";
"";
"	var expected byte = 0x03";
"";
"	buf := NewBuffer([]byte{0x01, 0x02, 0x03, 0x04})";
"";
"	out := buf.ReadByte(0x02)";
"	if expected != out {";
"";
"		t.Fatalf(""expected byte does not match the one gotten (got %d, expected %d)"", out, expected)";
"";
"	}";
"";
"}";
"";
"func TestBufferReadByteNext(t *testing.T) {";
"";
"	var expected byte = 0x01";
"";
"	buf := NewBuffer([]byte{0x01, 0x02, 0x03, 0x04})";
"";
"	out := buf.ReadByteNext()";
"	if expected != out {";
"";
"		t.Fatalf(""expected byte does not match the one gotten (got %d, expected %d)"", out, expected)";
"";
"	}";
"";
"}";
"";
"func TestBufferReadBytes(t *testing.T) {";
"";
"	var expected = []byte{0x03, 0x04}";
"";
"	buf := NewBuffer([]byte{0x01, 0x02, 0x03, 0x04})";
"";
"	out := buf.ReadBytes(0x02, 2)";
"	if !cmp.Equal(expected, out) {";
"";
"		t.Fatalf(""expected byte array does not match the one gotten (got %#v, expected %#v)"", out, expected)";
"";
"	}";
"";
"}";
"";
"func TestBufferReadBytesNext(t *testing.T) {";
"";
"	var expected = []byte{0x01, 0x02}";
"";
"	buf := NewBuffer([]byte{0x01, 0x02, 0x03, 0x04})";
"";
"	out := buf.ReadBytesNext(2)";
"	if !cmp.Equal(expected, out) {";
"";
"		t.Fatalf(""expected byte array does not match the one gotten (got %#v, expected %#v)"", out, expected)";
"";
"	}";
"";
"}";
"";
"func TestBufferReadComplex(t *testing.T) {";
"";
"	var (";
"		expected1 = []byte{0x01}";
"		expected2 = []uint16{0x01}";
"		expected3 = []uint16{0x100}";
"		expected4 = []uint32{0x01}";
"		expected5 = []uint64{0x01}";
"	)";
"";
"	buf := NewBuffer([]byte{0x01, 0x00, 0x00, 0x00, 0x00, 0x00, 0x00, 0x00})";
"";
"	out1 := buf.ReadComplex(0x00, 1, Unsigned8, LittleEndian).([]byte)"].

(** v1/buffer_test.go:401-500 *)
Definition v1_buffer_test_4 : list string := [
"	if !cmp.Equal(out1, expected1) {";
"";
"		t.Fatalf(""expected byte array does not match the one gotten (got %#v, expected %#v)"", out1, expected1)";
"";
"	}";
"";
"	out2 := buf.ReadComplex(0x00, 1, Unsigned16, LittleEndian).([]uint16)";
"	if !cmp.Equal(out2, expected2) {";
"";
"		t.Fatalf(""expected uint16 array does not match the one gotten (got %#v, expected %#v)"", out2, expected2)";
"";
"	}";
"";
"	out2 = buf.ReadComplex(0x00, 1, Unsigned16, BigEndian).([]uint16)";
"	if !cmp.Equal(out2, expected3) {";
"";
"		t.Fatalf(""expected uint16 array does not match the one gotten (got %#v, expected %#v)"", out2, expected3)";
"";
"	}";
"";
"	out3 := buf.ReadComplex(0x00, 1, Unsigned32, LittleEndian).([]uint32)";
"	if !cmp.Equal(out3, expected4) {";
"";
"		t.Fatalf(""expected uint32 array does not match the one gotten (got %#v, expected %#v)"", out3, expected4)";
"";
"	}";
"";
"	out4 := buf.ReadComplex(0x00, 1, Unsigned64, LittleEndian).([]uint64)";
"	if !cmp.Equal(out4, expected5) {";
"";
"		t.Fatalf(""expected uint64 array does not match the one gotten (got %#v, expected %#v)"", out4, expected5)";
"";
"	}";
"";
"}";
"";
"func TestBufferReadComplexNext(t *testing.T) {";
"";
"	var expected = []byte{0x01, 0x02}";
"";
"	buf := NewBuffer([]byte{0x01, 0x02, 0x03, 0x04})";
"";
"	out := buf.ReadComplexNext(2, Unsigned8, LittleEndian).([]byte)";
"";
"	if !cmp.Equal(expected, out) {";
"";
"		t.Fatalf(""expected byte array does not match the one gotten (got %#v, expected %#v)"", out, expected)";
"";
"	}";
"";
"}";
"";
"func TestBufferWriteByte(t *testing.T) {";
"";
"	var expected byte = 0x04";
"";
"	buf := NewBuffer([]byte{0x00, 0x00, 0x00, 0x00})";
"";
"	buf.WriteByte(0x03, 0x04)";
"";
"	out := buf.ReadByte(0x03)";
"	if expected != out {";
"";
"		t.Fatalf(""expected byte does not match the one gotten (got %d, expected %d)"", out, expected)";
"";
"	}";
"";
"}";
"";
"func TestBufferWriteByteNext(t *testing.T) {";
"";
"	var expected byte = 0x01";
"";
"	buf := NewBuffer([]byte{0x00, 0x00, 0x00, 0x00})";
"";
"	buf.WriteByteNext(0x01)";
"";
"	out := buf.ReadByte(0x00)";
"	if expected != out {";
"";
"		t.Fatalf(""expected byte does not match the one gotten (got %d, expected %d)"", out, expected)";
"";
"	}";
"";
"}";
"";
"func TestBufferWriteBytes(t *testing.T) {";
"";
"	var expected = []byte{0x01, 0x02}";
"";
"	buf := NewBuffer([]byte{0x00, 0x00, 0x00, 0x00})";
"";
"	buf.WriteBytes(0x02, []byte{0x01, 0x02})";
"";
"	out := buf.ReadBytes(0x02, 2)";
"	if !cmp.Equal(expected, out) {";
"";
"		t.Fatalf(""expected byte array does not match the one gotten (got %#v, expected %#v)"", out, expected)";
"";
"	}"].

(** v1/buffer_test.go:501-600 *)
Definition v1_buffer_test_5 : list string := [
"";
"}";
"";
"func TestBufferWriteBytesNext(t *testing.T) {";
"";
"	var expected = []byte{0x01, 0x02}";
"";
"	buf := NewBuffer([]byte{0x00, 0x00, 0x00, 0x00})";
"";
"	buf.WriteBytesNext([]byte{0x01, 0x02})";
"";
"	out := buf.ReadBytes(0x00, 2)";
"	if !cmp.Equal(expected, out) {";
"";
"		t.Fatalf(""expected byte array does not match the one gotten (got %#v, expected %#v)"", out, expected)";
"";
"	}";
"";
"}";
"";
"func TestBufferWriteComplex(t *testing.T) {";
"";
"	var expected byte = 0x01";
"";
"	buf := NewBuffer([]byte{0x00, 0x00, 0x00, 0x00, 0x00, 0x00, 0x00, 0x00})";
"";
"	buf.WriteComplex(0x00, []byte{0x01}, Unsigned8, LittleEndian)";
"";
"	out := buf.ReadByte(0x00)";
"	if expected != out {";
"";
"		t.Fatalf(""expected byte does not match the one gotten (got %d, expected %d)"", out, expected)";
"";
"	}";
"";
"	buf.WriteComplex(0x00, []uint16{0x01}, Unsigned16, LittleEndian)";
"";
"	out = buf.ReadByte(0x00)";
"	if expected != out {";
"";
"		t.Fatalf(""expected byte does not match the one gotten (got %d, expected %d)"", out, expected)";
"";
"	}";
"";
"	buf.WriteComplex(0x00, []uint16{0x100}, Unsigned16, BigEndian)";
"";
"	out = buf.ReadByte(0x00)";
"	if expected != out {";
"";
"		t.Fatalf(""expected byte does not match the one gotten (got %d, expected %d)"", out, expected)";
"";
"	}";
"";
"	buf.WriteComplex(0x00, []uint32{0x01}, Unsigned32, LittleEndian)";
"";
"	out = buf.ReadByte(0x00)";
"	if expected != out {";
"";
"		t.Fatalf(""expected byte does not match the one gotten (got %d, expected %d)"", out, expected)";
"";
"	}";
"";
"	buf.WriteComplex(0x00, []uint64{0x01}, Unsigned64, LittleEndian)";
"";
"	out = buf.ReadByte(0x00)";
"	if expected != out {";
"";
"		t.Fatalf(""expected byte does not match the one gotten (got %d, expected %d)"", out, expected)";
"";
"	}";
"";
"}";
"";
"func TestBufferWriteComplexNext(t *testing.T) {";
"";
"	var expected byte = 0x01";
"";
"	buf := NewBuffer([]byte{0x00, 0x00, 0x00, 0x00, 0x00, 0x00, 0x00, 0x00})";
"";
"	buf.WriteComplexNext([]byte{0x01, 0x02}, Unsigned8, LittleEndian)";
"";
"	out := buf.ReadByte(0x00)";
"	if expected != out {";
"";
"		t.Fatalf(""expected byte does not match the one gotten (got %d, expected %d)"", out, expected)";
"";
"	}";
"";
"	buf.Seek(0x00, false)";
"	buf.WriteComplexNext([]uint16{0x01}, Unsigned16, LittleEndian)";
"";
"	out = buf.ReadByte(0x00)";
"	if expected != out {";
"";
"		t.Fatalf(""expected byte does not match the one gotten (got %d, expected %d)"", out, expected)";
"";
"	}";
"";
"	buf.Seek(0x00, false)";
"	buf.WriteComplexNext([]uint32{0x01}, Unsigned32, LittleEndian)"].

(** v1/buffer_test.go:601-700 *)
Definition v1_buffer_test_6 : list string := [
"";
"	out = buf.ReadByte(0x00)";
"	if expected != out {";
"";
"		t.Fatalf(""expected byte does not match the one gotten (got %d, expected %d)"", out, expected)";
"";
"	}";
"";
"	buf.Seek(0x00, false)";
"	buf.WriteComplexNext([]uint64{0x01}, Unsigned64, LittleEndian)";
"";
"	out = buf.ReadByte(0x00)";
"	if expected != out {";
"";
"		t.Fatalf(""expected byte does not match the one gotten (got %d, expected %d)"", out, expected)";
"";
"	}";
"";
"}";
"";
"func TestBufferReadBit(t *testing.T) {";
"";
"	var expected byte = 1";
"";
"	buf := NewBuffer([]byte{0x01, 0x00, 0x00, 0x00})";
"";
"	out := buf.ReadBit(0x07)";
"	if expected != out {";
"";
"		t.Fatalf(""expected byte does not match the one gotten (got %d, expected %d)"", out, expected)";
"";
"	}";
"";
"}";
"";
"func TestBufferReadBitNext(t *testing.T) {";
"";
"	var expected byte = 1";
"";
"	buf := NewBuffer([]byte{0xff, 0x00, 0x00, 0x00})";
"";
"	out := buf.ReadBitNext()";
"	if expected != out {";
"";
"		t.Fatalf(""expected byte does not match the one gotten (got %d, expected %d)"", out, expected)";
"";
"	}";
"";
"}";
"";
"func TestBufferReadBits(t *testing.T) {";
"";
"	var expected uint64 = 5";
"";
"	buf := NewBuffer([]byte{0x0d, 0x00, 0x00, 0x00})";
"";
"	out := buf.ReadBits(0x05, 3)";
"	if expected != out {";
"";
"		t.Fatalf(""expected uint64 does not match the one gotten (got %d, expected %d)"", out, expected)";
"";
"	}";
"";
"}";
"";
"func TestBufferReadBitsNext(t *testing.T) {";
"";
"	var expected uint64 = 13";
"";
"	buf := NewBuffer([]byte{0x0d, 0x00, 0x00, 0x00})";
"";
"	out := buf.ReadBitsNext(8)";
"	if expected != out {";
"";
"		t.Fatalf(""expected uint64 does not match the one gotten (got %d, expected %d)"", out, expected)";
"";
"	}";
"";
"}";
"";
"func TestBufferSetBit(t *testing.T) {";
"";
"	var expected byte = 1";
"";
"	buf := NewBuffer([]byte{0x00, 0x00, 0x00, 0x00})";
"";
"	buf.SetBit(0x00, 1)";
"";
"	out := buf.ReadBit(0x00)";
"	if expected != out {";
"";
"		t.Fatalf(""expected byte does not match the one gotten (got %d, expected %d)"", out, expected)";
"";
"	}";
"";
"}";
"";
"func TestBufferSetBitNext(t *testing.T) {";
"";
"	var expected byte = 1"].

(** v1/buffer_test.go:701-800 *)
Definition v1_buffer_test_7 : list string := [
"";
"	buf := NewBuffer([]byte{0x00, 0x00, 0x00, 0x00})";
"";
"	buf.SetBitNext(1)";
"";
"	out := buf.ReadBit(0x00)";
"	if expected != out {";
"";
"		t.Fatalf(""expected byte does not match the one gotten (got %d, expected %d)"", out, expected)";
"";
"	}";
"";
"}";
"";
"func TestBufferSetBits(t *testing.T) {";
"";
"	var expected uint64 = 5";
"";
"	buf := NewBuffer([]byte{0x00, 0x00, 0x00, 0x00})";
"";
"	buf.SetBits(0x06, 5, 3)";
"";
"	out := buf.ReadBits(0x06, 3)";
"	if expected != out {";
"";
"		t.Fatalf(""expected uint64 does not match the one gotten (got %d, expected %d)"", out, expected)";
"";
"	}";
"";
"}";
"";
"func TestBufferSetBitsNext(t *testing.T) {";
"";
"	var expected uint64 = 13";
"";
"	buf := NewBuffer([]byte{0x00, 0x00, 0x00, 0x00})";
"";
"	buf.SetBitsNext(13, 8)";
"";
"	out := buf.ReadBits(0x00, 8)";
"	if expected != out {";
"";
"		t.Fatalf(""expected uint64 does not match the one gotten (got %d, expected %d)"", out, expected)";
"";
"	}";
"";
"}";
"";
"func TestBufferFlipBit(t *testing.T) {";
"";
"	var expected byte";
"";
"	buf := NewBuffer([]byte{0xff, 0xff, 0xff, 0xff})";
"";
"	buf.FlipBit(0x01)";
"";
"	out := buf.ReadBit(0x01)";
"	if expected != out {";
"";
"		t.Fatalf(""expected byte does not match the one gotten (got %d, expected %d)"", out, expected)";
"";
"	}";
"";
"}";
"";
"func TestBufferFlipBitNext(t *testing.T) {";
"";
"	var expected byte = 1";
"";
"	buf := NewBuffer([]byte{0x00, 0x00, 0x00, 0x00})";
"";
"	buf.FlipBitNext()";
"";
"	out := buf.ReadBit(0x00)";
"	if expected != out {";
"";
"		t.Fatalf(""expected byte does not match the one gotten (got %d, expected %d)"", out, expected)";
"";
"	}";
"";
"}";
"";
"func TestBufferClearAllBits(t *testing.T) {";
"";
"	var expected = []byte{0x00, 0x00, 0x00, 0x00}";
"";
"	buf := NewBuffer([]byte{0xff, 0x00, 0xff, 0x00})";
"";
"	buf.ClearAllBits()";
"";
"	if !cmp.Equal(expected, buf.buf) {";
"";
"		t.Fatalf(""expected byte array does not match the one gotten (got %#v, expected %#v)"", buf.buf, expected)";
"";
"	}";
"";
"}";
"";
"func TestBufferSetAllBits(t *testing.T) {";
""].

(** v1/buffer_test.go:801-900 *)
Definition v1_buffer_test_8 : list string := [
"	var expected = []byte{0xff, 0xff, 0xff, 0xff}";
"";
"	buf := NewBuffer([]byte{0x00, 0xff, 0x00, 0xff})";
"";
"	buf.SetAllBits()";
"";
"	if !cmp.Equal(expected, buf.buf) {";
"";
"		t.Fatalf(""expected byte array does not match the one gotten (got %#v, expected %#v)"", buf.buf, expected)";
"";
"	}";
"";
"}";
"";
"func TestBufferFlipAllBits(t *testing.T) {";
"";
"	var expected = []byte{0xff, 0x00, 0xff, 0x00}";
"";
"	buf := NewBuffer([]byte{0x00, 0xff, 0x00, 0xff})";
"";
"	buf.FlipAllBits()";
"";
"	if !cmp.Equal(expected, buf.buf) {";
"";
"		t.Fatalf(""expected byte array does not match the one gotten (got %#v, expected %#v)"", buf.buf, expected)";
"";
"	}";
"";
"}";
"";
"func TestBufferReadbitPanic1(t *testing.T) {";
"";
"	defer panicChecker(t, BufferOverreadError)";
"";
"	buf := NewBuffer([]byte{0x00, 0x00, 0x00, 0x00})";
"";
"	_ = buf.readbit(0x20)";
"";
"}";
"";
"func TestBufferReadbitPanic2(t *testing.T) {";
"";
"	defer panicChecker(t, BufferUnderreadError)";
"";
"	buf := NewBuffer([]byte{0x00, 0x00, 0x00, 0x00})";
"";
"	_ = buf.readbit(-0x01)";
"";
"}";
"";
"func TestBufferSetbitPanic1(t *testing.T) {";
"";
"	defer panicChecker(t, BufferOverwriteError)";
"";
"	buf := NewBuffer([]byte{0x00, 0x00, 0x00, 0x00})";
"";
"	buf.setbit(0x20, 1)";
"";
"}";
"";
"func TestBufferSetbitPanic2(t *testing.T) {";
"";
"	defer panicChecker(t, BufferUnderwriteError)";
"";
"	buf := NewBuffer([]byte{0x00, 0x00, 0x00, 0x00})";
"";
"	buf.setbit(-0x01, 1)";
"";
"}";
"";
"func TestBufferSetbitPanic3(t *testing.T) {";
"";
"	defer panicChecker(t, BufferInvalidBitError)";
"";
"	buf := NewBuffer([]byte{0x00, 0x00, 0x00, 0x00})";
"";
"	buf.setbit(0x00, 2)";
"";
"}";
"";
"func TestBufferFlipbitPanic1(t *testing.T) {";
"";
"	defer panicChecker(t, BufferOverwriteError)";
"";
"	buf := NewBuffer([]byte{0x00, 0x00, 0x00, 0x00})";
"";
"	buf.flipbit(0x20)";
"";
"}";
"";
"func TestBufferFlipbitPanic2(t *testing.T) {";
"";
"	defer panicChecker(t, BufferUnderwriteError)";
"";
"	buf := NewBuffer([]byte{0x00, 0x00, 0x00, 0x00})";
"";
"	buf.flipbit(-0x01)";
"";
"}";
""].

(** v1/buffer_test.go:901-996 *)
Definition v1_buffer_test_9 : list string := [
"func TestBufferWritePanic1(t *testing.T) {";
"";
"	defer panicChecker(t, BufferOverwriteError)";
"";
"	buf := NewBuffer([]byte{0x00, 0x00, 0x00, 0x00})";
"";
"	buf.write(0x04, []byte{0x01, 0x01})";
"";
"}";
"";
"func TestBufferWritePanic2(t *testing.T) {";
"";
"	defer panicChecker(t, BufferUnderwriteError)";
"";
"	buf := NewBuffer([]byte{0x00, 0x00, 0x00, 0x00})";
"";
"	buf.write(-0x01, []byte{0x01, 0x01})";
"";
"}";
"";
"func TestBufferReadPanic1(t *testing.T) {";
"";
"	defer panicChecker(t, BufferOverreadError)";
"";
"	buf := NewBuffer([]byte{0x00, 0x00, 0x00, 0x00})";
"";
"	_ = buf.read(0x20, 1)";
"";
"}";
"";
"func TestBufferReadPanic2(t *testing.T) {";
"";
"	defer panicChecker(t, BufferUnderreadError)";
"";
"	buf := NewBuffer([]byte{0x00, 0x00, 0x00, 0x00})";
"";
"	_ = buf.read(-0x01, 1)";
"";
"}";
"";
"func TestBufferReadComplexPanic(t *testing.T) {";
"";
"	defer panicChecker(t, BufferInvalidIntegerSizeError)";
"";
"	buf := NewBuffer([]byte{0x00, 0x00, 0x00, 0x00})";
"";
"	_ = buf.readComplex(0x00, 1, -1, LittleEndian).([]byte)";
"";
"}";
"";
"func TestBufferWriteComplexPanic(t *testing.T) {";
"";
"	defer panicChecker(t, BufferInvalidIntegerSizeError)";
"";
"	buf := NewBuffer([]byte{0x00, 0x00, 0x00, 0x00})";
"";
"	buf.writeComplex(0x00, 1, -1, LittleEndian)";
"";
"}";
"";
"/*";
"";
"benchmarks";
"";
"*/";
"";
"func BenchmarkBufferWrite(b *testing.B) {";
"";
"	b.ReportAllocs()";
"";
"	buf := NewBuffer([]byte{0x00, 0x00, 0x00, 0x00})";
"";
"	for n := 0; n < b.N; n++ {";
"";
"		buf.WriteBytes(0x00, []byte{0x01, 0x02})";
"";
"	}";
"";
"}";
"";
"func BenchmarkBufferRead(b *testing.B) {";
"";
"	b.ReportAllocs()";
"";
"	buf := NewBuffer([]byte{0x00, 0x00, 0x00, 0x00})";
"";
"	var out []byte";
"	for n := 0; n < b.N; n++ {";
"";
"		out = buf.ReadBytes(0x00, 2)";
"";
"	}";
"";
"	_ = out";
"";
"}"].

(** v1/buffer_test.go *)
Definition v1_buffer_test : list string := (v1_buffer_test_0 ++ v1_buffer_test_1 ++ v1_buffer_test_2 ++ v1_buffer_test_3 ++ v1_buffer_test_4 ++ v1_buffer_test_5 ++ v1_buffer_test_6 ++ v1_buffer_test_7 ++ v1_buffer_test_8 ++ v1_buffer_test_9)%list.

(** v1/minibuf_test.go:1-100 *)
Definition v1_minibuf_test_0 : list string := [
"/*";
"";
"crunch - utilities for taking bytes out of things";
"Copyright (c) 2019-2020 superwhiskers <whiskerdev@protonmail.com>";
"";
"This Source Code Form is subject to the terms of the Mozilla Public";
"License, v. 2.0. If a copy of the MPL was not distributed with this";
"file, You can obtain one at https://mozilla.org/MPL/2.0/.";
"";
"*/";
"";
"package v1";
"";
"import (";
"	""testing""";
"";
"	""github.com/google/go-cmp/cmp""";
")";
"";
"/*";
"";
"utilities";
"";
"*/";
"";
"var MiniBufferComparer = cmp.Comparer(func(x, y *MiniBuffer) bool {";
"";
"	return cmp.Equal(x.buf, y.buf) &&";
"		x.off == y.off &&";
"		x.cap == y.cap &&";
"		x.boff == y.boff &&";
"		x.bcap == y.bcap";
"";
"})";
"";
"/*";
"";
"tests";
"";
"*/";
"";
"func TestNewMiniBuffer(t *testing.T) {";
"";
"	var (";
"		expected1 = &MiniBuffer{";
"			buf:  []byte{0x00, 0x00, 0x00, 0x00},";
"			off:  0x00,";
"			cap:  4,";
"			boff: 0x00,";
"			bcap: 32,";
"		}";
"		expected2 = &MiniBuffer{";
"			buf:  []byte{},";
"			off:  0x00,";
"			cap:  0,";
"			boff: 0x00,";
"			bcap: 0,";
"		}";
"		expected3 = &MiniBuffer{";
"			buf:  []byte{0x00, 0x00, 0x00, 0x00, 0x00, 0x00, 0x00, 0x00},";
"			off:  0x00,";
"			cap:  8,";
"			boff: 0x00,";
"			bcap: 64,";
"		}";
"	)";
"";
"	out := &MiniBuffer{}";
"";
"	NewMiniBuffer(&out, []byte{0x00, 0x00, 0x00, 0x00})";
"	if !cmp.Equal(expected1, out, MiniBufferComparer) {";
"";
"		t.Fatalf(""expected minibuffer does not match the one gotten (got %#v, expected %#v)"", out, expected1)";
"";
"	}";
"";
"	NewMiniBuffer(&out)";
"	if !cmp.Equal(expected2, out, MiniBufferComparer) {";
"";
"		t.Fatalf(""expected minibuffer does not match the one gotten (got %#v, expected %#v)"", out, expected2)";
"";
"	}";
"";
"	NewMiniBuffer(&out, []byte{0x00, 0x00, 0x00, 0x00}, []byte{0x00, 0x00, 0x00, 0x00})";
"	if !cmp.Equal(expected3, out, MiniBufferComparer) {";
"";
"		t.Fatalf(""expected minibuffer does not match the one gotten (got %#v, expected %#v)"", out, expected3)";
"";
"	}";
"";
"}";
"";
"func TestMiniBufferBytes(t *testing.T) {";
"";
"	var expected = []byte{0x01, 0x02, 0x03, 0x04}";
"";
"	buf := &MiniBuffer{}";
"	NewMiniBuffer(&buf, []byte{0x01, 0x02, 0x03, 0x04})";
"";
"	out := []byte{}"].

(** v1/minibuf_test.go:101-200 *)
Definition v1_minibuf_test_1 : list string := [
"	buf.Bytes(&out)";
"	if !cmp.Equal(expected, out) {";
"";
"		t.Fatalf(""expected byte array does not match the one gotten (got %#v, expected %#v)"", out, expected)";
"";
"	}";
"";
"}";
"";
"func TestMiniBufferCapacity(t *testing.T) {";
"";
"	var expected int64 = 4";
"";
"	buf := &MiniBuffer{}";
"	NewMiniBuffer(&buf, []byte{0x00, 0x00, 0x00, 0x00})";
"";
"	var out int64";
"	buf.Capacity(&out)";
"	if expected != out {";
"";
"		t.Fatalf(""expected int64 does not match the one gotten (got %d, expected %d)"", out, expected)";
"";
"	}";
"";
"}";
"";
"func TestMiniBufferBitCapacity(t *testing.T) {";
"";
"	var expected int64 = 32";
"";
"	buf := &MiniBuffer{}";
"	NewMiniBuffer(&buf, []byte{0x00, 0x00, 0x00, 0x00})";
"";
"	var out int64";
"	buf.BitCapacity(&out)";
"	if expected != out {";
"";
"		t.Fatalf(""expected int64 does not match the one gotten (got %d, expected %d)"", out, expected)";
"";
"	}";
"";
"}";
"";
"func TestMiniBufferOffset(t *testing.T) {";
"";
"	var expected int64 = 0x02";
"";
"	buf := &MiniBuffer{}";
"	NewMiniBuffer(&buf, []byte{0x00, 0x00, 0x00, 0x00})";
"";
"	buf.Seek(0x02, false)";
"";
"	var out int64";
"	buf.Offset(&out)";
"	if expected != out {";
"";
"		t.Fatalf(""expected int64 does not match the one gotten (got %d, expected %d)"", out, expected)";
"";
"	}";
"";
"}";
"";
"func TestMiniBufferBitOffset(t *testing.T) {";
"";
"	var expected int64 = 0x0f";
"";
"	buf := &MiniBuffer{}";
"	NewMiniBuffer(&buf, []byte{0x00, 0x00, 0x00, 0x00})";
"";
"	buf.SeekBit(0x0f, false)";
"";
"	var out int64";
"	buf.BitOffset(&out)";
"	if expected != out {";
"";
"		t.Fatalf(""expected int64 does not match the one gotten (got %d, expected %d)"", out, expected)";
"";
"	}";
"";
"}";
"";
"func TestMiniBufferRefresh(t *testing.T) {";
"";
"	var (";
"		expected1 int64 = 4";
"		expected2 int64 = 32";
"	)";
"";
"	buf := &MiniBuffer{}";
"	NewMiniBuffer(&buf, []byte{0x00, 0x00, 0x00, 0x00})";
"";
"	buf.Refresh()";
"";
"	if expected1 != buf.cap || expected2 != buf.bcap {";
"";
"		t.Fatalf(""expected int64(s) do not match the ones gotten (got %d and %d, expected %d and %d)"", buf.cap, buf.bcap, expected1, expected2)";
"";
"	}";
"";
"}"].

(** v1/minibuf_test.go:201-300 *)
Definition v1_minibuf_test_2 : list string := [
"";
"func TestMiniBufferGrow(t *testing.T) {";
"";
"	var expected int64 = 4";
"";
"	buf := &MiniBuffer{}";
"	NewMiniBuffer(&buf, []byte{0x00, 0x00})";
"";
"	buf.Grow(2)";
"";
"	var out int64";
"	buf.Capacity(&out)";
"	if expected != out {";
"";
"		t.Fatalf(""expected int64 does not match the one gotten (got %d, expected %d)"", out, expected)";
"";
"	}";
"";
"}";
"";
"func TestMiniBufferSeek(t *testing.T) {";
"";
"	var expected int64 = 0x04";
"";
"	buf := &MiniBuffer{}";
"	NewMiniBuffer(&buf, []byte{0x00, 0x00, 0x00, 0x00})";
"";
"	buf.Seek(2, true)";
"	buf.Seek(2, true)";
"";
"	var out int64";
"	buf.Offset(&out)";
"	if expected != out {";
"";
"		t.Fatalf(""expected int64 does not match the one gotten (got %d, expected %d)"", out, expected)";
"";
"	}";
"";
"}";
"";
"func TestMiniBufferSeekBit(t *testing.T) {";
"";
"	var expected int64 = 0x20";
"";
"	buf := &MiniBuffer{}";
"	NewMiniBuffer(&buf, []byte{0x00, 0x00, 0x00, 0x00})";
"";
"	buf.SeekBit(16, true)";
"	buf.SeekBit(16, true)";
"";
"	var out int64";
"	buf.BitOffset(&out)";
"	if expected != out {";
"";
"		t.Fatalf(""expected int64 does not match the one gotten (got %d, expected %d)"", out, expected)";
"";
"	}";
"";
"}";
"";
"func TestMiniBufferAlignBit(t *testing.T) {";
"";
"	var expected int64 = 0x20";
"";
"	buf := &MiniBuffer{}";
"	NewMiniBuffer(&buf, []byte{0x00, 0x00, 0x00, 0x00})";
"";
"	buf.Seek(0x04, false)";
"	buf.AlignBit()";
"";
"	var out int64";
"	buf.BitOffset(&out)";
"	if expected != out {";
"";
"		t.Fatalf(""expected int64 does not match the one gotten (got %d, expected %d)"", out, expected)";
"";
"	}";
"";
"}";
"";
"func TestMiniBufferAlignByte(t *testing.T) {";
"";
"	var expected int64 = 0x04";
"";
"	buf := &MiniBuffer{}";
"	NewMiniBuffer(&buf, []byte{0x00, 0x00, 0x00, 0x00})";
"";
"	buf.SeekBit(0x20, false)";
"	buf.AlignByte()";
"";
"	var out int64";
"	buf.Offset(&out)";
"	if expected != out {";
"";
"		t.Fatalf(""expected int64 does not match the one gotten (got %d, expected %d)"", out, expected)";
"";
"	}";
"";
"}";
""].

(** v1/minibuf_test.go:301-400 *)
Definition v1_minibuf_test_3 : list string := [
"func TestMiniBufferAfter(t *testing.T) {";
"";
"	var expected int64 = 2";
"";
"	buf := &MiniBuffer{}";
"	NewMiniBuffer(&buf, []byte{0x00, 0x00, 0x00, 0x00})";
"";
"	var out int64";
"";
"	buf.Seek(0x01, false)";
"	buf.After(&out)";
"";
"	if expected != out {";
"";
"		t.Fatalf(""expected int64 does not match the one gotten (got %d, expected %d)"", out, expected)";
"";
"	}";
"";
"	buf.After(&out, 0x01)";
"";
"	if expected != out {";
"";
"		t.Fatalf(""expected int64 does not match the one gotten (got %d, expected %d)"", out, expected)";
"";
"	}";
"";
"}";
"";
"func TestMiniBufferAfterBit(t *testing.T) {";
"";
"	var expected int64 = 16";
"";
"	buf := &MiniBuffer{}";
"	NewMiniBuffer(&buf, []byte{0x00, 0x00, 0x00, 0x00})";
"";
"	var out int64";
"";
"	buf.SeekBit(0x0f, false)";
"	buf.AfterBit(&out)";
"";
"	if expected != out {";
"";
"		t.Fatalf(""expected int64 does not match the one gotten (got %d, expected %d)"", out, expected)";
"";
"	}";
"";
"	buf.AfterBit(&out, 0x0f)";
"";
"	if expected != out {";
"";
"		t.Fatalf(""expected int64 does not match the one gotten (got %d, expected %d)"", out, expected)";
"";
"	}";
"";
"}";
"";
"func TestMiniBufferReadBytes(t *testing.T) {";
"";
"	var expected = []byte{0x03, 0x04}";
"";
"	buf := &MiniBuffer{}";
"	NewMiniBuffer(&buf, []byte{0x01, 0x02, 0x03, 0x04})";
"";
"	var out []byte";
"	buf.ReadBytes(&out, 0x02, 2)";
"	if !cmp.Equal(expected, out) {";
"";
"		t.Fatalf(""expected byte array does not match the one gotten (got %#v, expected %#v)"", out, expected)";
"";
"	}";
"";
"}";
"";
"func TestMiniBufferReadBytesNext(t *testing.T) {";
"";
"	var expected = []byte{0x01, 0x02}";
"";
"	buf := &MiniBuffer{}";
"	NewMiniBuffer(&buf, []byte{0x01, 0x02, 0x03, 0x04})";
"";
"	var out []byte";
"	buf.ReadBytesNext(&out, 2)";
"	if !cmp.Equal(expected, out) {";
"";
"		t.Fatalf(""expected byte array does not match the one gotten (got %#v, expected %#v)"", out, expected)";
"";
"	}";
"";
"}";
"";
"func TestMiniBufferReadComplex(t *testing.T) {";
"";
"	var (";
"		expected1 = []byte{0x01}";
"		expected2 = []uint16{0x01}";
"		expected3 = []uint16{0x100}";
"		expected4 = []uint32{0x01}";
"		expected5 = []uint64{0x01}";
"	)";
""].

(** v1/minibuf_test.go:401-500 *)
Definition v1_minibuf_test_4 : list string := [
"	buf := &MiniBuffer{}";
"	NewMiniBuffer(&buf, []byte{0x01, 0x00, 0x00, 0x00, 0x00, 0x00, 0x00, 0x00})";
"";
"	var out interface{}";
"";
"	buf.ReadComplex(&out, 0x00, 1, Unsigned8, LittleEndian)";
"	if !cmp.Equal(out.([]byte), expected1) {";
"";
"		t.Fatalf(""expected byte array does not match the one gotten (got %#v, expected %#v)"", out.([]byte), expected1)";
"";
"	}";
"";
"	buf.ReadComplex(&out, 0x00, 1, Unsigned16, LittleEndian)";
"	if !cmp.Equal(out.([]uint16), expected2) {";
"";
"		t.Fatalf(""expected uint16 array does not match the one gotten (got %#v, expected %#v)"", out.([]uint16), expected2)";
"";
"	}";
"";
"	buf.ReadComplex(&out, 0x00, 1, Unsigned16, BigEndian)";
"	if !cmp.Equal(out.([]uint16), expected3) {";
"";
"		t.Fatalf(""expected uint16 array does not match the one gotten (got %#v, expected %#v)"", out.([]uint16), expected3)";
"";
"	}";
"";
"	buf.ReadComplex(&out, 0x00, 1, Unsigned32, LittleEndian)";
"	if !cmp.Equal(out.([]uint32), expected4) {";
"";
"		t.Fatalf(""expected uint32 array does not match the one gotten (got %#v, expected %#v)"", out.([]uint32), expected4)";
"";
"	}";
"";
"	buf.ReadComplex(&out, 0x00, 1, Unsigned64, LittleEndian)";
"	if !cmp.Equal(out.([]uint64), expected5) {";
"";
"		t.Fatalf(""expected uint64 array does not match the one gotten (got %#v, expected %#v)"", out.([]uint64), expected5)";
"";
"	}";
"";
"}";
"";
"func TestMiniBufferReadComplexNext(t *testing.T) {";
"";
"	var expected = []byte{0x01, 0x02}";
"";
"	buf := &MiniBuffer{}";
"	NewMiniBuffer(&buf, []byte{0x01, 0x02, 0x03, 0x04})";
"";
"	var out interface{}";
"	buf.ReadComplexNext(&out, 2, Unsigned8, LittleEndian)";
"";
"	if !cmp.Equal(expected, out.([]byte)) {";
"";
"		t.Fatalf(""expected byte array does not match the one gotten (got %#v, expected %#v)"", out.([]byte), expected)";
"";
"	}";
"";
"}";
"";
"func TestMiniBufferWriteBytes(t *testing.T) {";
"";
"	var expected = []byte{0x01, 0x02}";
"";
"	buf := &MiniBuffer{}";
"	NewMiniBuffer(&buf, []byte{0x00, 0x00, 0x00, 0x00})";
"";
"	buf.WriteBytes(0x02, []byte{0x01, 0x02})";
"";
"	var out []byte";
"	buf.ReadBytes(&out, 0x02, 2)";
"	if !cmp.Equal(expected, out) {";
"";
"		t.Fatalf(""expected byte array does not match the one gotten (got %#v, expected %#v)"", out, expected)";
"";
"	}";
"";
"}";
"";
"func TestMiniBufferWriteBytesNext(t *testing.T) {";
"";
"	var expected = []byte{0x01, 0x02}";
"";
"	buf := &MiniBuffer{}";
"	NewMiniBuffer(&buf, []byte{0x00, 0x00, 0x00, 0x00})";
"";
"	buf.WriteBytesNext([]byte{0x01, 0x02})";
"";
"	var out []byte";
"	buf.ReadBytes(&out, 0x00, 2)";
"	if !cmp.Equal(expected, out) {";
"";
"		t.Fatalf(""expected byte array does not match the one gotten (got %#v, expected %#v)"", out, expected)";
"";
"	}";
"";
"}";
"";
"func TestMiniBufferWriteComplex(t *testing.T) {";
""].

(** v1/minibuf_test.go:501-600 *)
Definition v1_minibuf_test_5 : list string := [
"	var expected byte = 0x01";
"";
"	buf := &MiniBuffer{}";
"	NewMiniBuffer(&buf, []byte{0x00, 0x00, 0x00, 0x00, 0x00, 0x00, 0x00, 0x00})";
"";
"	buf.WriteComplex(0x00, []byte{0x01}, Unsigned8, LittleEndian)";
"";
"	var out []byte";
"	buf.ReadBytes(&out, 0x00, 1)";
"	if expected != out[0] {";
"";
"		t.Fatalf(""expected byte does not match the one gotten (got %d, expected %d)"", out, expected)";
"";
"	}";
"";
"	buf.WriteComplex(0x00, []uint16{0x01}, Unsigned16, LittleEndian)";
"";
"	buf.ReadBytes(&out, 0x00, 1)";
"	if expected != out[0] {";
"";
"		t.Fatalf(""expected byte does not match the one gotten (got %d, expected %d)"", out, expected)";
"";
"	}";
"";
"	buf.WriteComplex(0x00, []uint16{0x100}, Unsigned16, BigEndian)";
"";
"	buf.ReadBytes(&out, 0x00, 1)";
"	if expected != out[0] {";
"";
"		t.Fatalf(""expected byte does not match the one gotten (got %d, expected %d)"", out, expected)";
"";
"	}";
"";
"	buf.WriteComplex(0x00, []uint32{0x01}, Unsigned32, LittleEndian)";
"";
"	buf.ReadBytes(&out, 0x00, 1)";
"	if expected != out[0] {";
"";
"		t.Fatalf(""expected byte does not match the one gotten (got %d, expected %d)"", out, expected)";
"";
"	}";
"";
"	buf.WriteComplex(0x00, []uint64{0x01}, Unsigned64, LittleEndian)";
"";
"	buf.ReadBytes(&out, 0x00, 1)";
"	if expected != out[0] {";
"";
"		t.Fatalf(""expected byte does not match the one gotten (got %d, expected %d)"", out, expected)";
"";
"	}";
"";
"}";
"";
"func TestMiniBufferWriteComplexNext(t *testing.T) {";
"";
"	var expected byte = 0x01";
"";
"	buf := &MiniBuffer{}";
"	NewMiniBuffer(&buf, []byte{0x00, 0x00, 0x00, 0x00, 0x00, 0x00, 0x00, 0x00})";
"";
"	buf.WriteComplexNext([]byte{0x01, 0x02}, Unsigned8, LittleEndian)";
"";
"	var out []byte";
"	buf.ReadBytes(&out, 0x00, 1)";
"	if expected != out[0] {";
"";
"		t.Fatalf(""expected byte does not match the one gotten (got %d, expected %d)"", out, expected)";
"";
"	}";
"";
"	buf.Seek(0x00, false)";
"	buf.WriteComplexNext([]uint16{0x01}, Unsigned16, LittleEndian)";
"";
"	buf.ReadBytes(&out, 0x00, 1)";
"	if expected != out[0] {";
"";
"		t.Fatalf(""expected byte does not match the one gotten (got %d, expected %d)"", out, expected)";
"";
"	}";
"";
"	buf.Seek(0x00, false)";
"	buf.WriteComplexNext([]uint32{0x01}, Unsigned32, LittleEndian)";
"";
"	buf.ReadBytes(&out, 0x00, 1)";
"	if expected != out[0] {";
"";
"		t.Fatalf(""expected byte does not match the one gotten (got %d, expected %d)"", out, expected)";
"";
"	}";
"";
"	buf.Seek(0x00, false)";
"	buf.WriteComplexNext([]uint64{0x01}, Unsigned64, LittleEndian)";
"";
"	buf.ReadBytes(&out, 0x00, 1)";
"	if expected != out[0] {";
"";
"		t.Fatalf(""expected byte does not match the one gotten (got %d, expected %d)"", out, expected)";
"";
"	}";
""].

(** v1/minibuf_test.go:601-700 *)
Definition v1_minibuf_test_6 : list string := [
"}";
"";
"func TestMiniBufferReadBit(t *testing.T) {";
"";
"	var expected byte = 1";
"";
"	buf := &MiniBuffer{}";
"	NewMiniBuffer(&buf, []byte{0x01, 0x00, 0x00, 0x00})";
"";
"	var out byte";
"	buf.ReadBit(&out, 0x07)";
"	if expected != out {";
"";
"		t.Fatalf(""expected byte does not match the one gotten (got %d, expected %d)"", out, expected)";
"";
"	}";
"";
"}";
"";
"func TestMiniBufferReadBitNext(t *testing.T) {";
"";
"	var expected byte = 1";
"";
"	buf := &MiniBuffer{}";
"	NewMiniBuffer(&buf, []byte{0xff, 0x00, 0x00, 0x00})";
"";
"	var out byte";
"	buf.ReadBitNext(&out)";
"	if expected != out {";
"";
"		t.Fatalf(""expected byte does not match the one gotten (got %d, expected %d)"", out, expected)";
"";
"	}";
"";
"}";
"";
"func TestMiniBufferReadBits(t *testing.T) {";
"";
"	var expected uint64 = 5";
"";
"	buf := &MiniBuffer{}";
"	NewMiniBuffer(&buf, []byte{0x0d, 0x00, 0x00, 0x00})";
"";
"	var out uint64";
"	buf.ReadBits(&out, 0x05, 3)";
"	if expected != out {";
"";
"		t.Fatalf(""expected uint64 does not match the one gotten (got %d, expected %d)"", out, expected)";
"";
"	}";
"";
"}";
"";
"func TestMiniBufferReadBitsNext(t *testing.T) {";
"";
"	var expected uint64 = 13";
"";
"	buf := &MiniBuffer{}";
"	NewMiniBuffer(&buf, []byte{0x0d, 0x00, 0x00, 0x00})";
"";
"	var out uint64";
"	buf.ReadBitsNext(&out, 8)";
"	if expected != out {";
"";
"		t.Fatalf(""expected uint64 does not match the one gotten (got %d, expected %d)"", out, expected)";
"";
"	}";
"";
"}";
"";
"func TestMiniBufferSetBit(t *testing.T) {";
"";
"	var expected byte = 1";
"";
"	buf := &MiniBuffer{}";
"	NewMiniBuffer(&buf, []byte{0x00, 0x00, 0x00, 0x00})";
"";
"	buf.SetBit(0x00, 1)";
"";
"	var out byte";
"	buf.ReadBit(&out, 0x00)";
"	if expected != out {";
"";
"		t.Fatalf(""expected byte does not match the one gotten (got %d, expected %d)"", out, expected)";
"";
"	}";
"";
"}";
"";
"func TestMiniBufferSetBitNext(t *testing.T) {";
"";
"	var expected byte = 1";
"";
"	buf := &MiniBuffer{}";
"	NewMiniBuffer(&buf, []byte{0x00, 0x00, 0x00, 0x00})";
"";
"	buf.SetBitNext(1)";
"";
"	var out byte";
"	buf.ReadBit(&out, 0x00)"].

(** v1/minibuf_test.go:701-800 *)
Definition v1_minibuf_test_7 : list string := [
"	if expected != out {";
"";
"		t.Fatalf(""expected byte does not match the one gotten (got %d, expected %d)"", out, expected)";
"";
"	}";
"";
"}";
"";
"func TestMiniBufferSetBits(t *testing.T) {";
"";
"	var expected uint64 = 5";
"";
"	buf := &MiniBuffer{}";
"	NewMiniBuffer(&buf, []byte{0x00, 0x00, 0x00, 0x00})";
"";
"	buf.SetBits(0x06, 5, 3)";
"";
"	var out uint64";
"	buf.ReadBits(&out, 0x06, 3)";
"	if expected != out {";
"";
"		t.Fatalf(""expected uint64 does not match the one gotten (got %d, expected %d)"", out, expected)";
"";
"	}";
"";
"}";
"";
"func TestMiniBufferSetBitsNext(t *testing.T) {";
"";
"	var expected uint64 = 13";
"";
"	buf := &MiniBuffer{}";
"	NewMiniBuffer(&buf, []byte{0x00, 0x00, 0x00, 0x00})";
"";
"	buf.SetBitsNext(13, 8)";
"";
"	var out uint64";
"	buf.ReadBits(&out, 0x00, 8)";
"	if expected != out {";
"";
"		t.Fatalf(""expected uint64 does not match the one gotten (got %d, expected %d)"", out, expected)";
"";
"	}";
"";
"}";
"";
"func TestMiniBufferFlipBit(t *testing.T) {";
"";
"	var expected byte";
"";
"	buf := &MiniBuffer{}";
"	NewMiniBuffer(&buf, []byte{0xff, 0xff, 0xff, 0xff})";
"";
"	buf.FlipBit(0x01)";
"";
"	var out byte";
"	buf.ReadBit(&out, 0x01)";
"	if expected != out {";
"";
"		t.Fatalf(""expected byte does not match the one gotten (got %d, expected %d)"", out, expected)";
"";
"	}";
"";
"}";
"";
"func TestMiniBufferFlipBitNext(t *testing.T) {";
"";
"	var expected byte = 1";
"";
"	buf := &MiniBuffer{}";
"	NewMiniBuffer(&buf, []byte{0x00, 0x00, 0x00, 0x00})";
"";
"	buf.FlipBitNext()";
"";
"	var out byte";
"	buf.ReadBit(&out, 0x00)";
"	if expected != out {";
"";
"		t.Fatalf(""expected byte does not match the one gotten (got %d, expected %d)"", out, expected)";
"";
"	}";
"";
"}";
"";
"func TestMiniBufferClearAllBits(t *testing.T) {";
"";
"	var expected = []byte{0x00, 0x00, 0x00, 0x00}";
"";
"	buf := &MiniBuffer{}";
"	NewMiniBuffer(&buf, []byte{0xff, 0x00, 0xff, 0x00})";
"";
"	buf.ClearAllBits()";
"";
"	if !cmp.Equal(expected, buf.buf) {";
"";
"		t.Fatalf(""expected byte array does not match the one gotten (got %#v, expected %#v)"", buf.buf, expected)";
"";
"	}";
"";
"}"].

(** v1/minibuf_test.go:801-900 *)
Definition v1_minibuf_test_8 : list string := [
"";
"func TestMiniBufferSetAllBits(t *testing.T) {";
"";
"	var expected = []byte{0xff, 0xff, 0xff, 0xff}";
"";
"	buf := &MiniBuffer{}";
"	NewMiniBuffer(&buf, []byte{0x00, 0xff, 0x00, 0xff})";
"";
"	buf.SetAllBits()";
"";
"	if !cmp.Equal(expected, buf.buf) {";
"";
"		t.Fatalf(""expected byte array does not match the one gotten (got %#v, expected %#v)"", buf.buf, expected)";
"";
"	}";
"";
"}";
"";
"func TestMiniBufferFlipAllBits(t *testing.T) {";
"";
"	var expected = []byte{0xff, 0x00, 0xff, 0x00}";
"";
"	buf := &MiniBuffer{}";
"	NewMiniBuffer(&buf, []byte{0x00, 0xff, 0x00, 0xff})";
"";
"	buf.FlipAllBits()";
"";
"	if !cmp.Equal(expected, buf.buf) {";
"";
"		t.Fatalf(""expected byte array does not match the one gotten (got %#v, expected %#v)"", buf.buf, expected)";
"";
"	}";
"";
"}";
"";
"func TestMiniBufferSetbitPanic(t *testing.T) {";
"";
"	defer panicChecker(t, BufferInvalidBitError)";
"";
"	buf := &MiniBuffer{}";
"	NewMiniBuffer(&buf, []byte{0x00, 0x00, 0x00, 0x00})";
"";
"	buf.setbit(0x00, 2)";
"";
"}";
"";
"func TestMiniBufferReadComplexPanic(t *testing.T) {";
"";
"	defer panicChecker(t, BufferInvalidIntegerSizeError)";
"";
"	buf := &MiniBuffer{}";
"	NewMiniBuffer(&buf, []byte{0x00, 0x00, 0x00, 0x00})";
"";
"	var _out interface{}";
"	buf.readComplex(&_out, 0x00, 1, -1, LittleEndian)";
"";
"}";
"";
"func TestMiniBufferWriteComplexPanic(t *testing.T) {";
"";
"	defer panicChecker(t, BufferInvalidIntegerSizeError)";
"";
"	buf := &MiniBuffer{}";
"	NewMiniBuffer(&buf, []byte{0x00, 0x00, 0x00, 0x00})";
"";
"	buf.writeComplex(0x00, 1, -1, LittleEndian)";
"";
"}";
"";
"/*";
"";
"benchmarks";
"";
"*/";
"";
"func BenchmarkMiniBufferWrite(b *testing.B) {";
"";
"	b.ReportAllocs()";
"";
"	buf := &MiniBuffer{}";
"	NewMiniBuffer(&buf, []byte{0x00, 0x00, 0x00, 0x00})";
"";
"	for n := 0; n < b.N; n++ {";
"";
"		buf.WriteBytes(0x00, []byte{0x01, 0x02})";
"";
"	}";
"";
"}";
"";
"func BenchmarkMiniBufferRead(b *testing.B) {";
"";
"	b.ReportAllocs()";
"";
"	buf := &MiniBuffer{}";
"	NewMiniBuffer(&buf, []byte{0x00, 0x00, 0x00, 0x00})";
"";
"	out := []byte{}";
"";
"	for n := 0; n < b.N; n++ {"].

(** v1/minibuf_test.go:901-906 *)
Definition v1_minibuf_test_9 : list string := [
"";
"		buf.ReadBytes(&out, 0x00, 2)";
"";
"	}";
"";
"}"].

(** v1/minibuf_test.go *)
Definition v1_minibuf_test : list string := (v1_minibuf_test_0 ++ v1_minibuf_test_1 ++ v1_minibuf_test_2 ++ v1_minibuf_test_3 ++ v1_minibuf_test_4 ++ v1_minibuf_test_5 ++ v1_minibuf_test_6 ++ v1_minibuf_test_7 ++ v1_minibuf_test_8 ++ v1_minibuf_test_9)%list.

(** v2/buffer_test.go:1-100 *)
Definition v2_buffer_test_0 : list string := [
"/*";
"";
"crunch - utilities for taking bytes out of things";
"Copyright (c) 2019-2020 superwhiskers <whiskerdev@protonmail.com>";
"";
"This Source Code Form is subject to the terms of the Mozilla Public";
"License, v. 2.0. If a copy of the MPL was not distributed with this";
"file, You can obtain one at https://mozilla.org/MPL/2.0/.";
"";
"*/";
"";
"package v2";
"";
"import (";
"	""testing""";
"";
"	""github.com/google/go-cmp/cmp""";
")";
"";
"/*";
"";
"utilities";
"";
"*/";
"";
"var BufferComparer = cmp.Comparer(func(x, y *Buffer) bool {";
"";
"	return cmp.Equal(x.buf, y.buf) &&";
"		x.off == y.off &&";
"		x.cap == y.cap &&";
"		x.boff == y.boff &&";
"		x.bcap == y.bcap";
"";
"})";
"";
"/*";
"";
"tests";
"";
"*/";
"";
"func TestNewBuffer(t *testing.T) {";
"";
"	var (";
"		expected1 = &Buffer{";
"			buf:  []byte{0x00, 0x00, 0x00, 0x00},";
"			off:  0x00,";
"			cap:  4,";
"			boff: 0x00,";
"			bcap: 32,";
"		}";
"		expected2 = &Buffer{";
"			buf:  []byte{},";
"			off:  0x00,";
"			cap:  0,";
"			boff: 0x00,";
"			bcap: 0,";
"		}";
"		expected3 = &Buffer{";
"			buf:  []byte{0x00, 0x00, 0x00, 0x00, 0x00, 0x00, 0x00, 0x00},";
"			off:  0x00,";
"			cap:  8,";
"			boff: 0x00,";
"			bcap: 64,";
"		}";
"	)";
"";
"	out := NewBuffer([]byte{0x00, 0x00, 0x00, 0x00})";
"	if !cmp.Equal(expected1, out, BufferComparer) {";
"";
"		t.Fatalf(""expected buffer does not match the one gotten (got %#v, expected %#v)"", out, expected1)";
"";
"	}";
"";
"	out = NewBuffer()";
"	if !cmp.Equal(expected2, out, BufferComparer) {";
"";
"		t.Fatalf(""expected buffer does not match the one gotten (got %#v, expected %#v)"", out, expected2)";
"";
"	}";
"";
"	out = NewBuffer([]byte{0x00, 0x00, 0x00, 0x00}, []byte{0x00, 0x00, 0x00, 0x00})";
"	if !cmp.Equal(expected3, out, BufferComparer) {";
"";
"		t.Fatalf(""expected buffer does not match the one gotten (got %#v, expected %#v)"", out, expected3)";
"";
"	}";
"";
"}";
"";
"func TestBufferBytes(t *testing.T) {";
"";
"	var expected = []byte{0x01, 0x02, 0x03, 0x04}";
"";
"	buf := NewBuffer([]byte{0x01, 0x02, 0x03, 0x04})";
"";
"	out := buf.Bytes()";
"	if !cmp.Equal(expected, out) {";
"";
"		t.Fatalf(""expected byte array does not match the one gotten (got %#v, expected %#v)"", out, expected)"].

(** v2/buffer_test.go:101-200 *)
Definition v2_buffer_test_1 : list string := [
"";
"	}";
"";
"}";
"";
"func TestBufferCapacity(t *testing.T) {";
"";
"	var expected int64 = 4";
"";
"	buf := NewBuffer([]byte{0x00, 0x00, 0x00, 0x00})";
"";
"	out := buf.Capacity()";
"	if expected != out {";
"";
"		t.Fatalf(""expected int64 does not match the one gotten (got %d, expected %d)"", out, expected)";
"";
"	}";
"";
"}";
"";
"func TestBufferBitCapacity(t *testing.T) {";
"";
"	var expected int64 = 32";
"";
"	buf := NewBuffer([]byte{0x00, 0x00, 0x00, 0x00})";
"";
"	out := buf.BitCapacity()";
"	if expected != out {";
"";
"		t.Fatalf(""expected int64 does not match the one gotten (got %d, expected %d)"", out, expected)";
"";
"	}";
"";
"}";
"";
"func TestBufferOffset(t *testing.T) {";
"";
"	var expected int64 = 0x02";
"";
"	buf := NewBuffer([]byte{0x00, 0x00, 0x00, 0x00})";
"";
"	buf.Seek(0x02, false)";
"";
"	out := buf.Offset()";
"	if expected != out {";
"";
"		t.Fatalf(""expected int64 does not match the one gotten (got %d, expected %d)"", out, expected)";
"";
"	}";
"";
"}";
"";
"func TestBufferBitOffset(t *testing.T) {";
"";
"	var expected int64 = 0x0f";
"";
"	buf := NewBuffer([]byte{0x00, 0x00, 0x00, 0x00})";
"";
"	buf.SeekBit(0x0f, false)";
"";
"	out := buf.BitOffset()";
"	if expected != out {";
"";
"		t.Fatalf(""expected int64 does not match the one gotten (got %d, expected %d)"", out, expected)";
"";
"	}";
"";
"}";
"";
"func TestBufferRefresh(t *testing.T) {";
"";
"	var (";
"		expected1 int64 = 4";
"		expected2 int64 = 32";
"	)";
"";
"	buf := NewBuffer([]byte{0x00, 0x00, 0x00, 0x00})";
"";
"	buf.Refresh()";
"";
"	if expected1 != buf.cap || expected2 != buf.bcap {";
"";
"		t.Fatalf(""expected int64(s) do not match the ones gotten (got %d and %d, expected %d and %d)"", buf.cap, buf.bcap, expected1, expected2)";
"";
"	}";
"";
"}";
"";
"func TestBufferReset(t *testing.T) {";
"";
"	var expected = []byte{}";
"";
"	buf := NewBuffer([]byte{0x00, 0x00, 0x00, 0x00})";
"";
"	buf.Reset()";
"";
"	if !cmp.Equal(expected, buf.buf) {";
"";
"		t.Fatalf(""expected byte array does not match the one gotten (got %#v, expected %#v)"", buf.buf, expected)";
""].

(** v2/buffer_test.go:201-300 *)
Definition v2_buffer_test_2 : list string := [
"	}";
"";
"}";
"";
"func TestBufferGrow(t *testing.T) {";
"";
"	var expected int64 = 4";
"";
"	buf := NewBuffer([]byte{0x00, 0x00})";
"";
"	buf.Grow(2)";
"";
"	out := buf.Capacity()";
"	if expected != out {";
"";
"		t.Fatalf(""expected int64 does not match the one gotten (got %d, expected %d)"", out, expected)";
"";
"	}";
"";
"}";
"";
"func TestBufferSeek(t *testing.T) {";
"";
"	var expected int64 = 0x04";
"";
"	buf := NewBuffer([]byte{0x00, 0x00, 0x00, 0x00})";
"";
"	buf.Seek(2, true)";
"	buf.Seek(2, true)";
"";
"	out := buf.Offset()";
"	if expected != out {";
"";
"		t.Fatalf(""expected int64 does not match the one gotten (got %d, expected %d)"", out, expected)";
"";
"	}";
"";
"}";
"";
"func TestBufferSeekBit(t *testing.T) {";
"";
"	var expected int64 = 0x20";
"";
"	buf := NewBuffer([]byte{0x00, 0x00, 0x00, 0x00})";
"";
"	buf.SeekBit(16, true)";
"	buf.SeekBit(16, true)";
"";
"	out := buf.BitOffset()";
"	if expected != out {";
"";
"		t.Fatalf(""expected int64 does not match the one gotten (got %d, expected %d)"", out, expected)";
"";
"	}";
"";
"}";
"";
"func TestBufferAlignBit(t *testing.T) {";
"";
"	var expected int64 = 0x20";
"";
"	buf := NewBuffer([]byte{0x00, 0x00, 0x00, 0x00})";
"";
"	buf.Seek(0x04, false)";
"	buf.AlignBit()";
"";
"	out := buf.BitOffset()";
"	if expected != out {";
"";
"		t.Fatalf(""expected int64 does not match the one gotten (got %d, expected %d)"", out, expected)";
"";
"	}";
"";
"}";
"";
"func TestBufferAlignByte(t *testing.T) {";
"";
"	var expected int64 = 0x04";
"";
"	buf := NewBuffer([]byte{0x00, 0x00, 0x00, 0x00})";
"";
"	buf.SeekBit(0x20, false)";
"	buf.AlignByte()";
"";
"	out := buf.Offset()";
"	if expected != out {";
"";
"		t.Fatalf(""expected int64 does not match the one gotten (got %d, expected %d)"", out, expected)";
"";
"	}";
"";
"}";
"";
"func TestBufferAfter(t *testing.T) {";
"";
"	var expected int64 = 2";
"";
"	buf := NewBuffer([]byte{0x00, 0x00, 0x00, 0x00})";
"";
"	buf.Seek(0x01, false)"].

(** v2/buffer_test.go:301-400 *)
Definition v2_buffer_test_3 : list string := [
"	out := buf.After()";
"";
"	if expected != out {";
"";
"		t.Fatalf(""expected int64 does not match the one gotten (got %d, expected %d)"", out, expected)";
"";
"	}";
"";
"	out = buf.After(0x01)";
"";
"	if expected != out {";
"";
"		t.Fatalf(""expected int64 does not match the one gotten (got %d, expected %d)"", out, expected)";
"";
"	}";
"";
"}";
"";
"func TestBufferAfterBit(t *testing.T) {";
"";
"	var expected int64 = 16";
"";
"	buf := NewBuffer([]byte{0x00, 0x00, 0x00, 0x00})";
"";
"	buf.SeekBit(0x0f, false)";
"	out := buf.AfterBit()";
"";
"	if expected != out {";
"";
"		t.Fatalf(""expected int64 does not match the one gotten (got %d, expected %d)"", out, expected)";
"";
"	}";
"";
"	out = buf.AfterBit(0x0f)";
"";
"	if expected != out {";
"";
"		t.Fatalf(""expected int64 does not match the one gotten (got %d, expected %d)"", out, expected)";
"";
"	}";
"";
"}";
"";
"func TestBufferReadByte(t *testing.T) {";
"";
"	var expected byte = 0x03";
"";
"	buf := NewBuffer([]byte{0x01, 0x02, 0x03, 0x04})";
"";
"	out := buf.ReadByte(0x02)";
"	if expected != out {";
"";
"		t.Fatalf(""expected byte does not match the one gotten (got %d, expected %d)"", out, expected)";
"";
"	}";
"";
"}";
"";
"func TestBufferReadByteNext(t *testing.T) {";
"";
"	var expected byte = 0x01";
"";
"	buf := NewBuffer([]byte{0x01, 0x02, 0x03, 0x04})";
"";
"	out := buf.ReadByteNext()";
"	if expected != out {";
"";
"		t.Fatalf(""expected byte does not match the one gotten (got %d, expected %d)"", out, expected)";
"";
"	}";
"";
"}";
"";
"func TestBufferReadBytes(t *testing.T) {";
"";
"	var expected = []byte{0x03, 0x04}";
"";
"	buf := NewBuffer([]byte{0x01, 0x02, 0x03, 0x04})";
"";
"	out := buf.ReadBytes(0x02, 2)";
"	if !cmp.Equal(expected, out) {";
"";
"		t.Fatalf(""expected byte array does not match the one gotten (got %#v, expected %#v)"", out, expected)";
"";
"	}";
"";
"}";
"";
"func TestBufferReadBytesNext(t *testing.T) {";
"";
"	var expected = []byte{0x01, 0x02}";
"";
"	buf := NewBuffer([]byte{0x01, 0x02, 0x03, 0x04})";
"";
"	out := buf.ReadBytesNext(2)";
"	if !cmp.Equal(expected, out) {";
"";
"		t.Fatalf(""expected byte array does not match the one gotten (got %#v, expected %#v)"", out, expected)";
"";
"	}"].

(** v2/buffer_test.go:401-500 *)
Definition v2_buffer_test_4 : list string := [
"";
"}";
"";
"func TestBufferReadUNEN(t *testing.T) {";
"";
"	var (";
"		expected1 = []uint16{0x01}";
"		expected2 = []uint16{0x100}";
"		expected3 = []uint32{0x01}";
"		expected4 = []uint32{0x1000000}";
"		expected5 = []uint64{0x01}";
"		expected6 = []uint64{0x100000000000000}";
"	)";
"";
"	buf := NewBuffer([]byte{0x01, 0x00, 0x00, 0x00, 0x00, 0x00, 0x00, 0x00})";
"";
"	out1 := buf.ReadU16LE(0x00, 1)";
"	if !cmp.Equal(out1, expected1) {";
"";
"		t.Fatalf(""expected uint16 array does not match the one gotten (got %#v, expected %#v)"", out1, expected1)";
"";
"	}";
"";
"	out1 = buf.ReadU16BE(0x00, 1)";
"	if !cmp.Equal(out1, expected2) {";
"";
"		t.Fatalf(""expected uint16 array does not match the one gotten (got %#v, expected %#v)"", out1, expected2)";
"";
"	}";
"";
"	out2 := buf.ReadU32LE(0x00, 1)";
"	if !cmp.Equal(out2, expected3) {";
"";
"		t.Fatalf(""expected uint32 array does not match the one gotten (got %#v, expected %#v)"", out2, expected3)";
"";
"	}";
"";
"	out2 = buf.ReadU32BE(0x00, 1)";
"	if !cmp.Equal(out2, expected4) {";
"";
"		t.Fatalf(""expected uint32 array does not match the one gotten (got %#v, expected %#v)"", out2, expected4)";
"";
"	}";
"";
"	out3 := buf.ReadU64LE(0x00, 1)";
"	if !cmp.Equal(out3, expected5) {";
"";
"		t.Fatalf(""expected uint64 array does not match the one gotten (got %#v, expected %#v)"", out3, expected5)";
"";
"	}";
"";
"	out3 = buf.ReadU64BE(0x00, 1)";
"	if !cmp.Equal(out3, expected6) {";
"";
"		t.Fatalf(""expected uint64 array does not match the one gotten (got %#v, expected %#v)"", out3, expected6)";
"";
"	}";
"";
"}";
"";
"func TestBufferReadUNENNext(t *testing.T) {";
"";
"	var (";
"		expected1 = []uint16{0x01}";
"		expected2 = []uint16{0x100}";
"		expected3 = []uint32{0x01}";
"		expected4 = []uint32{0x1000000}";
"		expected5 = []uint64{0x01}";
"		expected6 = []uint64{0x100000000000000}";
"	)";
"";
"	buf := NewBuffer([]byte{0x01, 0x00, 0x00, 0x00, 0x00, 0x00, 0x00, 0x00})";
"";
"	out1 := buf.ReadU16LENext(1)";
"	if !cmp.Equal(out1, expected1) {";
"";
"		t.Fatalf(""expected uint16 array does not match the one gotten (got %#v, expected %#v)"", out1, expected1)";
"";
"	}";
"";
"	off := buf.Offset()";
"	if off != 2 {";
"";
"		t.Fatalf(""incorrect offset: %d"", off)";
"";
"	}";
"	buf.Seek(0x00, false)";
"";
"	out1 = buf.ReadU16BENext(1)";
"	if !cmp.Equal(out1, expected2) {";
"";
"		t.Fatalf(""expected uint16 array does not match the one gotten (got %#v, expected %#v)"", out1, expected2)";
"";
"	}";
"";
"	off = buf.Offset()";
"	if off != 2 {";
"";
"		t.Fatalf(""incorrect offset: %d"", off)";
""].

(** v2/buffer_test.go:501-600 *)
Definition v2_buffer_test_5 : list string := [
"	}";
"	buf.Seek(0x00, false)";
"";
"	out2 := buf.ReadU32LENext(1)";
"	if !cmp.Equal(out2, expected3) {";
"";
"		t.Fatalf(""expected uint32 array does not match the one gotten (got %#v, expected %#v)"", out2, expected3)";
"";
"	}";
"";
"	off = buf.Offset()";
"	if off != 4 {";
"";
"		t.Fatalf(""incorrect offset: %d"", off)";
"";
"	}";
"	buf.Seek(0x00, false)";
"";
"	out2 = buf.ReadU32BENext(1)";
"	if !cmp.Equal(out2, expected4) {";
"";
"		t.Fatalf(""expected uint32 array does not match the one gotten (got %#v, expected %#v)"", out2, expected4)";
"";
"	}";
"";
"	off = buf.Offset()";
"	if off != 4 {";
"";
"		t.Fatalf(""incorrect offset: %d"", off)";
"";
"	}";
"	buf.Seek(0x00, false)";
"";
"	out3 := buf.ReadU64LENext(1)";
"	if !cmp.Equal(out3, expected5) {";
"";
"		t.Fatalf(""expected uint64 array does not match the one gotten (got %#v, expected %#v)"", out3, expected5)";
"";
"	}";
"";
"	off = buf.Offset()";
"	if off != 8 {";
"";
"		t.Fatalf(""incorrect offset: %d"", off)";
"";
"	}";
"	buf.Seek(0x00, false)";
"";
"	out3 = buf.ReadU64BENext(1)";
"	if !cmp.Equal(out3, expected6) {";
"";
"		t.Fatalf(""expected uint64 array does not match the one gotten (got %#v, expected %#v)"", out3, expected6)";
"";
"	}";
"";
"	off = buf.Offset()";
"	if off != 8 {";
"";
"		t.Fatalf(""incorrect offset: %d"", off)";
"";
"	}";
"	buf.Seek(0x00, false)";
"";
"}";
"";
"func TestBufferWriteByte(t *testing.T) {";
"";
"	var expected byte = 0x04";
"";
"	buf := NewBuffer([]byte{0x00, 0x00, 0x00, 0x00})";
"";
"	buf.WriteByte(0x03, 0x04)";
"";
"	out := buf.ReadByte(0x03)";
"	if expected != out {";
"";
"		t.Fatalf(""expected byte does not match the one gotten (got %d, expected %d)"", out, expected)";
"";
"	}";
"";
"}";
"";
"func TestBufferWriteByteNext(t *testing.T) {";
"";
"	var expected byte = 0x01";
"";
"	buf := NewBuffer([]byte{0x00, 0x00, 0x00, 0x00})";
"";
"	buf.WriteByteNext(0x01)";
"";
"	out := buf.ReadByte(0x00)";
"	if expected != out {";
"";
"		t.Fatalf(""expected byte does not match the one gotten (got %d, expected %d)"", out, expected)";
"";
"	}";
"";
"}";
"";
"func TestBufferWriteBytes(t *testing.T) {"].

(** v2/buffer_test.go:601-700 *)
Definition v2_buffer_test_6 : list string := [
"";
"	var expected = []byte{0x01, 0x02}";
"";
"	buf := NewBuffer([]byte{0x00, 0x00, 0x00, 0x00})";
"";
"	buf.WriteBytes(0x02, []byte{0x01, 0x02})";
"";
"	out := buf.ReadBytes(0x02, 2)";
"	if !cmp.Equal(expected, out) {";
"";
"		t.Fatalf(""expected byte array does not match the one gotten (got %#v, expected %#v)"", out, expected)";
"";
"	}";
"";
"}";
"";
"func TestBufferWriteBytesNext(t *testing.T) {";
"";
"	var expected = []byte{0x01, 0x02}";
"";
"	buf := NewBuffer([]byte{0x00, 0x00, 0x00, 0x00})";
"";
"	buf.WriteBytesNext([]byte{0x01, 0x02})";
"";
"	out := buf.ReadBytes(0x00, 2)";
"	if !cmp.Equal(expected, out) {";
"";
"		t.Fatalf(""expected byte array does not match the one gotten (got %#v, expected %#v)"", out, expected)";
"";
"	}";
"";
"}";
"";
"func TestBufferWriteUNEN(t *testing.T) {";
"";
"	var expected byte = 0x01";
"";
"	buf := NewBuffer([]byte{0x00, 0x00, 0x00, 0x00, 0x00, 0x00, 0x00, 0x00})";
"";
"	buf.WriteU16LE(0x00, []uint16{0x01, 0x01})";
"";
"	out := buf.ReadBytes(0x00, 1)";
"	if expected != out[0] {";
"";
"		t.Fatalf(""expected byte does not match the one gotten (got %d, expected %d)"", out[0], expected)";
"";
"	}";
"";
"	out = buf.ReadBytes(0x02, 1)";
"	if expected != out[0] {";
"";
"		t.Fatalf(""expected byte does not match the one gotten (got %d, expected %d)"", out[0], expected)";
"";
"	}";
"";
"	buf.WriteU16BE(0x00, []uint16{0x100, 0x100})";
"";
"	out = buf.ReadBytes(0x00, 1)";
"	if expected != out[0] {";
"";
"		t.Fatalf(""expected byte does not match the one gotten (got %d, expected %d)"", out[0], expected)";
"";
"	}";
"";
"	out = buf.ReadBytes(0x02, 1)";
"	if expected != out[0] {";
"";
"		t.Fatalf(""expected byte does not match the one gotten (got %d, expected %d)"", out[0], expected)";
"";
"	}";
"";
"	buf.WriteU32LE(0x00, []uint32{0x01})";
"";
"	out = buf.ReadBytes(0x00, 1)";
"	if expected != out[0] {";
"";
"		t.Fatalf(""expected byte does not match the one gotten (got %d, expected %d)"", out[0], expected)";
"";
"	}";
"";
"	buf.WriteU32BE(0x00, []uint32{0x1000000})";
"";
"	out = buf.ReadBytes(0x00, 1)";
"	if expected != out[0] {";
"";
"		t.Fatalf(""expected byte does not match the one gotten (got %d, expected %d)"", out[0], expected)";
"";
"	}";
"";
"	buf.WriteU64LE(0x00, []uint64{0x01})";
"";
"	out = buf.ReadBytes(0x00, 1)";
"	if expected != out[0] {";
"";
"		t.Fatalf(""expected byte does not match the one gotten (got %d, expected %d)"", out[0], expected)";
"";
"	}";
"";
"	buf.WriteU64BE(0x00, []uint64{0x100000000000000})";
""].

(** v2/buffer_test.go:701-800 *)
Definition v2_buffer_test_7 : list string := [
"	out = buf.ReadBytes(0x00, 1)";
"	if expected != out[0] {";
"";
"		t.Fatalf(""expected byte does not match the one gotten (got %d, expected %d)"", out[0], expected)";
"";
"	}";
"";
"}";
"";
"func TestBufferWriteUNENNext(t *testing.T) {";
"";
"	var expected byte = 0x01";
"";
"	buf := NewBuffer([]byte{0x00, 0x00, 0x00, 0x00, 0x00, 0x00, 0x00, 0x00})";
"";
"	buf.WriteU16LENext([]uint16{0x01})";
"";
"	out := buf.ReadBytes(0x00, 1)";
"	if expected != out[0] {";
"";
"		t.Fatalf(""expected byte does not match the one gotten (got %d, expected %d)"", out[0], expected)";
"";
"	}";
"";
"	off := buf.Offset()";
"	if off != 2 {";
"";
"		t.Fatalf(""incorrect offset: %d"", off)";
"";
"	}";
"	buf.Seek(0x00, false)";
"";
"	buf.WriteU16BENext([]uint16{0x100})";
"";
"	out = buf.ReadBytes(0x00, 1)";
"	if expected != out[0] {";
"";
"		t.Fatalf(""expected byte does not match the one gotten (got %d, expected %d)"", out[0], expected)";
"";
"	}";
"";
"	off = buf.Offset()";
"	if off != 2 {";
"";
"		t.Fatalf(""incorrect offset: %d"", off)";
"";
"	}";
"	buf.Seek(0x00, false)";
"";
"	buf.WriteU32LENext([]uint32{0x01})";
"";
"	out = buf.ReadBytes(0x00, 1)";
"	if expected != out[0] {";
"";
"		t.Fatalf(""expected byte does not match the one gotten (got %d, expected %d)"", out[0], expected)";
"";
"	}";
"";
"	off = buf.Offset()";
"	if off != 4 {";
"";
"		t.Fatalf(""incorrect offset: %d"", off)";
"";
"	}";
"	buf.Seek(0x00, false)";
"";
"	buf.WriteU32BENext([]uint32{0x1000000})";
"";
"	out = buf.ReadBytes(0x00, 1)";
"	if expected != out[0] {";
"";
"		t.Fatalf(""expected byte does not match the one gotten (got %d, expected %d)"", out[0], expected)";
"";
"	}";
"";
"	off = buf.Offset()";
"	if off != 4 {";
"";
"		t.Fatalf(""incorrect offset: %d"", off)";
"";
"	}";
"	buf.Seek(0x00, false)";
"";
"	buf.WriteU64LENext([]uint64{0x01})";
"";
"	out = buf.ReadBytes(0x00, 1)";
"	if expected != out[0] {";
"";
"		t.Fatalf(""expected byte does not match the one gotten (got %d, expected %d)"", out[0], expected)";
"";
"	}";
"";
"	off = buf.Offset()";
"	if off != 8 {";
"";
"		t.Fatalf(""incorrect offset: %d"", off)";
"";
"	}";
"	buf.Seek(0x00, false)";
""].

(** v2/buffer_test.go:801-900 *)
Definition v2_buffer_test_8 : list string := [
"	buf.WriteU64BENext([]uint64{0x100000000000000})";
"";
"	out = buf.ReadBytes(0x00, 1)";
"	if expected != out[0] {";
"";
"		t.Fatalf(""expected byte does not match the one gotten (got %d, expected %d)"", out[0], expected)";
"";
"	}";
"";
"	off = buf.Offset()";
"	if off != 8 {";
"";
"		t.Fatalf(""incorrect offset: %d"", off)";
"";
"	}";
"	buf.Seek(0x00, false)";
"";
"}";
"";
"func TestBufferReadBit(t *testing.T) {";
"";
"	var expected byte = 1";
"";
"	buf := NewBuffer([]byte{0x01, 0x00, 0x00, 0x00})";
"";
"	out := buf.ReadBit(0x07)";
"	if expected != out {";
"";
"		t.Fatalf(""expected byte does not match the one gotten (got %d, expected %d)"", out, expected)";
"";
"	}";
"";
"}";
"";
"func TestBufferReadBitNext(t *testing.T) {";
"";
"	var expected byte = 1";
"";
"	buf := NewBuffer([]byte{0xff, 0x00, 0x00, 0x00})";
"";
"	out := buf.ReadBitNext()";
"	if expected != out {";
"";
"		t.Fatalf(""expected byte does not match the one gotten (got %d, expected %d)"", out, expected)";
"";
"	}";
"";
"}";
"";
"func TestBufferReadBits(t *testing.T) {";
"";
"	var expected uint64 = 5";
"";
"	buf := NewBuffer([]byte{0x0d, 0x00, 0x00, 0x00})";
"";
"	out := buf.ReadBits(0x05, 3)";
"	if expected != out {";
"";
"		t.Fatalf(""expected uint64 does not match the one gotten (got %d, expected %d)"", out, expected)";
"";
"	}";
"";
"}";
"";
"func TestBufferReadBitsNext(t *testing.T) {";
"";
"	var expected uint64 = 13";
"";
"	buf := NewBuffer([]byte{0x0d, 0x00, 0x00, 0x00})";
"";
"	out := buf.ReadBitsNext(8)";
"	if expected != out {";
"";
"		t.Fatalf(""expected uint64 does not match the one gotten (got %d, expected %d)"", out, expected)";
"";
"	}";
"";
"}";
"";
"func TestBufferSetBit(t *testing.T) {";
"";
"	var expected byte = 1";
"";
"	buf := NewBuffer([]byte{0x00, 0x00, 0x00, 0x00})";
"";
"	buf.SetBit(0x00, 1)";
"";
"	out := buf.ReadBit(0x00)";
"	if expected != out {";
"";
"		t.Fatalf(""expected byte does not match the one gotten (got %d, expected %d)"", out, expected)";
"";
"	}";
"";
"}";
"";
"func TestBufferSetBitNext(t *testing.T) {";
"";
"	var expected byte = 1";
""].

(** v2/buffer_test.go:901-1000 *)
Definition v2_buffer_test_9 : list string := [
"	buf := NewBuffer([]byte{0x00, 0x00, 0x00, 0x00})";
"";
"	buf.SetBitNext(1)";
"";
"	out := buf.ReadBit(0x00)";
"	if expected != out {";
"";
"		t.Fatalf(""expected byte does not match the one gotten (got %d, expected %d)"", out, expected)";
"";
"	}";
"";
"}";
"";
"func TestBufferSetBits(t *testing.T) {";
"";
"	var expected uint64 = 5";
"";
"	buf := NewBuffer([]byte{0x00, 0x00, 0x00, 0x00})";
"";
"	buf.SetBits(0x06, 5, 3)";
"";
"	out := buf.ReadBits(0x06, 3)";
"	if expected != out {";
"";
"		t.Fatalf(""expected uint64 does not match the one gotten (got %d, expected %d)"", out, expected)";
"";
"	}";
"";
"}";
"";
"func TestBufferSetBitsNext(t *testing.T) {";
"";
"	var expected uint64 = 13";
"";
"	buf := NewBuffer([]byte{0x00, 0x00, 0x00, 0x00})";
"";
"	buf.SetBitsNext(13, 8)";
"";
"	out := buf.ReadBits(0x00, 8)";
"	if expected != out {";
"";
"		t.Fatalf(""expected uint64 does not match the one gotten (got %d, expected %d)"", out, expected)";
"";
"	}";
"";
"}";
"";
"func TestBufferFlipBit(t *testing.T) {";
"";
"	var expected byte";
"";
"	buf := NewBuffer([]byte{0xff, 0xff, 0xff, 0xff})";
"";
"	buf.FlipBit(0x01)";
"";
"	out := buf.ReadBit(0x01)";
"	if expected != out {";
"";
"		t.Fatalf(""expected byte does not match the one gotten (got %d, expected %d)"", out, expected)";
"";
"	}";
"";
"}";
"";
"func TestBufferFlipBitNext(t *testing.T) {";
"";
"	var expected byte = 1";
"";
"	buf := NewBuffer([]byte{0x00, 0x00, 0x00, 0x00})";
"";
"	buf.FlipBitNext()";
"";
"	out := buf.ReadBit(0x00)";
"	if expected != out {";
"";
"		t.Fatalf(""expected byte does not match the one gotten (got %d, expected %d)"", out, expected)";
"";
"	}";
"";
"}";
"";
"func TestBufferClearAllBits(t *testing.T) {";
"";
"	var expected = []byte{0x00, 0x00, 0x00, 0x00}";
"";
"	buf := NewBuffer([]byte{0xff, 0x00, 0xff, 0x00})";
"";
"	buf.ClearAllBits()";
"";
"	if !cmp.Equal(expected, buf.buf) {";
"";
"		t.Fatalf(""expected byte array does not match the one gotten (got %#v, expected %#v)"", buf.buf, expected)";
"";
"	}";
"";
"}";
"";
"func TestBufferSetAllBits(t *testing.T) {";
"";
"	var expected = []byte{0xff, 0xff, 0xff, 0xff}"].

(** v2/buffer_test.go:1001-1100 *)
Definition v2_buffer_test_10 : list string := [
"";
"	buf := NewBuffer([]byte{0x00, 0xff, 0x00, 0xff})";
"";
"	buf.SetAllBits()";
"";
"	if !cmp.Equal(expected, buf.buf) {";
"";
"		t.Fatalf(""expected byte array does not match the one gotten (got %#v, expected %#v)"", buf.buf, expected)";
"";
"	}";
"";
"}";
"";
"func TestBufferFlipAllBits(t *testing.T) {";
"";
"	var expected = []byte{0xff, 0x00, 0xff, 0x00}";
"";
"	buf := NewBuffer([]byte{0x00, 0xff, 0x00, 0xff})";
"";
"	buf.FlipAllBits()";
"";
"	if !cmp.Equal(expected, buf.buf) {";
"";
"		t.Fatalf(""expected byte array does not match the one gotten (got %#v, expected %#v)"", buf.buf, expected)";
"";
"	}";
"";
"}";
"";
"func TestBufferReadbitPanic1(t *testing.T) {";
"";
"	defer panicChecker(t, BufferOverreadError)";
"";
"	buf := NewBuffer([]byte{0x00, 0x00, 0x00, 0x00})";
"";
"	_ = buf.readbit(0x20)";
"";
"}";
"";
"func TestBufferReadbitPanic2(t *testing.T) {";
"";
"	defer panicChecker(t, BufferUnderreadError)";
"";
"	buf := NewBuffer([]byte{0x00, 0x00, 0x00, 0x00})";
"";
"	_ = buf.readbit(-0x01)";
"";
"}";
"";
"func TestBufferSetbitPanic1(t *testing.T) {";
"";
"	defer panicChecker(t, BufferOverwriteError)";
"";
"	buf := NewBuffer([]byte{0x00, 0x00, 0x00, 0x00})";
"";
"	buf.setbit(0x20, 1)";
"";
"}";
"";
"func TestBufferSetbitPanic2(t *testing.T) {";
"";
"	defer panicChecker(t, BufferUnderwriteError)";
"";
"	buf := NewBuffer([]byte{0x00, 0x00, 0x00, 0x00})";
"";
"	buf.setbit(-0x01, 1)";
"";
"}";
"";
"func TestBufferSetbitPanic3(t *testing.T) {";
"";
"	defer panicChecker(t, BufferInvalidBitError)";
"";
"	buf := NewBuffer([]byte{0x00, 0x00, 0x00, 0x00})";
"";
"	buf.setbit(0x00, 2)";
"";
"}";
"";
"func TestBufferFlipbitPanic1(t *testing.T) {";
"";
"	defer panicChecker(t, BufferOverwriteError)";
"";
"	buf := NewBuffer([]byte{0x00, 0x00, 0x00, 0x00})";
"";
"	buf.flipbit(0x20)";
"";
"}";
"";
"func TestBufferFlipbitPanic2(t *testing.T) {";
"";
"	defer panicChecker(t, BufferUnderwriteError)";
"";
"	buf := NewBuffer([]byte{0x00, 0x00, 0x00, 0x00})";
"";
"	buf.flipbit(-0x01)";
"";
"}";
"";
"func TestBufferWritePanic1(t *testing.T) {"].

(** v2/buffer_test.go:1101-1200 *)
Definition v2_buffer_test_11 : list string := [
"";
"	defer panicChecker(t, BufferOverwriteError)";
"";
"	buf := NewBuffer([]byte{0x00, 0x00, 0x00, 0x00})";
"";
"	buf.write(0x04, []byte{0x01, 0x01})";
"";
"}";
"";
"func TestBufferWritePanic2(t *testing.T) {";
"";
"	defer panicChecker(t, BufferUnderwriteError)";
"";
"	buf := NewBuffer([]byte{0x00, 0x00, 0x00, 0x00})";
"";
"	buf.write(-0x01, []byte{0x01, 0x01})";
"";
"}";
"";
"func TestBufferReadPanic1(t *testing.T) {";
"";
"	defer panicChecker(t, BufferOverreadError)";
"";
"	buf := NewBuffer([]byte{0x00, 0x00, 0x00, 0x00})";
"";
"	_ = buf.read(0x20, 1)";
"";
"}";
"";
"func TestBufferReadPanic2(t *testing.T) {";
"";
"	defer panicChecker(t, BufferUnderreadError)";
"";
"	buf := NewBuffer([]byte{0x00, 0x00, 0x00, 0x00})";
"";
"	_ = buf.read(-0x01, 1)";
"";
"}";
"";
"func TestBufferWriteU16LEPanic1(t *testing.T) {";
"";
"	defer panicChecker(t, BufferOverwriteError)";
"";
"	buf := NewBuffer([]byte{0x00, 0x00, 0x00, 0x00})";
"";
"	buf.writeU16LE(0x00, []uint16{0x01, 0x02, 0x03, 0x04})";
"";
"}";
"";
"func TestBufferWriteU16LEPanic2(t *testing.T) {";
"";
"	defer panicChecker(t, BufferUnderwriteError)";
"";
"	buf := NewBuffer([]byte{0x00, 0x00, 0x00, 0x00})";
"";
"	buf.writeU16LE(-0x01, []uint16{0x01, 0x02})";
"";
"}";
"";
"func TestBufferWriteU16BEPanic1(t *testing.T) {";
"";
"	defer panicChecker(t, BufferOverwriteError)";
"";
"	buf := NewBuffer([]byte{0x00, 0x00, 0x00, 0x00})";
"";
"	buf.writeU16BE(0x00, []uint16{0x01, 0x02, 0x03, 0x04})";
"";
"}";
"";
"func TestBufferWriteU16BEPanic2(t *testing.T) {";
"";
"	defer panicChecker(t, BufferUnderwriteError)";
"";
"	buf := NewBuffer([]byte{0x00, 0x00, 0x00, 0x00})";
"";
"	buf.writeU16BE(-0x01, []uint16{0x01, 0x02})";
"";
"}";
"";
"func TestBufferWriteU32LEPanic1(t *testing.T) {";
"";
"	defer panicChecker(t, BufferOverwriteError)";
"";
"	buf := NewBuffer([]byte{0x00, 0x00, 0x00, 0x00})";
"";
"	buf.writeU32LE(0x00, []uint32{0x01, 0x02, 0x03, 0x04})";
"";
"}";
"";
"func TestBufferWriteU32LEPanic2(t *testing.T) {";
"";
"	defer panicChecker(t, BufferUnderwriteError)";
"";
"	buf := NewBuffer([]byte{0x00, 0x00, 0x00, 0x00})";
"";
"	buf.writeU32LE(-0x01, []uint32{0x01})";
"";
"}";
"";
"func TestBufferWriteU32BEPanic1(t *testing.T) {"].

(** v2/buffer_test.go:1201-1300 *)
Definition v2_buffer_test_12 : list string := [
"";
"	defer panicChecker(t, BufferOverwriteError)";
"";
"	buf := NewBuffer([]byte{0x00, 0x00, 0x00, 0x00})";
"";
"	buf.writeU32BE(0x00, []uint32{0x01, 0x02, 0x03, 0x04})";
"";
"}";
"";
"func TestBufferWriteU32BEPanic2(t *testing.T) {";
"";
"	defer panicChecker(t, BufferUnderwriteError)";
"";
"	buf := NewBuffer([]byte{0x00, 0x00, 0x00, 0x00})";
"";
"	buf.writeU32BE(-0x01, []uint32{0x01})";
"";
"}";
"";
"func TestBufferWriteU64LEPanic1(t *testing.T) {";
"";
"	defer panicChecker(t, BufferOverwriteError)";
"";
"	buf := NewBuffer([]byte{0x00, 0x00, 0x00, 0x00})";
"";
"	buf.writeU64LE(0x00, []uint64{0x01, 0x02, 0x03, 0x04})";
"";
"}";
"";
"func TestBufferWriteU64LEPanic2(t *testing.T) {";
"";
"	defer panicChecker(t, BufferUnderwriteError)";
"";
"	buf := NewBuffer([]byte{0x00, 0x00, 0x00, 0x00, 0x00, 0x00, 0x00, 0x00})";
"";
"	buf.writeU64LE(-0x01, []uint64{0x01})";
"";
"}";
"";
"func TestBufferWriteU64BEPanic1(t *testing.T) {";
"";
"	defer panicChecker(t, BufferOverwriteError)";
"";
"	buf := NewBuffer([]byte{0x00, 0x00, 0x00, 0x00})";
"";
"	buf.writeU64BE(0x00, []uint64{0x01, 0x02, 0x03, 0x04})";
"";
"}";
"";
"func TestBufferWriteU64BEPanic2(t *testing.T) {";
"";
"	defer panicChecker(t, BufferUnderwriteError)";
"";
"	buf := NewBuffer([]byte{0x00, 0x00, 0x00, 0x00, 0x00, 0x00, 0x00, 0x00})";
"";
"	buf.writeU64BE(-0x01, []uint64{0x01})";
"";
"}";
"";
"func TestBufferReadU16LEPanic1(t *testing.T) {";
"";
"	defer panicChecker(t, BufferOverreadError)";
"";
"	buf := NewBuffer([]byte{0x00, 0x00, 0x00, 0x00})";
"";
"	_ = buf.readU16LE(0x04, 1)";
"";
"}";
"";
"func TestBufferReadU16LEPanic2(t *testing.T) {";
"";
"	defer panicChecker(t, BufferUnderreadError)";
"";
"	buf := NewBuffer([]byte{0x00, 0x00, 0x00, 0x00})";
"";
"	_ = buf.readU16LE(-0x01, 1)";
"";
"}";
"";
"func TestBufferReadU16BEPanic1(t *testing.T) {";
"";
"	defer panicChecker(t, BufferOverreadError)";
"";
"	buf := NewBuffer([]byte{0x00, 0x00, 0x00, 0x00})";
"";
"	_ = buf.readU16BE(0x04, 1)";
"";
"}";
"";
"func TestBufferReadU16BEPanic2(t *testing.T) {";
"";
"	defer panicChecker(t, BufferUnderreadError)";
"";
"	buf := NewBuffer([]byte{0x00, 0x00, 0x00, 0x00})";
"";
"	_ = buf.readU16BE(-0x01, 1)";
"";
"}";
"";
"func TestBufferReadU32LEPanic1(t *testing.T) {"].

(** v2/buffer_test.go:1301-1400 *)
Definition v2_buffer_test_13 : list string := [
"";
"	defer panicChecker(t, BufferOverreadError)";
"";
"	buf := NewBuffer([]byte{0x00, 0x00, 0x00, 0x00})";
"";
"	_ = buf.readU32LE(0x04, 1)";
"";
"}";
"";
"func TestBufferReadU32LEPanic2(t *testing.T) {";
"";
"	defer panicChecker(t, BufferUnderreadError)";
"";
"	buf := NewBuffer([]byte{0x00, 0x00, 0x00, 0x00})";
"";
"	_ = buf.readU32LE(-0x01, 1)";
"";
"}";
"";
"func TestBufferReadU32BEPanic1(t *testing.T) {";
"";
"	defer panicChecker(t, BufferOverreadError)";
"";
"	buf := NewBuffer([]byte{0x00, 0x00, 0x00, 0x00})";
"";
"	_ = buf.readU32BE(0x04, 1)";
"";
"}";
"";
"func TestBufferReadU32BEPanic2(t *testing.T) {";
"";
"	defer panicChecker(t, BufferUnderreadError)";
"";
"	buf := NewBuffer([]byte{0x00, 0x00, 0x00, 0x00})";
"";
"	_ = buf.readU32BE(-0x01, 1)";
"";
"}";
"";
"func TestBufferReadU64LEPanic1(t *testing.T) {";
"";
"	defer panicChecker(t, BufferOverreadError)";
"";
"	buf := NewBuffer([]byte{0x00, 0x00, 0x00, 0x00})";
"";
"	_ = buf.readU64LE(0x04, 1)";
"";
"}";
"";
"func TestBufferReadU64LEPanic2(t *testing.T) {";
"";
"	defer panicChecker(t, BufferUnderreadError)";
"";
"	buf := NewBuffer([]byte{0x00, 0x00, 0x00, 0x00, 0x00, 0x00, 0x00, 0x00})";
"";
"	_ = buf.readU64LE(-0x01, 1)";
"";
"}";
"";
"func TestBufferReadU64BEPanic1(t *testing.T) {";
"";
"	defer panicChecker(t, BufferOverreadError)";
"";
"	buf := NewBuffer([]byte{0x00, 0x00, 0x00, 0x00})";
"";
"	_ = buf.readU64BE(0x04, 1)";
"";
"}";
"";
"func TestBufferReadU64BEPanic2(t *testing.T) {";
"";
"	defer panicChecker(t, BufferUnderreadError)";
"";
"	buf := NewBuffer([]byte{0x00, 0x00, 0x00, 0x00, 0x00, 0x00, 0x00, 0x00})";
"";
"	_ = buf.readU64BE(-0x01, 1)";
"";
"}";
"";
"/*";
"";
"benchmarks";
"";
"*/";
"";
"func BenchmarkBufferWrite(b *testing.B) {";
"";
"	b.ReportAllocs()";
"";
"	buf := NewBuffer([]byte{0x00, 0x00, 0x00, 0x00})";
"";
"	for n := 0; n < b.N; n++ {";
"";
"		buf.WriteBytes(0x00, []byte{0x01, 0x02})";
"";
"	}";
"";
"}";
"";
"func BenchmarkBufferRead(b *testing.B) {"].

(** v2/buffer_test.go:1401-1446 *)
Definition v2_buffer_test_14 : list string := [
"";
"	b.ReportAllocs()";
"";
"	buf := NewBuffer([]byte{0x00, 0x00, 0x00, 0x00})";
"";
"	var out []byte";
"	for n := 0; n < b.N; n++ {";
"";
"		out = buf.ReadBytes(0x00, 2)";
"";
"	}";
"";
"	_ = out";
"";
"}";
"";
"func BenchmarkBufferWriteU32LE(b *testing.B) {";
"";
"	b.ReportAllocs()";
"";
"	buf := NewBuffer([]byte{0x00, 0x00, 0x00, 0x00, 0x00, 0x00, 0x00, 0x00})";
"";
"	for n := 0; n < b.N; n++ {";
"";
"		buf.WriteU32LE(0x00, []uint32{0x01, 0x02})";
"";
"	}";
"";
"}";
"";
"func BenchmarkBufferReadU32LE(b *testing.B) {";
"";
"	b.ReportAllocs()";
"";
"	buf := NewBuffer([]byte{0x00, 0x00, 0x00, 0x00, 0x00, 0x00, 0x00, 0x00})";
"";
"	var out []uint32";
"	for n := 0; n < b.N; n++ {";
"";
"		out = buf.ReadU32LE(0x00, 2)";
"";
"	}";
"";
"	_ = out";
"";
"}"].

(** v2/buffer_test.go *)
Definition v2_buffer_test : list string := (v2_buffer_test_0 ++ v2_buffer_test_1 ++ v2_buffer_test_2 ++ v2_buffer_test_3 ++ v2_buffer_test_4 ++ v2_buffer_test_5 ++ v2_buffer_test_6 ++ v2_buffer_test_7 ++ v2_buffer_test_8 ++ v2_buffer_test_9 ++ v2_buffer_test_10 ++ v2_buffer_test_11 ++ v2_buffer_test_12 ++ v2_buffer_test_13 ++ v2_buffer_test_14)%list.

(** v2/minibuf_test.go:1-100 *)
Definition v2_minibuf_test_0 : list string := [
"/*";
"";
"crunch - utilities for taking bytes out of things";
"Copyright (c) 2019-2020 superwhiskers <whiskerdev@protonmail.com>";
"";
"This Source Code Form is subject to the terms of the Mozilla Public";
"License, v. 2.0. If a copy of the MPL was not distributed with this";
"file, You can obtain one at https://mozilla.org/MPL/2.0/.";
"";
"*/";
"";
"package v2";
"";
"import (";
"	""testing""";
"";
"	""github.com/google/go-cmp/cmp""";
")";
"";
"/*";
"";
"utilities";
"";
"*/";
"";
"var MiniBufferComparer = cmp.Comparer(func(x, y *MiniBuffer) bool {";
"";
"	return cmp.Equal(x.buf, y.buf) &&";
"		x.off == y.off &&";
"		x.cap == y.cap &&";
"		x.boff == y.boff &&";
"		x.bcap == y.bcap";
"";
"})";
"";
"/*";
"";
"tests";
"";
"*/";
"";
"func TestNewMiniBuffer(t *testing.T) {";
"";
"	var (";
"		expected1 = &MiniBuffer{";
"			buf:  []byte{0x00, 0x00, 0x00, 0x00},";
"			off:  0x00,";
"			cap:  4,";
"			boff: 0x00,";
"			bcap: 32,";
"		}";
"		expected2 = &MiniBuffer{";
"			buf:  []byte{},";
"			off:  0x00,";
"			cap:  0,";
"			boff: 0x00,";
"			bcap: 0,";
"		}";
"		expected3 = &MiniBuffer{";
"			buf:  []byte{0x00, 0x00, 0x00, 0x00, 0x00, 0x00, 0x00, 0x00},";
"			off:  0x00,";
"			cap:  8,";
"			boff: 0x00,";
"			bcap: 64,";
"		}";
"	)";
"";
"	out := &MiniBuffer{}";
"";
"	NewMiniBuffer(&out, []byte{0x00, 0x00, 0x00, 0x00})";
"	if !cmp.Equal(expected1, out, MiniBufferComparer) {";
"";
"		t.Fatalf(""expected minibuffer does not match the one gotten (got %#v, expected %#v)"", out, expected1)";
"";
"	}";
"";
"	NewMiniBuffer(&out)";
"	if !cmp.Equal(expected2, out, MiniBufferComparer) {";
"";
"		t.Fatalf(""expected minibuffer does not match the one gotten (got %#v, expected %#v)"", out, expected2)";
"";
"	}";
"";
"	NewMiniBuffer(&out, []byte{0x00, 0x00, 0x00, 0x00}, []byte{0x00, 0x00, 0x00, 0x00})";
"	if !cmp.Equal(expected3, out, MiniBufferComparer) {";
"";
"		t.Fatalf(""expected minibuffer does not match the one gotten (got %#v, expected %#v)"", out, expected3)";
"";
"	}";
"";
"}";
"";
"func TestMiniBufferBytes(t *testing.T) {";
"";
"	var expected = []byte{0x01, 0x02, 0x03, 0x04}";
"";
"	buf := &MiniBuffer{}";
"	NewMiniBuffer(&buf, []byte{0x01, 0x02, 0x03, 0x04})";
"";
"	out := []byte{}"].

(** v2/minibuf_test.go:101-200 *)
Definition v2_minibuf_test_1 : list string := [
"	buf.Bytes(&out)";
"	if !cmp.Equal(expected, out) {";
"";
"		t.Fatalf(""expected byte array does not match the one gotten (got %#v, expected %#v)"", out, expected)";
"";
"	}";
"";
"}";
"";
"func TestMiniBufferCapacity(t *testing.T) {";
"";
"	var expected int64 = 4";
"";
"	buf := &MiniBuffer{}";
"	NewMiniBuffer(&buf, []byte{0x00, 0x00, 0x00, 0x00})";
"";
"	var out int64";
"	buf.Capacity(&out)";
"	if expected != out {";
"";
"		t.Fatalf(""expected int64 does not match the one gotten (got %d, expected %d)"", out, expected)";
"";
"	}";
"";
"}";
"";
"func TestMiniBufferBitCapacity(t *testing.T) {";
"";
"	var expected int64 = 32";
"";
"	buf := &MiniBuffer{}";
"	NewMiniBuffer(&buf, []byte{0x00, 0x00, 0x00, 0x00})";
"";
"	var out int64";
"	buf.BitCapacity(&out)";
"	if expected != out {";
"";
"		t.Fatalf(""expected int64 does not match the one gotten (got %d, expected %d)"", out, expected)";
"";
"	}";
"";
"}";
"";
"func TestMiniBufferOffset(t *testing.T) {";
"";
"	var expected int64 = 0x02";
"";
"	buf := &MiniBuffer{}";
"	NewMiniBuffer(&buf, []byte{0x00, 0x00, 0x00, 0x00})";
"";
"	buf.Seek(0x02, false)";
"";
"	var out int64";
"	buf.Offset(&out)";
"	if expected != out {";
"";
"		t.Fatalf(""expected int64 does not match the one gotten (got %d, expected %d)"", out, expected)";
"";
"	}";
"";
"}";
"";
"func TestMiniBufferBitOffset(t *testing.T) {";
"";
"	var expected int64 = 0x0f";
"";
"	buf := &MiniBuffer{}";
"	NewMiniBuffer(&buf, []byte{0x00, 0x00, 0x00, 0x00})";
"";
"	buf.SeekBit(0x0f, false)";
"";
"	var out int64";
"	buf.BitOffset(&out)";
"	if expected != out {";
"";
"		t.Fatalf(""expected int64 does not match the one gotten (got %d, expected %d)"", out, expected)";
"";
"	}";
"";
"}";
"";
"func TestMiniBufferRefresh(t *testing.T) {";
"";
"	var (";
"		expected1 int64 = 4";
"		expected2 int64 = 32";
"	)";
"";
"	buf := &MiniBuffer{}";
"	NewMiniBuffer(&buf, []byte{0x00, 0x00, 0x00, 0x00})";
"";
"	buf.Refresh()";
"";
"	if expected1 != buf.cap || expected2 != buf.bcap {";
"";
"		t.Fatalf(""expected int64(s) do not match the ones gotten (got %d and %d, expected %d and %d)"", buf.cap, buf.bcap, expected1, expected2)";
"";
"	}";
"";
"}"].

(** v2/minibuf_test.go:201-300 *)
Definition v2_minibuf_test_2 : list string := [
"";
"func TestMiniBufferReset(t *testing.T) {";
"";
"	var expected = []byte{}";
"";
"	buf := &MiniBuffer{}";
"	NewMiniBuffer(&buf, []byte{0x00, 0x00, 0x00, 0x00})";
"";
"	buf.Reset()";
"";
"	if !cmp.Equal(expected, buf.buf) {";
"";
"		t.Fatalf(""expected byte array does not match the one gotten (got %#v, expected %#v)"", buf.buf, expected)";
"";
"	}";
"";
"}";
"";
"func TestMiniBufferGrow(t *testing.T) {";
"";
"	var expected int64 = 4";
"";
"	buf := &MiniBuffer{}";
"	NewMiniBuffer(&buf, []byte{0x00, 0x00})";
"";
"	buf.Grow(2)";
"";
"	var out int64";
"	buf.Capacity(&out)";
"	if expected != out {";
"";
"		t.Fatalf(""expected int64 does not match the one gotten (got %d, expected %d)"", out, expected)";
"";
"	}";
"";
"}";
"";
"func TestMiniBufferSeek(t *testing.T) {";
"";
"	var expected int64 = 0x04";
"";
"	buf := &MiniBuffer{}";
"	NewMiniBuffer(&buf, []byte{0x00, 0x00, 0x00, 0x00})";
"";
"	buf.Seek(2, true)";
"	buf.Seek(2, true)";
"";
"	var out int64";
"	buf.Offset(&out)";
"	if expected != out {";
"";
"		t.Fatalf(""expected int64 does not match the one gotten (got %d, expected %d)"", out, expected)";
"";
"	}";
"";
"}";
"";
"func TestMiniBufferSeekBit(t *testing.T) {";
"";
"	var expected int64 = 0x20";
"";
"	buf := &MiniBuffer{}";
"	NewMiniBuffer(&buf, []byte{0x00, 0x00, 0x00, 0x00})";
"";
"	buf.SeekBit(16, true)";
"	buf.SeekBit(16, true)";
"";
"	var out int64";
"	buf.BitOffset(&out)";
"	if expected != out {";
"";
"		t.Fatalf(""expected int64 does not match the one gotten (got %d, expected %d)"", out, expected)";
"";
"	}";
"";
"}";
"";
"func TestMiniBufferAlignBit(t *testing.T) {";
"";
"	var expected int64 = 0x20";
"";
"	buf := &MiniBuffer{}";
"	NewMiniBuffer(&buf, []byte{0x00, 0x00, 0x00, 0x00})";
"";
"	buf.Seek(0x04, false)";
"	buf.AlignBit()";
"";
"	var out int64";
"	buf.BitOffset(&out)";
"	if expected != out {";
"";
"		t.Fatalf(""expected int64 does not match the one gotten (got %d, expected %d)"", out, expected)";
"";
"	}";
"";
"}";
"";
"func TestMiniBufferAlignByte(t *testing.T) {";
"";
"	var expected int64 = 0x04"].

(** v2/minibuf_test.go:301-400 *)
Definition v2_minibuf_test_3 : list string := [
"";
"	buf := &MiniBuffer{}";
"	NewMiniBuffer(&buf, []byte{0x00, 0x00, 0x00, 0x00})";
"";
"	buf.SeekBit(0x20, false)";
"	buf.AlignByte()";
"";
"	var out int64";
"	buf.Offset(&out)";
"	if expected != out {";
"";
"		t.Fatalf(""expected int64 does not match the one gotten (got %d, expected %d)"", out, expected)";
"";
"	}";
"";
"}";
"";
"func TestMiniBufferAfter(t *testing.T) {";
"";
"	var expected int64 = 2";
"";
"	buf := &MiniBuffer{}";
"	NewMiniBuffer(&buf, []byte{0x00, 0x00, 0x00, 0x00})";
"";
"	var out int64";
"";
"	buf.Seek(0x01, false)";
"	buf.After(&out)";
"";
"	if expected != out {";
"";
"		t.Fatalf(""expected int64 does not match the one gotten (got %d, expected %d)"", out, expected)";
"";
"	}";
"";
"	buf.After(&out, 0x01)";
"";
"	if expected != out {";
"";
"		t.Fatalf(""expected int64 does not match the one gotten (got %d, expected %d)"", out, expected)";
"";
"	}";
"";
"}";
"";
"func TestMiniBufferAfterBit(t *testing.T) {";
"";
"	var expected int64 = 16";
"";
"	buf := &MiniBuffer{}";
"	NewMiniBuffer(&buf, []byte{0x00, 0x00, 0x00, 0x00})";
"";
"	var out int64";
"";
"	buf.SeekBit(0x0f, false)";
"	buf.AfterBit(&out)";
"";
"	if expected != out {";
"";
"		t.Fatalf(""expected int64 does not match the one gotten (got %d, expected %d)"", out, expected)";
"";
"	}";
"";
"	buf.AfterBit(&out, 0x0f)";
"";
"	if expected != out {";
"";
"		t.Fatalf(""expected int64 does not match the one gotten (got %d, expected %d)"", out, expected)";
"";
"	}";
"";
"}";
"";
"func TestMiniBufferReadBytes(t *testing.T) {";
"";
"	var expected = []byte{0x03, 0x04}";
"";
"	buf := &MiniBuffer{}";
"	NewMiniBuffer(&buf, []byte{0x01, 0x02, 0x03, 0x04})";
"";
"	var out []byte";
"	buf.ReadBytes(&out, 0x02, 2)";
"	if !cmp.Equal(expected, out) {";
"";
"		t.Fatalf(""expected byte array does not match the one gotten (got %#v, expected %#v)"", out, expected)";
"";
"	}";
"";
"}";
"";
"func TestMiniBufferReadBytesNext(t *testing.T) {";
"";
"	var expected = []byte{0x01, 0x02}";
"";
"	buf := &MiniBuffer{}";
"	NewMiniBuffer(&buf, []byte{0x01, 0x02, 0x03, 0x04})";
"";
"	var out []byte";
"	buf.ReadBytesNext(&out, 2)";
"	if !cmp.Equal(expected, out) {"].

(** v2/minibuf_test.go:401-500 *)
Definition v2_minibuf_test_4 : list string := [
"";
"		t.Fatalf(""expected byte array does not match the one gotten (got %#v, expected %#v)"", out, expected)";
"";
"	}";
"";
"}";
"";
"func TestMiniBufferReadUNEN(t *testing.T) {";
"";
"	var (";
"		expected1 = []uint16{0x01}";
"		expected2 = []uint16{0x100}";
"		expected3 = []uint32{0x01}";
"		expected4 = []uint32{0x1000000}";
"		expected5 = []uint64{0x01}";
"		expected6 = []uint64{0x100000000000000}";
"	)";
"";
"	buf := &MiniBuffer{}";
"	NewMiniBuffer(&buf, []byte{0x01, 0x00, 0x00, 0x00, 0x00, 0x00, 0x00, 0x00})";
"";
"	out1 := []uint16{0x00}";
"";
"	buf.ReadU16LE(&out1, 0x00, 1)";
"	if !cmp.Equal(out1, expected1) {";
"";
"		t.Fatalf(""expected uint16 array does not match the one gotten (got %#v, expected %#v)"", out1, expected1)";
"";
"	}";
"";
"	buf.ReadU16BE(&out1, 0x00, 1)";
"	if !cmp.Equal(out1, expected2) {";
"";
"		t.Fatalf(""expected uint16 array does not match the one gotten (got %#v, expected %#v)"", out1, expected2)";
"";
"	}";
"";
"	out2 := []uint32{0x00}";
"";
"	buf.ReadU32LE(&out2, 0x00, 1)";
"	if !cmp.Equal(out2, expected3) {";
"";
"		t.Fatalf(""expected uint32 array does not match the one gotten (got %#v, expected %#v)"", out2, expected3)";
"";
"	}";
"";
"	buf.ReadU32BE(&out2, 0x00, 1)";
"	if !cmp.Equal(out2, expected4) {";
"";
"		t.Fatalf(""expected uint32 array does not match the one gotten (got %#v, expected %#v)"", out2, expected4)";
"";
"	}";
"";
"	out3 := []uint64{0x00}";
"";
"	buf.ReadU64LE(&out3, 0x00, 1)";
"	if !cmp.Equal(out3, expected5) {";
"";
"		t.Fatalf(""expected uint64 array does not match the one gotten (got %#v, expected %#v)"", out3, expected5)";
"";
"	}";
"";
"	buf.ReadU64BE(&out3, 0x00, 1)";
"	if !cmp.Equal(out3, expected6) {";
"";
"		t.Fatalf(""expected uint64 array does not match the one gotten (got %#v, expected %#v)"", out3, expected6)";
"";
"	}";
"";
"}";
"";
"func TestMiniBufferReadUNENNext(t *testing.T) {";
"";
"	var (";
"		expected1 = []uint16{0x01}";
"		expected2 = []uint16{0x100}";
"		expected3 = []uint32{0x01}";
"		expected4 = []uint32{0x1000000}";
"		expected5 = []uint64{0x01}";
"		expected6 = []uint64{0x100000000000000}";
"	)";
"";
"	var off int64";
"";
"	buf := &MiniBuffer{}";
"	NewMiniBuffer(&buf, []byte{0x01, 0x00, 0x00, 0x00, 0x00, 0x00, 0x00, 0x00})";
"";
"	out1 := []uint16{0x00}";
"";
"	buf.ReadU16LENext(&out1, 1)";
"	if !cmp.Equal(out1, expected1) {";
"";
"		t.Fatalf(""expected uint16 array does not match the one gotten (got %#v, expected %#v)"", out1, expected1)";
"";
"	}";
"";
"	buf.Offset(&off)";
"	if off != 2 {";
"";
"		t.Fatalf(""incorrect offset: %d"", off)"].

(** v2/minibuf_test.go:501-600 *)
Definition v2_minibuf_test_5 : list string := [
"";
"	}";
"	buf.Seek(0x00, false)";
"";
"	buf.ReadU16BENext(&out1, 1)";
"	if !cmp.Equal(out1, expected2) {";
"";
"		t.Fatalf(""expected uint16 array does not match the one gotten (got %#v, expected %#v)"", out1, expected2)";
"";
"	}";
"";
"	buf.Offset(&off)";
"	if off != 2 {";
"";
"		t.Fatalf(""incorrect offset: %d"", off)";
"";
"	}";
"	buf.Seek(0x00, false)";
"";
"	out2 := []uint32{0x00}";
"";
"	buf.ReadU32LENext(&out2, 1)";
"	if !cmp.Equal(out2, expected3) {";
"";
"		t.Fatalf(""expected uint32 array does not match the one gotten (got %#v, expected %#v)"", out2, expected3)";
"";
"	}";
"";
"	buf.Offset(&off)";
"	if off != 4 {";
"";
"		t.Fatalf(""incorrect offset: %d"", off)";
"";
"	}";
"	buf.Seek(0x00, false)";
"";
"	buf.ReadU32BENext(&out2, 1)";
"	if !cmp.Equal(out2, expected4) {";
"";
"		t.Fatalf(""expected uint32 array does not match the one gotten (got %#v, expected %#v)"", out2, expected4)";
"";
"	}";
"";
"	buf.Offset(&off)";
"	if off != 4 {";
"";
"		t.Fatalf(""incorrect offset: %d"", off)";
"";
"	}";
"	buf.Seek(0x00, false)";
"";
"	out3 := []uint64{0x00}";
"";
"	buf.ReadU64LENext(&out3, 1)";
"	if !cmp.Equal(out3, expected5) {";
"";
"		t.Fatalf(""expected uint64 array does not match the one gotten (got %#v, expected %#v)"", out3, expected5)";
"";
"	}";
"";
"	buf.Offset(&off)";
"	if off != 8 {";
"";
"		t.Fatalf(""incorrect offset: %d"", off)";
"";
"	}";
"	buf.Seek(0x00, false)";
"";
"	buf.ReadU64BENext(&out3, 1)";
"	if !cmp.Equal(out3, expected6) {";
"";
"		t.Fatalf(""expected uint64 array does not match the one gotten (got %#v, expected %#v)"", out3, expected6)";
"";
"	}";
"";
"	buf.Offset(&off)";
"	if off != 8 {";
"";
"		t.Fatalf(""incorrect offset: %d"", off)";
"";
"	}";
"	buf.Seek(0x00, false)";
"";
"}";
"";
"func TestMiniBufferWriteBytes(t *testing.T) {";
"";
"	var expected = []byte{0x01, 0x02}";
"";
"	buf := &MiniBuffer{}";
"	NewMiniBuffer(&buf, []byte{0x00, 0x00, 0x00, 0x00})";
"";
"	buf.WriteBytes(0x02, []byte{0x01, 0x02})";
"";
"	var out []byte";
"	buf.ReadBytes(&out, 0x02, 2)";
"	if !cmp.Equal(expected, out) {";
"";
"		t.Fatalf(""expected byte array does not match the one gotten (got %#v, expected %#v)"", out, expected)";
""].

(** v2/minibuf_test.go:601-700 *)
Definition v2_minibuf_test_6 : list string := [
"	}";
"";
"}";
"";
"func TestMiniBufferWriteBytesNext(t *testing.T) {";
"";
"	var expected = []byte{0x01, 0x02}";
"";
"	buf := &MiniBuffer{}";
"	NewMiniBuffer(&buf, []byte{0x00, 0x00, 0x00, 0x00})";
"";
"	buf.WriteBytesNext([]byte{0x01, 0x02})";
"";
"	var out []byte";
"	buf.ReadBytes(&out, 0x00, 2)";
"	if !cmp.Equal(expected, out) {";
"";
"		t.Fatalf(""expected byte array does not match the one gotten (got %#v, expected %#v)"", out, expected)";
"";
"	}";
"";
"}";
"";
"func TestMiniBufferWriteUNEN(t *testing.T) {";
"";
"	var (";
"		expected byte = 0x01";
"";
"		out []byte";
"	)";
"";
"	buf := &MiniBuffer{}";
"	NewMiniBuffer(&buf, []byte{0x00, 0x00, 0x00, 0x00, 0x00, 0x00, 0x00, 0x00})";
"";
"	buf.WriteU16LE(0x00, []uint16{0x01, 0x01})";
"";
"	buf.ReadBytes(&out, 0x00, 1)";
"	if expected != out[0] {";
"";
"		t.Fatalf(""expected byte does not match the one gotten (got %d, expected %d)"", out[0], expected)";
"";
"	}";
"";
"	buf.ReadBytes(&out, 0x02, 1)";
"	if expected != out[0] {";
"";
"		t.Fatalf(""expected byte does not match the one gotten (got %d, expected %d)"", out[0], expected)";
"";
"	}";
"";
"	buf.WriteU16BE(0x00, []uint16{0x100, 0x100})";
"";
"	buf.ReadBytes(&out, 0x00, 1)";
"	if expected != out[0] {";
"";
"		t.Fatalf(""expected byte does not match the one gotten (got %d, expected %d)"", out[0], expected)";
"";
"	}";
"";
"	buf.ReadBytes(&out, 0x02, 1)";
"	if expected != out[0] {";
"";
"		t.Fatalf(""expected byte does not match the one gotten (got %d, expected %d)"", out[0], expected)";
"";
"	}";
"";
"	buf.WriteU32LE(0x00, []uint32{0x01})";
"";
"	buf.ReadBytes(&out, 0x00, 1)";
"	if expected != out[0] {";
"";
"		t.Fatalf(""expected byte does not match the one gotten (got %d, expected %d)"", out[0], expected)";
"";
"	}";
"";
"	buf.WriteU32BE(0x00, []uint32{0x1000000})";
"";
"	buf.ReadBytes(&out, 0x00, 1)";
"	if expected != out[0] {";
"";
"		t.Fatalf(""expected byte does not match the one gotten (got %d, expected %d)"", out[0], expected)";
"";
"	}";
"";
"	buf.WriteU64LE(0x00, []uint64{0x01})";
"";
"	buf.ReadBytes(&out, 0x00, 1)";
"	if expected != out[0] {";
"";
"		t.Fatalf(""expected byte does not match the one gotten (got %d, expected %d)"", out[0], expected)";
"";
"	}";
"";
"	buf.WriteU64BE(0x00, []uint64{0x100000000000000})";
"";
"	buf.ReadBytes(&out, 0x00, 1)";
"	if expected != out[0] {";
"";
"		t.Fatalf(""expected byte does not match the one gotten (got %d, expected %d)"", out[0], expected)";
""].

(** v2/minibuf_test.go:701-800 *)
Definition v2_minibuf_test_7 : list string := [
"	}";
"";
"}";
"";
"func TestMiniBufferWriteUNENNext(t *testing.T) {";
"";
"	var (";
"		expected byte = 0x01";
"";
"		out []byte";
"		off int64";
"	)";
"";
"	buf := &MiniBuffer{}";
"	NewMiniBuffer(&buf, []byte{0x00, 0x00, 0x00, 0x00, 0x00, 0x00, 0x00, 0x00})";
"";
"	buf.WriteU16LENext([]uint16{0x01})";
"";
"	buf.ReadBytes(&out, 0x00, 1)";
"	if expected != out[0] {";
"";
"		t.Fatalf(""expected byte does not match the one gotten (got %d, expected %d)"", out[0], expected)";
"";
"	}";
"";
"	buf.Offset(&off)";
"	if off != 2 {";
"";
"		t.Fatalf(""incorrect offset: %d"", off)";
"";
"	}";
"	buf.Seek(0x00, false)";
"";
"	buf.WriteU16BENext([]uint16{0x100})";
"";
"	buf.ReadBytes(&out, 0x00, 1)";
"	if expected != out[0] {";
"";
"		t.Fatalf(""expected byte does not match the one gotten (got %d, expected %d)"", out[0], expected)";
"";
"	}";
"";
"	buf.Offset(&off)";
"	if off != 2 {";
"";
"		t.Fatalf(""incorrect offset: %d"", off)";
"";
"	}";
"	buf.Seek(0x00, false)";
"";
"	buf.WriteU32LENext([]uint32{0x01})";
"";
"	buf.ReadBytes(&out, 0x00, 1)";
"	if expected != out[0] {";
"";
"		t.Fatalf(""expected byte does not match the one gotten (got %d, expected %d)"", out[0], expected)";
"";
"	}";
"";
"	buf.Offset(&off)";
"	if off != 4 {";
"";
"		t.Fatalf(""incorrect offset: %d"", off)";
"";
"	}";
"	buf.Seek(0x00, false)";
"";
"	buf.WriteU32BENext([]uint32{0x1000000})";
"";
"	buf.ReadBytes(&out, 0x00, 1)";
"	if expected != out[0] {";
"";
"		t.Fatalf(""expected byte does not match the one gotten (got %d, expected %d)"", out[0], expected)";
"";
"	}";
"";
"	buf.Offset(&off)";
"	if off != 4 {";
"";
"		t.Fatalf(""incorrect offset: %d"", off)";
"";
"	}";
"	buf.Seek(0x00, false)";
"";
"	buf.WriteU64LENext([]uint64{0x01})";
"";
"	buf.ReadBytes(&out, 0x00, 1)";
"	if expected != out[0] {";
"";
"		t.Fatalf(""expected byte does not match the one gotten (got %d, expected %d)"", out[0], expected)";
"";
"	}";
"";
"	buf.Offset(&off)";
"	if off != 8 {";
"";
"		t.Fatalf(""incorrect offset: %d"", off)";
"";
"	}";
"	buf.Seek(0x00, false)"].

(** v2/minibuf_test.go:801-900 *)
Definition v2_minibuf_test_8 : list string := [
"";
"	buf.WriteU64BENext([]uint64{0x100000000000000})";
"";
"	buf.ReadBytes(&out, 0x00, 1)";
"	if expected != out[0] {";
"";
"		t.Fatalf(""expected byte does not match the one gotten (got %d, expected %d)"", out[0], expected)";
"";
"	}";
"";
"	buf.Offset(&off)";
"	if off != 8 {";
"";
"		t.Fatalf(""incorrect offset: %d"", off)";
"";
"	}";
"	buf.Seek(0x00, false)";
"";
"}";
"";
"func TestMiniBufferReadBit(t *testing.T) {";
"";
"	var expected byte = 1";
"";
"	buf := &MiniBuffer{}";
"	NewMiniBuffer(&buf, []byte{0x01, 0x00, 0x00, 0x00})";
"";
"	var out byte";
"	buf.ReadBit(&out, 0x07)";
"	if expected != out {";
"";
"		t.Fatalf(""expected byte does not match the one gotten (got %d, expected %d)"", out, expected)";
"";
"	}";
"";
"}";
"";
"func TestMiniBufferReadBitNext(t *testing.T) {";
"";
"	var expected byte = 1";
"";
"	buf := &MiniBuffer{}";
"	NewMiniBuffer(&buf, []byte{0xff, 0x00, 0x00, 0x00})";
"";
"	var out byte";
"	buf.ReadBitNext(&out)";
"	if expected != out {";
"";
"		t.Fatalf(""expected byte does not match the one gotten (got %d, expected %d)"", out, expected)";
"";
"	}";
"";
"}";
"";
"func TestMiniBufferReadBits(t *testing.T) {";
"";
"	var expected uint64 = 5";
"";
"	buf := &MiniBuffer{}";
"	NewMiniBuffer(&buf, []byte{0x0d, 0x00, 0x00, 0x00})";
"";
"	var out uint64";
"	buf.ReadBits(&out, 0x05, 3)";
"	if expected != out {";
"";
"		t.Fatalf(""expected uint64 does not match the one gotten (got %d, expected %d)"", out, expected)";
"";
"	}";
"";
"}";
"";
"func TestMiniBufferReadBitsNext(t *testing.T) {";
"";
"	var expected uint64 = 13";
"";
"	buf := &MiniBuffer{}";
"	NewMiniBuffer(&buf, []byte{0x0d, 0x00, 0x00, 0x00})";
"";
"	var out uint64";
"	buf.ReadBitsNext(&out, 8)";
"	if expected != out {";
"";
"		t.Fatalf(""expected uint64 does not match the one gotten (got %d, expected %d)"", out, expected)";
"";
"	}";
"";
"}";
"";
"func TestMiniBufferSetBit(t *testing.T) {";
"";
"	var expected byte = 1";
"";
"	buf := &MiniBuffer{}";
"	NewMiniBuffer(&buf, []byte{0x00, 0x00, 0x00, 0x00})";
"";
"	buf.SetBit(0x00, 1)";
"";
"	var out byte";
"	buf.ReadBit(&out, 0x00)";
"	if expected != out {"].

(** v2/minibuf_test.go:901-1000 *)
Definition v2_minibuf_test_9 : list string := [
"";
"		t.Fatalf(""expected byte does not match the one gotten (got %d, expected %d)"", out, expected)";
"";
"	}";
"";
"}";
"";
"func TestMiniBufferSetBitNext(t *testing.T) {";
"";
"	var expected byte = 1";
"";
"	buf := &MiniBuffer{}";
"	NewMiniBuffer(&buf, []byte{0x00, 0x00, 0x00, 0x00})";
"";
"	buf.SetBitNext(1)";
"";
"	var out byte";
"	buf.ReadBit(&out, 0x00)";
"	if expected != out {";
"";
"		t.Fatalf(""expected byte does not match the one gotten (got %d, expected %d)"", out, expected)";
"";
"	}";
"";
"}";
"";
"func TestMiniBufferSetBits(t *testing.T) {";
"";
"	var expected uint64 = 5";
"";
"	buf := &MiniBuffer{}";
"	NewMiniBuffer(&buf, []byte{0x00, 0x00, 0x00, 0x00})";
"";
"	buf.SetBits(0x06, 5, 3)";
"";
"	var out uint64";
"	buf.ReadBits(&out, 0x06, 3)";
"	if expected != out {";
"";
"		t.Fatalf(""expected uint64 does not match the one gotten (got %d, expected %d)"", out, expected)";
"";
"	}";
"";
"}";
"";
"func TestMiniBufferSetBitsNext(t *testing.T) {";
"";
"	var expected uint64 = 13";
"";
"	buf := &MiniBuffer{}";
"	NewMiniBuffer(&buf, []byte{0x00, 0x00, 0x00, 0x00})";
"";
"	buf.SetBitsNext(13, 8)";
"";
"	var out uint64";
"	buf.ReadBits(&out, 0x00, 8)";
"	if expected != out {";
"";
"		t.Fatalf(""expected uint64 does not match the one gotten (got %d, expected %d)"", out, expected)";
"";
"	}";
"";
"}";
"";
"func TestMiniBufferFlipBit(t *testing.T) {";
"";
"	var expected byte";
"";
"	buf := &MiniBuffer{}";
"	NewMiniBuffer(&buf, []byte{0xff, 0xff, 0xff, 0xff})";
"";
"	buf.FlipBit(0x01)";
"";
"	var out byte";
"	buf.ReadBit(&out, 0x01)";
"	if expected != out {";
"";
"		t.Fatalf(""expected byte does not match the one gotten (got %d, expected %d)"", out, expected)";
"";
"	}";
"";
"}";
"";
"func TestMiniBufferFlipBitNext(t *testing.T) {";
"";
"	var expected byte = 1";
"";
"	buf := &MiniBuffer{}";
"	NewMiniBuffer(&buf, []byte{0x00, 0x00, 0x00, 0x00})";
"";
"	buf.FlipBitNext()";
"";
"	var out byte";
"	buf.ReadBit(&out, 0x00)";
"	if expected != out {";
"";
"		t.Fatalf(""expected byte does not match the one gotten (got %d, expected %d)"", out, expected)";
"";
"	}";
""].

(** v2/minibuf_test.go:1001-1100 *)
Definition v2_minibuf_test_10 : list string := [
"}";
"";
"func TestMiniBufferClearAllBits(t *testing.T) {";
"";
"	var expected = []byte{0x00, 0x00, 0x00, 0x00}";
"";
"	buf := &MiniBuffer{}";
"	NewMiniBuffer(&buf, []byte{0xff, 0x00, 0xff, 0x00})";
"";
"	buf.ClearAllBits()";
"";
"	if !cmp.Equal(expected, buf.buf) {";
"";
"		t.Fatalf(""expected byte array does not match the one gotten (got %#v, expected %#v)"", buf.buf, expected)";
"";
"	}";
"";
"}";
"";
"func TestMiniBufferSetAllBits(t *testing.T) {";
"";
"	var expected = []byte{0xff, 0xff, 0xff, 0xff}";
"";
"	buf := &MiniBuffer{}";
"	NewMiniBuffer(&buf, []byte{0x00, 0xff, 0x00, 0xff})";
"";
"	buf.SetAllBits()";
"";
"	if !cmp.Equal(expected, buf.buf) {";
"";
"		t.Fatalf(""expected byte array does not match the one gotten (got %#v, expected %#v)"", buf.buf, expected)";
"";
"	}";
"";
"}";
"";
"func TestMiniBufferFlipAllBits(t *testing.T) {";
"";
"	var expected = []byte{0xff, 0x00, 0xff, 0x00}";
"";
"	buf := &MiniBuffer{}";
"	NewMiniBuffer(&buf, []byte{0x00, 0xff, 0x00, 0xff})";
"";
"	buf.FlipAllBits()";
"";
"	if !cmp.Equal(expected, buf.buf) {";
"";
"		t.Fatalf(""expected byte array does not match the one gotten (got %#v, expected %#v)"", buf.buf, expected)";
"";
"	}";
"";
"}";
"";
"func TestMiniBufferSetbitPanic(t *testing.T) {";
"";
"	defer panicChecker(t, BufferInvalidBitError)";
"";
"	buf := &MiniBuffer{}";
"	NewMiniBuffer(&buf, []byte{0x00, 0x00, 0x00, 0x00})";
"";
"	buf.setbit(0x00, 2)";
"";
"}";
"";
"/*";
"";
"benchmarks";
"";
"*/";
"";
"func BenchmarkMiniBufferWrite(b *testing.B) {";
"";
"	b.ReportAllocs()";
"";
"	buf := &MiniBuffer{}";
"	NewMiniBuffer(&buf, []byte{0x00, 0x00, 0x00, 0x00})";
"";
"	for n := 0; n < b.N; n++ {";
"";
"		buf.WriteBytes(0x00, []byte{0x01, 0x02})";
"";
"	}";
"";
"}";
"";
"func BenchmarkMiniBufferRead(b *testing.B) {";
"";
"	b.ReportAllocs()";
"";
"	buf := &MiniBuffer{}";
"	NewMiniBuffer(&buf, []byte{0x00, 0x00, 0x00, 0x00})";
"";
"	out := []byte{}";
"";
"	for n := 0; n < b.N; n++ {";
"";
"		buf.ReadBytes(&out, 0x00, 2)";
"";
"	}";
""].

(** v2/minibuf_test.go:1101-1134 *)
Definition v2_minibuf_test_11 : list string := [
"}";
"";
"func BenchmarkMiniBufferWriteU32LE(b *testing.B) {";
"";
"	b.ReportAllocs()";
"";
"	buf := &MiniBuffer{}";
"	NewMiniBuffer(&buf, []byte{0x00, 0x00, 0x00, 0x00, 0x00, 0x00, 0x00, 0x00})";
"";
"	for n := 0; n < b.N; n++ {";
"";
"		buf.WriteU32LE(0x00, []uint32{0x01, 0x02})";
"";
"	}";
"";
"}";
"";
"func BenchmarkMiniBufferReadU32LE(b *testing.B) {";
"";
"	b.ReportAllocs()";
"";
"	buf := &MiniBuffer{}";
"	NewMiniBuffer(&buf, []byte{0x00, 0x00, 0x00, 0x00, 0x00, 0x00, 0x00, 0x00})";
"";
"	out := []uint32{0x00, 0x00, 0x00, 0x00, 0x00, 0x00, 0x00, 0x00}";
"	for n := 0; n < b.N; n++ {";
"";
"		buf.ReadU32LE(&out, 0x00, 2)";
"";
"	}";
"";
"	_ = out";
"";
"}"].

(** v2/minibuf_test.go *)
Definition v2_minibuf_test : list string := (v2_minibuf_test_0 ++ v2_minibuf_test_1 ++ v2_minibuf_test_2 ++ v2_minibuf_test_3 ++ v2_minibuf_test_4 ++ v2_minibuf_test_5 ++ v2_minibuf_test_6 ++ v2_minibuf_test_7 ++ v2_minibuf_test_8 ++ v2_minibuf_test_9 ++ v2_minibuf_test_10 ++ v2_minibuf_test_11)%list.

(** v3/buffer_test.go:1-100 *)
Definition v3_buffer_test_0 : list string := [
"/*";
"";
"crunch - utilities for taking bytes out of things";
"Copyright (c) 2019-2020 superwhiskers <whiskerdev@protonmail.com>";
"";
"This Source Code Form is subject to the terms of the Mozilla Public";
"License, v. 2.0. If a copy of the MPL was not distributed with this";
"file, You can obtain one at https://mozilla.org/MPL/2.0/.";
"";
"*/";
"";
"package v3";
"";
"import (";
"	""testing""";
"";
"	""github.com/google/go-cmp/cmp""";
")";
"";
"/*";
"";
"utilities";
"";
"*/";
"";
"var BufferComparer = cmp.Comparer(func(x, y *Buffer) bool {";
"";
"	return cmp.Equal(x.buf, y.buf) &&";
"		x.off == y.off &&";
"		x.cap == y.cap &&";
"		x.boff == y.boff &&";
"		x.bcap == y.bcap";
"";
"})";
"";
"/*";
"";
"tests";
"";
"*/";
"";
"func TestNewBuffer(t *testing.T) {";
"";
"	var (";
"		expected1 = &Buffer{";
"			buf:  []byte{0x00, 0x00, 0x00, 0x00},";
"			off:  0x00,";
"			cap:  4,";
"			boff: 0x00,";
"			bcap: 32,";
"		}";
"		expected2 = &Buffer{";
"			buf:  []byte{},";
"			off:  0x00,";
"			cap:  0,";
"			boff: 0x00,";
"			bcap: 0,";
"		}";
"		expected3 = &Buffer{";
"			buf:  []byte{0x00, 0x00, 0x00, 0x00, 0x00, 0x00, 0x00, 0x00},";
"			off:  0x00,";
"			cap:  8,";
"			boff: 0x00,";
"			bcap: 64,";
"		}";
"	)";
"";
"	out := NewBuffer([]byte{0x00, 0x00, 0x00, 0x00})";
"	if !cmp.Equal(expected1, out, BufferComparer) {";
"";
"		t.Fatalf(""expected buffer does not match the one gotten (got %#v, expected %#v)"", out, expected1)";
"";
"	}";
"";
"	out = NewBuffer()";
"	if !cmp.Equal(expected2, out, BufferComparer) {";
"";
"		t.Fatalf(""expected buffer does not match the one gotten (got %#v, expected %#v)"", out, expected2)";
"";
"	}";
"";
"	out = NewBuffer([]byte{0x00, 0x00, 0x00, 0x00}, []byte{0x00, 0x00, 0x00, 0x00})";
"	if !cmp.Equal(expected3, out, BufferComparer) {";
"";
"		t.Fatalf(""expected buffer does not match the one gotten (got %#v, expected %#v)"", out, expected3)";
"";
"	}";
"";
"}";
"";
"func TestBufferBytes(t *testing.T) {";
"";
"	var expected = []byte{0x01, 0x02, 0x03, 0x04}";
"";
"	buf := NewBuffer([]byte{0x01, 0x02, 0x03, 0x04})";
"";
"	out := buf.Bytes()";
"	if !cmp.Equal(expected, out) {";
"";
"		t.Fatalf(""expected byte array does not match the one gotten (got %#v, expected %#v)"", out, expected)"].

(** v3/buffer_test.go:101-200 *)
Definition v3_buffer_test_1 : list string := [
"";
"	}";
"";
"}";
"";
"func TestBufferByteCapacity(t *testing.T) {";
"";
"	var expected int64 = 4";
"";
"	buf := NewBuffer([]byte{0x00, 0x00, 0x00, 0x00})";
"";
"	out := buf.ByteCapacity()";
"	if expected != out {";
"";
"		t.Fatalf(""expected int64 does not match the one gotten (got %d, expected %d)"", out, expected)";
"";
"	}";
"";
"}";
"";
"func TestBufferBitCapacity(t *testing.T) {";
"";
"	var expected int64 = 32";
"";
"	buf := NewBuffer([]byte{0x00, 0x00, 0x00, 0x00})";
"";
"	out := buf.BitCapacity()";
"	if expected != out {";
"";
"		t.Fatalf(""expected int64 does not match the one gotten (got %d, expected %d)"", out, expected)";
"";
"	}";
"";
"}";
"";
"func TestBufferByteOffset(t *testing.T) {";
"";
"	var expected int64 = 0x02";
"";
"	buf := NewBuffer([]byte{0x00, 0x00, 0x00, 0x00})";
"";
"	buf.SeekByte(0x02, false)";
"";
"	out := buf.ByteOffset()";
"	if expected != out {";
"";
"		t.Fatalf(""expected int64 does not match the one gotten (got %d, expected %d)"", out, expected)";
"";
"	}";
"";
"}";
"";
"func TestBufferBitOffset(t *testing.T) {";
"";
"	var expected int64 = 0x0f";
"";
"	buf := NewBuffer([]byte{0x00, 0x00, 0x00, 0x00})";
"";
"	buf.SeekBit(0x0f, false)";
"";
"	out := buf.BitOffset()";
"	if expected != out {";
"";
"		t.Fatalf(""expected int64 does not match the one gotten (got %d, expected %d)"", out, expected)";
"";
"	}";
"";
"}";
"";
"func TestBufferRefresh(t *testing.T) {";
"";
"	var (";
"		expected1 int64 = 4";
"		expected2 int64 = 32";
"	)";
"";
"	buf := NewBuffer([]byte{0x00, 0x00, 0x00, 0x00})";
"";
"	buf.Refresh()";
"";
"	if expected1 != buf.cap || expected2 != buf.bcap {";
"";
"		t.Fatalf(""expected int64(s) do not match the ones gotten (got %d and %d, expected %d and %d)"", buf.cap, buf.bcap, expected1, expected2)";
"";
"	}";
"";
"}";
"";
"func TestBufferReset(t *testing.T) {";
"";
"	var expected = []byte{}";
"";
"	buf := NewBuffer([]byte{0x00, 0x00, 0x00, 0x00})";
"";
"	buf.Reset()";
"";
"	if !cmp.Equal(expected, buf.buf) {";
"";
"		t.Fatalf(""expected byte array does not match the one gotten (got %#v, expected %#v)"", buf.buf, expected)";
""].

(** v3/buffer_test.go:201-300 *)
Definition v3_buffer_test_2 : list string := [
"	}";
"";
"}";
"";
"func TestBufferTruncateLeft(t *testing.T) {";
"";
"	var (";
"		expected1 byte  = 0x02";
"		expected2 int64 = 1";
"	)";
"";
"	buf := NewBuffer([]byte{0x01, 0x02})";
"";
"	buf.TruncateLeft(1)";
"";
"	t.Log(buf.buf)";
"";
"	out1 := buf.ReadByte(0x00)";
"	if expected1 != out1 {";
"";
"		t.Fatalf(""expected byte does not match the one gotten (got %d, expected %d)"", out1, expected1)";
"";
"	}";
"";
"	out2 := buf.ByteCapacity()";
"	if expected2 != out2 {";
"";
"		t.Fatalf(""expected int64 does not match the one gotten (got %d, expected %d)"", out2, expected2)";
"";
"	}";
"";
"}";
"";
"func TestBufferTruncateRight(t *testing.T) {";
"";
"	var (";
"		expected1 byte  = 0x01";
"		expected2 int64 = 1";
"	)";
"";
"	buf := NewBuffer([]byte{0x01, 0x02})";
"";
"	buf.TruncateRight(1)";
"";
"	t.Log(buf.buf)";
"";
"	out1 := buf.ReadByte(0x00)";
"	if expected1 != out1 {";
"";
"		t.Fatalf(""expected byte does not match the one gotten (got %d, expected %d)"", out1, expected1)";
"";
"	}";
"";
"	out2 := buf.ByteCapacity()";
"	if expected2 != out2 {";
"";
"		t.Fatalf(""expected int64 does not match the one gotten (got %d, expected %d)"", out2, expected2)";
"";
"	}";
"";
"}";
"";
"func TestBufferGrow(t *testing.T) {";
"";
"	var expected int64 = 4";
"";
"	buf := NewBuffer([]byte{0x00, 0x00})";
"";
"	buf.Grow(2)";
"";
"	out := buf.ByteCapacity()";
"	if expected != out {";
"";
"		t.Fatalf(""expected int64 does not match the one gotten (got %d, expected %d)"", out, expected)";
"";
"	}";
"";
"}";
"";
"func TestBufferGrow2(t *testing.T) {";
"";
"	var expected int64 = 4";
"";
"	buf := NewBuffer(make([]byte, 2, 4))";
"";
"	buf.Grow(2)";
"";
"	var out = buf.ByteCapacity()";
"	if expected != out {";
"";
"		t.Fatalf(""expected int64 does not match the one gotten (got %d, expected %d)"", out, expected)";
"";
"	}";
"";
"}";
"";
"func TestBufferSeekByte(t *testing.T) {";
"";
"	var expected int64 = 0x04";
""].

(** v3/buffer_test.go:301-400 *)
Definition v3_buffer_test_3 : list string := [
"	buf := NewBuffer([]byte{0x00, 0x00, 0x00, 0x00})";
"";
"	buf.SeekByte(2, true)";
"	buf.SeekByte(2, true)";
"";
"	out := buf.ByteOffset()";
"	if expected != out {";
"";
"		t.Fatalf(""expected int64 does not match the one gotten (got %d, expected %d)"", out, expected)";
"";
"	}";
"";
"}";
"";
"func TestBufferSeekBit(t *testing.T) {";
"";
"	var expected int64 = 0x20";
"";
"	buf := NewBuffer([]byte{0x00, 0x00, 0x00, 0x00})";
"";
"	buf.SeekBit(16, true)";
"	buf.SeekBit(16, true)";
"";
"	out := buf.BitOffset()";
"	if expected != out {";
"";
"		t.Fatalf(""expected int64 does not match the one gotten (got %d, expected %d)"", out, expected)";
"";
"	}";
"";
"}";
"";
"func TestBufferAlignBit(t *testing.T) {";
"";
"	var expected int64 = 0x20";
"";
"	buf := NewBuffer([]byte{0x00, 0x00, 0x00, 0x00})";
"";
"	buf.SeekByte(0x04, false)";
"	buf.AlignBit()";
"";
"	out := buf.BitOffset()";
"	if expected != out {";
"";
"		t.Fatalf(""expected int64 does not match the one gotten (got %d, expected %d)"", out, expected)";
"";
"	}";
"";
"}";
"";
"func TestBufferAlignByte(t *testing.T) {";
"";
"	var expected int64 = 0x04";
"";
"	buf := NewBuffer([]byte{0x00, 0x00, 0x00, 0x00})";
"";
"	buf.SeekBit(0x20, false)";
"	buf.AlignByte()";
"";
"	out := buf.ByteOffset()";
"	if expected != out {";
"";
"		t.Fatalf(""expected int64 does not match the one gotten (got %d, expected %d)"", out, expected)";
"";
"	}";
"";
"}";
"";
"func TestBufferAfterByte(t *testing.T) {";
"";
"	var expected int64 = 2";
"";
"	buf := NewBuffer([]byte{0x00, 0x00, 0x00, 0x00})";
"";
"	buf.SeekByte(0x01, false)";
"	out := buf.AfterByte()";
"";
"	if expected != out {";
"";
"		t.Fatalf(""expected int64 does not match the one gotten (got %d, expected %d)"", out, expected)";
"";
"	}";
"";
"	out = buf.AfterByte(0x01)";
"";
"	if expected != out {";
"";
"		t.Fatalf(""expected int64 does not match the one gotten (got %d, expected %d)"", out, expected)";
"";
"	}";
"";
"}";
"";
"func TestBufferAfterBit(t *testing.T) {";
"";
"	var expected int64 = 16";
"";
"	buf := NewBuffer([]byte{0x00, 0x00, 0x00, 0x00})";
"";
"	buf.SeekBit(0x0f, false)"].

(** v3/buffer_test.go:401-500 *)
Definition v3_buffer_test_4 : list string := [
"	out := buf.AfterBit()";
"";
"	if expected != out {";
"";
"		t.Fatalf(""expected int64 does not match the one gotten (got %d, expected %d)"", out, expected)";
"";
"	}";
"";
"	out = buf.AfterBit(0x0f)";
"";
"	if expected != out {";
"";
"		t.Fatalf(""expected int64 does not match the one gotten (got %d, expected %d)"", out, expected)";
"";
"	}";
"";
"}";
"";
"func TestBufferReadByte(t *testing.T) {";
"";
"	var expected byte = 0x03";
"";
"	buf := NewBuffer([]byte{0x01, 0x02, 0x03, 0x04})";
"";
"	out := buf.ReadByte(0x02)";
"	if expected != out {";
"";
"		t.Fatalf(""expected byte does not match the one gotten (got %d, expected %d)"", out, expected)";
"";
"	}";
"";
"}";
"";
"func TestBufferReadByteNext(t *testing.T) {";
"";
"	var expected byte = 0x01";
"";
"	buf := NewBuffer([]byte{0x01, 0x02, 0x03, 0x04})";
"";
"	out := buf.ReadByteNext()";
"	if expected != out {";
"";
"		t.Fatalf(""expected byte does not match the one gotten (got %d, expected %d)"", out, expected)";
"";
"	}";
"";
"}";
"";
"func TestBufferReadBytes(t *testing.T) {";
"";
"	var expected = []byte{0x03, 0x04}";
"";
"	buf := NewBuffer([]byte{0x01, 0x02, 0x03, 0x04})";
"";
"	out := buf.ReadBytes(0x02, 2)";
"	if !cmp.Equal(expected, out) {";
"";
"		t.Fatalf(""expected byte array does not match the one gotten (got %#v, expected %#v)"", out, expected)";
"";
"	}";
"";
"}";
"";
"func TestBufferReadBytesNext(t *testing.T) {";
"";
"	var expected = []byte{0x01, 0x02}";
"";
"	buf := NewBuffer([]byte{0x01, 0x02, 0x03, 0x04})";
"";
"	out := buf.ReadBytesNext(2)";
"	if !cmp.Equal(expected, out) {";
"";
"		t.Fatalf(""expected byte array does not match the one gotten (got %#v, expected %#v)"", out, expected)";
"";
"	}";
"";
"}";
"";
"//gocyclo:ignore";
"func TestBufferReadSNEN(t *testing.T) {";
"";
"	var (";
"		expectedReadu16le = []uint16{0x01, 0x00}";
"		expectedReadu16be = []uint16{0x100, 0x00}";
"		expectedReadu32le = []uint32{0x01, 0x00}";
"		expectedReadu32be = []uint32{0x1000000, 0x00}";
"		expectedReadu64le = []uint64{0x01, 0x01}";
"		expectedReadu64be = []uint64{0x100000000000000, 0x100000000000000}";
"";
"		expectedReadi16le = []int16{0x01, 0x00}";
"		expectedReadi16be = []int16{0x100, 0x00}";
"		expectedReadi32le = []int32{0x01, 0x00}";
"		expectedReadi32be = []int32{0x1000000, 0x00}";
"		expectedReadi64le = []int64{0x01, 0x01}";
"		expectedReadi64be = []int64{0x100000000000000, 0x100000000000000}";
"	)";
"";
"	buf := NewBuffer([]byte{0x01, 0x00, 0x00, 0x00, 0x00, 0x00, 0x00, 0x00, 0x01, 0x00, 0x00, 0x00, 0x00, 0x00, 0x00, 0x00})";
"";
"	//"].

(** v3/buffer_test.go:501-600 *)
Definition v3_buffer_test_5 : list string := [
"	// u16le";
"	//";
"";
"	out1 := buf.ReadU16LENext(2)";
"	if !cmp.Equal(out1, expectedReadu16le) {";
"";
"		t.Fatalf(""expected uint16 array does not match the one gotten (got %#v, expected %#v)"", out1, expectedReadu16le)";
"";
"	}";
"";
"	off := buf.ByteOffset()";
"	if off != 4 {";
"";
"		t.Fatalf(""incorrect offset: %d"", off)";
"";
"	}";
"	buf.SeekByte(0x00, false)";
"";
"	//";
"	// u16be";
"	//";
"";
"	out1 = buf.ReadU16BENext(2)";
"	if !cmp.Equal(out1, expectedReadu16be) {";
"";
"		t.Fatalf(""expected uint16 array does not match the one gotten (got %#v, expected %#v)"", out1, expectedReadu16be)";
"";
"	}";
"";
"	off = buf.ByteOffset()";
"	if off != 4 {";
"";
"		t.Fatalf(""incorrect offset: %d"", off)";
"";
"	}";
"	buf.SeekByte(0x00, false)";
"";
"	//";
"	// u32le";
"	//";
"";
"	out2 := buf.ReadU32LENext(2)";
"	if !cmp.Equal(out2, expectedReadu32le) {";
"";
"		t.Fatalf(""expected uint32 array does not match the one gotten (got %#v, expected %#v)"", out2, expectedReadu32le)";
"";
"	}";
"";
"	off = buf.ByteOffset()";
"	if off != 8 {";
"";
"		t.Fatalf(""incorrect offset: %d"", off)";
"";
"	}";
"	buf.SeekByte(0x00, false)";
"";
"	//";
"	// u32be";
"	//";
"";
"	out2 = buf.ReadU32BENext(2)";
"	if !cmp.Equal(out2, expectedReadu32be) {";
"";
"		t.Fatalf(""expected uint32 array does not match the one gotten (got %#v, expected %#v)"", out2, expectedReadu32be)";
"";
"	}";
"";
"	off = buf.ByteOffset()";
"	if off != 8 {";
"";
"		t.Fatalf(""incorrect offset: %d"", off)";
"";
"	}";
"	buf.SeekByte(0x00, false)";
"";
"	//";
"	// u64le";
"	//";
"";
"	out3 := buf.ReadU64LENext(2)";
"	if !cmp.Equal(out3, expectedReadu64le) {";
"";
"		t.Fatalf(""expected uint64 array does not match the one gotten (got %#v, expected %#v)"", out3, expectedReadu64le)";
"";
"	}";
"";
"	off = buf.ByteOffset()";
"	if off != 16 {";
"";
"		t.Fatalf(""incorrect offset: %d"", off)";
"";
"	}";
"	buf.SeekByte(0x00, false)";
"";
"	//";
"	// u64be";
"	//";
"";
"	out3 = buf.ReadU64BENext(2)";
"	if !cmp.Equal(out3, expectedReadu64be) {"].

(** v3/buffer_test.go:601-700 *)
Definition v3_buffer_test_6 : list string := [
"";
"		t.Fatalf(""expected uint64 array does not match the one gotten (got %#v, expected %#v)"", out3, expectedReadu64be)";
"";
"	}";
"";
"	off = buf.ByteOffset()";
"	if off != 16 {";
"";
"		t.Fatalf(""incorrect offset: %d"", off)";
"";
"	}";
"	buf.SeekByte(0x00, false)";
"";
"	//";
"	// i16le";
"	//";
"";
"	out4 := buf.ReadI16LENext(2)";
"	if !cmp.Equal(out4, expectedReadi16le) {";
"";
"		t.Fatalf(""expected int16 array does not match the one gotten (got %#v, expected %#v)"", out4, expectedReadi16le)";
"";
"	}";
"	off = buf.ByteOffset()";
"	if off != 4 {";
"";
"		t.Fatalf(""incorrect offset: %d"", off)";
"";
"	}";
"	buf.SeekByte(0x00, false)";
"";
"	//";
"	// i16be";
"	//";
"";
"	out4 = buf.ReadI16BENext(2)";
"	if !cmp.Equal(out4, expectedReadi16be) {";
"";
"		t.Fatalf(""expected int16 array does not match the one gotten (got %#v, expected %#v)"", out4, expectedReadi16be)";
"";
"	}";
"	off = buf.ByteOffset()";
"	if off != 4 {";
"";
"		t.Fatalf(""incorrect offset: %d"", off)";
"";
"	}";
"	buf.SeekByte(0x00, false)";
"";
"	//";
"	// i32le";
"	//";
"";
"	out5 := buf.ReadI32LENext(2)";
"	if !cmp.Equal(out5, expectedReadi32le) {";
"";
"		t.Fatalf(""expected int32 array does not match the one gotten (got %#v, expected %#v)"", out5, expectedReadi32le)";
"";
"	}";
"	off = buf.ByteOffset()";
"	if off != 8 {";
"";
"		t.Fatalf(""incorrect offset: %d"", off)";
"";
"	}";
"	buf.SeekByte(0x00, false)";
"";
"	//";
"	// i32be";
"	//";
"";
"	out5 = buf.ReadI32BENext(2)";
"	if !cmp.Equal(out5, expectedReadi32be) {";
"";
"		t.Fatalf(""expected int32 array does not match the one gotten (got %#v, expected %#v)"", out5, expectedReadi32be)";
"";
"	}";
"	off = buf.ByteOffset()";
"	if off != 8 {";
"";
"		t.Fatalf(""incorrect offset: %d"", off)";
"";
"	}";
"	buf.SeekByte(0x00, false)";
"";
"	//";
"	// i64le";
"	//";
"";
"	out6 := buf.ReadI64LENext(2)";
"	if !cmp.Equal(out6, expectedReadi64le) {";
"";
"		t.Fatalf(""expected int64 array does not match the one gotten (got %#v, expected %#v)"", out6, expectedReadi64le)";
"";
"	}";
"	off = buf.ByteOffset()";
"	if off != 16 {";
"";
"		t.Fatalf(""incorrect offset: %d"", off)";
""].

(** v3/buffer_test.go:701-800 *)
Definition v3_buffer_test_7 : list string := [
"	}";
"	buf.SeekByte(0x00, false)";
"";
"	//";
"	// i64be";
"	//";
"";
"	out6 = buf.ReadI64BENext(2)";
"	if !cmp.Equal(out6, expectedReadi64be) {";
"";
"		t.Fatalf(""expected int64 array does not match the one gotten (got %#v, expected %#v)"", out6, expectedReadi64be)";
"";
"	}";
"	off = buf.ByteOffset()";
"	if off != 16 {";
"";
"		t.Fatalf(""incorrect offset: %d"", off)";
"";
"	}";
"	buf.SeekByte(0x00, false)";
"";
"	//";
"	// floats (we use a slightly different buffer to have higher confidence here)";
"	//";
"";
"	var (";
"		expectedReadf32le = []float32{-45.318115, -8.536945e+32}";
"		expectedReadf32be = []float32{-3.081406, -1.0854726e-29}";
"		expectedReadf64le = []float64{-1.498274907009045e+261, 5.278146837874356e-99}";
"		expectedReadf64be = []float64{-42.42, 3.621}";
"	)";
"";
"	buf = NewBuffer([]byte{0xc0, 0x45, 0x35, 0xc2, 0x8f, 0x5c, 0x28, 0xf6, 0x40, 0xc, 0xf7, 0xce, 0xd9, 0x16, 0x87, 0x2b})";
"";
"	//";
"	// f32le";
"	//";
"";
"	out7 := buf.ReadF32LENext(2)";
"	if !cmp.Equal(out7, expectedReadf32le) {";
"";
"		t.Fatalf(""expected float32 array does not match the one gotten (got %#v, expected %#v)"", out7, expectedReadf32le)";
"";
"	}";
"	off = buf.ByteOffset()";
"	if off != 8 {";
"";
"		t.Fatalf(""incorrect offset: %d"", off)";
"";
"	}";
"	buf.SeekByte(0x00, false)";
"";
"	//";
"	// f32be";
"	//";
"";
"	out7 = buf.ReadF32BENext(2)";
"	if !cmp.Equal(out7, expectedReadf32be) {";
"";
"		t.Fatalf(""expected float32 array does not match the one gotten (got %#v, expected %#v)"", out7, expectedReadf32be)";
"";
"	}";
"	off = buf.ByteOffset()";
"	if off != 8 {";
"";
"		t.Fatalf(""incorrect offset: %d"", off)";
"";
"	}";
"	buf.SeekByte(0x00, false)";
"";
"	//";
"	// f64le";
"	//";
"";
"	out8 := buf.ReadF64LENext(2)";
"	if !cmp.Equal(out8, expectedReadf64le) {";
"";
"		t.Fatalf(""expected float64 array does not match the one gotten (got %#v, expected %#v)"", out8, expectedReadf64le)";
"";
"	}";
"	off = buf.ByteOffset()";
"	if off != 16 {";
"";
"		t.Fatalf(""incorrect offset: %d"", off)";
"";
"	}";
"	buf.SeekByte(0x00, false)";
"";
"	//";
"	// f64be";
"	//";
"";
"	out8 = buf.ReadF64BENext(2)";
"	if !cmp.Equal(out8, expectedReadf64be) {";
"";
"		t.Fatalf(""expected float64 array does not match the one gotten (got %#v, expected %#v)"", out8, expectedReadf64be)";
"";
"	}";
"	off = buf.ByteOffset()";
"	if off != 16 {"].

(** v3/buffer_test.go:801-900 *)
Definition v3_buffer_test_8 : list string := [
"";
"		t.Fatalf(""incorrect offset: %d"", off)";
"";
"	}";
"	buf.SeekByte(0x00, false)";
"";
"}";
"";
"func TestBufferWriteByte(t *testing.T) {";
"";
"	var expected byte = 0x04";
"";
"	buf := NewBuffer([]byte{0x00, 0x00, 0x00, 0x00})";
"";
"	buf.WriteByte(0x03, 0x04)";
"";
"	out := buf.ReadByte(0x03)";
"	if expected != out {";
"";
"		t.Fatalf(""expected byte does not match the one gotten (got %d, expected %d)"", out, expected)";
"";
"	}";
"";
"}";
"";
"func TestBufferWriteByteNext(t *testing.T) {";
"";
"	var expected byte = 0x01";
"";
"	buf := NewBuffer([]byte{0x00, 0x00, 0x00, 0x00})";
"";
"	buf.WriteByteNext(0x01)";
"";
"	out := buf.ReadByte(0x00)";
"	if expected != out {";
"";
"		t.Fatalf(""expected byte does not match the one gotten (got %d, expected %d)"", out, expected)";
"";
"	}";
"";
"}";
"";
"func TestBufferWriteBytes(t *testing.T) {";
"";
"	var expected = []byte{0x01, 0x02}";
"";
"	buf := NewBuffer([]byte{0x00, 0x00, 0x00, 0x00})";
"";
"	buf.WriteBytes(0x02, []byte{0x01, 0x02})";
"";
"	out := buf.ReadBytes(0x02, 2)";
"	if !cmp.Equal(expected, out) {";
"";
"		t.Fatalf(""expected byte array does not match the one gotten (got %#v, expected %#v)"", out, expected)";
"";
"	}";
"";
"}";
"";
"func TestBufferWriteBytesNext(t *testing.T) {";
"";
"	var expected = []byte{0x01, 0x02}";
"";
"	buf := NewBuffer([]byte{0x00, 0x00, 0x00, 0x00})";
"";
"	buf.WriteBytesNext([]byte{0x01, 0x02})";
"";
"	out := buf.ReadBytes(0x00, 2)";
"	if !cmp.Equal(expected, out) {";
"";
"		t.Fatalf(""expected byte array does not match the one gotten (got %#v, expected %#v)"", out, expected)";
"";
"	}";
"";
"}";
"";
"//gocyclo:ignore";
"func TestBufferWriteSNEN(t *testing.T) {";
"";
"	var expected byte = 0x01";
"";
"	buf := NewBuffer([]byte{0x00, 0x00, 0x00, 0x00, 0x00, 0x00, 0x00, 0x00, 0x00, 0x00, 0x00, 0x00, 0x00, 0x00, 0x00, 0x00})";
"";
"	//";
"	// u16le";
"	//";
"";
"	buf.WriteU16LENext([]uint16{0x01, 0x01})";
"";
"	out := buf.ReadBytes(0x00, 1)";
"	if expected != out[0] {";
"";
"		t.Fatalf(""expected byte does not match the one gotten (got %d, expected %d)"", out[0], expected)";
"";
"	}";
"";
"	out = buf.ReadBytes(0x02, 1)";
"	if expected != out[0] {";
"";
"		t.Fatalf(""expected byte does not match the one gotten (got %d, expected %d)"", out[0], expected)"].

(** v3/buffer_test.go:901-1000 *)
Definition v3_buffer_test_9 : list string := [
"";
"	}";
"";
"	off := buf.ByteOffset()";
"	if off != 4 {";
"";
"		t.Fatalf(""incorrect offset: %d"", off)";
"";
"	}";
"	buf.SeekByte(0x00, false)";
"";
"	//";
"	// u16be";
"	//";
"";
"	buf.WriteU16BENext([]uint16{0x100, 0x100})";
"";
"	out = buf.ReadBytes(0x00, 1)";
"	if expected != out[0] {";
"";
"		t.Fatalf(""expected byte does not match the one gotten (got %d, expected %d)"", out[0], expected)";
"";
"	}";
"";
"	out = buf.ReadBytes(0x02, 1)";
"	if expected != out[0] {";
"";
"		t.Fatalf(""expected byte does not match the one gotten (got %d, expected %d)"", out[0], expected)";
"";
"	}";
"";
"	off = buf.ByteOffset()";
"	if off != 4 {";
"";
"		t.Fatalf(""incorrect offset: %d"", off)";
"";
"	}";
"	buf.SeekByte(0x00, false)";
"";
"	//";
"	// u32le";
"	//";
"";
"	buf.WriteU32LENext([]uint32{0x01, 0x01})";
"";
"	out = buf.ReadBytes(0x00, 1)";
"	if expected != out[0] {";
"";
"		t.Fatalf(""expected byte does not match the one gotten (got %d, expected %d)"", out[0], expected)";
"";
"	}";
"";
"	out = buf.ReadBytes(0x04, 1)";
"	if expected != out[0] {";
"";
"		t.Fatalf(""expected byte does not match the one gotten (got %d, expected %d)"", out[0], expected)";
"";
"	}";
"";
"	off = buf.ByteOffset()";
"	if off != 8 {";
"";
"		t.Fatalf(""incorrect offset: %d"", off)";
"";
"	}";
"	buf.SeekByte(0x00, false)";
"";
"	//";
"	// u32be";
"	//";
"";
"	buf.WriteU32BENext([]uint32{0x1000000, 0x1000000})";
"";
"	out = buf.ReadBytes(0x00, 1)";
"	if expected != out[0] {";
"";
"		t.Fatalf(""expected byte does not match the one gotten (got %d, expected %d)"", out[0], expected)";
"";
"	}";
"";
"	out = buf.ReadBytes(0x04, 1)";
"	if expected != out[0] {";
"";
"		t.Fatalf(""expected byte does not match the one gotten (got %d, expected %d)"", out[0], expected)";
"";
"	}";
"";
"	off = buf.ByteOffset()";
"	if off != 8 {";
"";
"		t.Fatalf(""incorrect offset: %d"", off)";
"";
"	}";
"	buf.SeekByte(0x00, false)";
"";
"	//";
"	// u64le";
"	//";
"";
"	buf.WriteU64LENext([]uint64{0x01, 0x01})"].

(** v3/buffer_test.go:1001-1100 *)
Definition v3_buffer_test_10 : list string := [
"";
"	out = buf.ReadBytes(0x00, 1)";
"	if expected != out[0] {";
"";
"		t.Fatalf(""expected byte does not match the one gotten (got %d, expected %d)"", out[0], expected)";
"";
"	}";
"";
"	out = buf.ReadBytes(0x08, 1)";
"	if expected != out[0] {";
"";
"		t.Fatalf(""expected byte does not match the one gotten (got %d, expected %d)"", out[0], expected)";
"";
"	}";
"";
"	off = buf.ByteOffset()";
"	if off != 16 {";
"";
"		t.Fatalf(""incorrect offset: %d"", off)";
"";
"	}";
"	buf.SeekByte(0x00, false)";
"";
"	//";
"	// u64be";
"	//";
"";
"	buf.WriteU64BENext([]uint64{0x100000000000000, 0x100000000000000})";
"";
"	out = buf.ReadBytes(0x00, 1)";
"	if expected != out[0] {";
"";
"		t.Fatalf(""expected byte does not match the one gotten (got %d, expected %d)"", out[0], expected)";
"";
"	}";
"";
"	out = buf.ReadBytes(0x08, 1)";
"	if expected != out[0] {";
"";
"		t.Fatalf(""expected byte does not match the one gotten (got %d, expected %d)"", out[0], expected)";
"";
"	}";
"";
"	off = buf.ByteOffset()";
"	if off != 16 {";
"";
"		t.Fatalf(""incorrect offset: %d"", off)";
"";
"	}";
"	buf.SeekByte(0x00, false)";
"";
"	//";
"	// i16le";
"	//";
"";
"	buf.WriteI16LENext([]int16{0x01, 0x01})";
"";
"	out = buf.ReadBytes(0x00, 1)";
"	if expected != out[0] {";
"";
"		t.Fatalf(""expected byte does not match the one gotten (got %d, expected %d)"", out[0], expected)";
"";
"	}";
"";
"	out = buf.ReadBytes(0x02, 1)";
"	if expected != out[0] {";
"";
"		t.Fatalf(""expected byte does not match the one gotten (got %d, expected %d)"", out[0], expected)";
"";
"	}";
"";
"	off = buf.ByteOffset()";
"	if off != 4 {";
"";
"		t.Fatalf(""incorrect offset: %d"", off)";
"";
"	}";
"	buf.SeekByte(0x00, false)";
"";
"	//";
"	// i16be";
"	//";
"";
"	buf.WriteI16BENext([]int16{0x100, 0x100})";
"";
"	out = buf.ReadBytes(0x00, 1)";
"	if expected != out[0] {";
"";
"		t.Fatalf(""expected byte does not match the one gotten (got %d, expected %d)"", out[0], expected)";
"";
"	}";
"";
"	out = buf.ReadBytes(0x02, 1)";
"	if expected != out[0] {";
"";
"		t.Fatalf(""expected byte does not match the one gotten (got %d, expected %d)"", out[0], expected)";
"";
"	}";
"";
"	off = buf.ByteOffset()"].

(** v3/buffer_test.go:1101-1200 *)
Definition v3_buffer_test_11 : list string := [
"	if off != 4 {";
"";
"		t.Fatalf(""incorrect offset: %d"", off)";
"";
"	}";
"	buf.SeekByte(0x00, false)";
"";
"	//";
"	// i32le";
"	//";
"";
"	buf.WriteI32LENext([]int32{0x01, 0x01})";
"";
"	out = buf.ReadBytes(0x00, 1)";
"	if expected != out[0] {";
"";
"		t.Fatalf(""expected byte does not match the one gotten (got %d, expected %d)"", out[0], expected)";
"";
"	}";
"";
"	out = buf.ReadBytes(0x04, 1)";
"	if expected != out[0] {";
"";
"		t.Fatalf(""expected byte does not match the one gotten (got %d, expected %d)"", out[0], expected)";
"";
"	}";
"";
"	off = buf.ByteOffset()";
"	if off != 8 {";
"";
"		t.Fatalf(""incorrect offset: %d"", off)";
"";
"	}";
"	buf.SeekByte(0x00, false)";
"";
"	//";
"	// i32be";
"	//";
"";
"	buf.WriteI32BENext([]int32{0x1000000, 0x1000000})";
"";
"	out = buf.ReadBytes(0x00, 1)";
"	if expected != out[0] {";
"";
"		t.Fatalf(""expected byte does not match the one gotten (got %d, expected %d)"", out[0], expected)";
"";
"	}";
"";
"	out = buf.ReadBytes(0x04, 1)";
"	if expected != out[0] {";
"";
"		t.Fatalf(""expected byte does not match the one gotten (got %d, expected %d)"", out[0], expected)";
"";
"	}";
"";
"	off = buf.ByteOffset()";
"	if off != 8 {";
"";
"		t.Fatalf(""incorrect offset: %d"", off)";
"";
"	}";
"	buf.SeekByte(0x00, false)";
"";
"	//";
"	// i64le";
"	//";
"";
"	buf.WriteI64LENext([]int64{0x01, 0x01})";
"";
"	out = buf.ReadBytes(0x00, 1)";
"	if expected != out[0] {";
"";
"		t.Fatalf(""expected byte does not match the one gotten (got %d, expected %d)"", out[0], expected)";
"";
"	}";
"";
"	out = buf.ReadBytes(0x08, 1)";
"	if expected != out[0] {";
"";
"		t.Fatalf(""expected byte does not match the one gotten (got %d, expected %d)"", out[0], expected)";
"";
"	}";
"";
"	off = buf.ByteOffset()";
"	if off != 16 {";
"";
"		t.Fatalf(""incorrect offset: %d"", off)";
"";
"	}";
"	buf.SeekByte(0x00, false)";
"";
"	//";
"	// i64be";
"	//";
"";
"	buf.WriteI64BENext([]int64{0x100000000000000, 0x100000000000000})";
"";
"	out = buf.ReadBytes(0x00, 1)";
"	if expected != out[0] {";
""].

(** v3/buffer_test.go:1201-1300 *)
Definition v3_buffer_test_12 : list string := [
"		t.Fatalf(""expected byte does not match the one gotten (got %d, expected %d)"", out[0], expected)";
"";
"	}";
"";
"	out = buf.ReadBytes(0x08, 1)";
"	if expected != out[0] {";
"";
"		t.Fatalf(""expected byte does not match the one gotten (got %d, expected %d)"", out[0], expected)";
"";
"	}";
"";
"	off = buf.ByteOffset()";
"	if off != 16 {";
"";
"		t.Fatalf(""incorrect offset: %d"", off)";
"";
"	}";
"	buf.SeekByte(0x00, false)";
"";
"	//";
"	// floats (we use a slightly different expected integer array to have higher confidence here)";
"	//";
"";
"	buf = NewBuffer([]byte{0x00, 0x00, 0x00, 0x00, 0x00, 0x00, 0x00, 0x00, 0x00, 0x00, 0x00, 0x00, 0x00, 0x00, 0x00, 0x00})";
"";
"	expected2 := []byte{0xc0, 0x45, 0x35, 0xc2, 0x8f, 0x5c, 0x28, 0xf6, 0x40, 0xc, 0xf7, 0xce, 0xd9, 0x16, 0x87, 0x2b}";
"";
"	//";
"	// f32le";
"	//";
"";
"	buf.WriteF32LENext([]float32{-45.318115, -8.536945e+32})";
"";
"	out = buf.ReadBytes(0x00, 8)";
"	if !cmp.Equal(expected2[0:8], out) {";
"";
"		t.Fatalf(""expected byte array does not match the one gotten (got %#v, expected %#v)"", out, expected2)";
"";
"	}";
"";
"	off = buf.ByteOffset()";
"	if off != 8 {";
"";
"		t.Fatalf(""incorrect offset: %d"", off)";
"";
"	}";
"	buf.SeekByte(0x00, false)";
"";
"	//";
"	// f32be";
"	//";
"";
"	buf.WriteF32BENext([]float32{-3.081406, -1.0854726e-29})";
"";
"	out = buf.ReadBytes(0x00, 8)";
"	if !cmp.Equal(expected2[0:8], out) {";
"";
"		t.Fatalf(""expected byte array does not match the one gotten (got %#v, expected %#v)"", out, expected2)";
"";
"	}";
"";
"	off = buf.ByteOffset()";
"	if off != 8 {";
"";
"		t.Fatalf(""incorrect offset: %d"", off)";
"";
"	}";
"	buf.SeekByte(0x00, false)";
"";
"	//";
"	// f64le";
"	//";
"";
"	buf.WriteF64LENext([]float64{-1.498274907009045e+261, 5.278146837874356e-99})";
"";
"	out = buf.ReadBytes(0x00, 16)";
"	if !cmp.Equal(expected2, out) {";
"";
"		t.Fatalf(""expected byte array does not match the one gotten (got %#v, expected %#v)"", out, expected2)";
"";
"	}";
"";
"	off = buf.ByteOffset()";
"	if off != 16 {";
"";
"		t.Fatalf(""incorrect offset: %d"", off)";
"";
"	}";
"	buf.SeekByte(0x00, false)";
"";
"	//";
"	// f64be";
"	//";
"";
"	buf.WriteF64BENext([]float64{-42.42, 3.621})";
"";
"	out = buf.ReadBytes(0x00, 16)";
"	if !cmp.Equal(expected2, out) {";
"";
"		t.Fatalf(""expected byte array does not match the one gotten (got %#v, expected %#v)"", out, expected2)"].

(** v3/buffer_test.go:1301-1400 *)
Definition v3_buffer_test_13 : list string := [
"";
"	}";
"";
"	off = buf.ByteOffset()";
"	if off != 16 {";
"";
"		t.Fatalf(""incorrect offset: %d"", off)";
"";
"	}";
"	buf.SeekByte(0x00, false)";
"";
"}";
"";
"func TestBufferReadBit(t *testing.T) {";
"";
"	var expected byte = 1";
"";
"	buf := NewBuffer([]byte{0x01, 0x00, 0x00, 0x00})";
"";
"	out := buf.ReadBit(0x07)";
"	if expected != out {";
"";
"		t.Fatalf(""expected byte does not match the one gotten (got %d, expected %d)"", out, expected)";
"";
"	}";
"";
"}";
"";
"func TestBufferReadBitNext(t *testing.T) {";
"";
"	var expected byte = 1";
"";
"	buf := NewBuffer([]byte{0xff, 0x00, 0x00, 0x00})";
"";
"	out := buf.ReadBitNext()";
"	if expected != out {";
"";
"		t.Fatalf(""expected byte does not match the one gotten (got %d, expected %d)"", out, expected)";
"";
"	}";
"";
"}";
"";
"func TestBufferReadBits(t *testing.T) {";
"";
"	var expected uint64 = 5";
"";
"	buf := NewBuffer([]byte{0x0d, 0x00, 0x00, 0x00})";
"";
"	out := buf.ReadBits(0x05, 3)";
"	if expected != out {";
"";
"		t.Fatalf(""expected uint64 does not match the one gotten (got %d, expected %d)"", out, expected)";
"";
"	}";
"";
"}";
"";
"func TestBufferReadBitsNext(t *testing.T) {";
"";
"	var expected uint64 = 13";
"";
"	buf := NewBuffer([]byte{0x0d, 0x00, 0x00, 0x00})";
"";
"	out := buf.ReadBitsNext(8)";
"	if expected != out {";
"";
"		t.Fatalf(""expected uint64 does not match the one gotten (got %d, expected %d)"", out, expected)";
"";
"	}";
"";
"}";
"";
"func TestBufferSetBit(t *testing.T) {";
"";
"	var expected byte = 1";
"";
"	buf := NewBuffer([]byte{0x00, 0x00, 0x00, 0x00})";
"";
"	buf.SetBit(0x00)";
"";
"	out := buf.ReadBit(0x00)";
"	if expected != out {";
"";
"		t.Fatalf(""expected byte does not match the one gotten (got %d, expected %d)"", out, expected)";
"";
"	}";
"";
"}";
"";
"func TestBufferSetBitNext(t *testing.T) {";
"";
"	var expected byte = 1";
"";
"	buf := NewBuffer([]byte{0x00, 0x00, 0x00, 0x00})";
"";
"	buf.SetBitNext()";
"";
"	out := buf.ReadBit(0x00)";
"	if expected != out {"].

(** v3/buffer_test.go:1401-1500 *)
Definition v3_buffer_test_14 : list string := [
"";
"		t.Fatalf(""expected byte does not match the one gotten (got %d, expected %d)"", out, expected)";
"";
"	}";
"";
"}";
"";
"func TestBufferClearBit(t *testing.T) {";
"";
"	var expected byte";
"";
"	buf := NewBuffer([]byte{0x00, 0x00, 0x00, 0x00})";
"";
"	buf.ClearBit(0x00)";
"";
"	out := buf.ReadBit(0x00)";
"	if expected != out {";
"";
"		t.Fatalf(""expected byte does not match the one gotten (got %d, expected %d)"", out, expected)";
"";
"	}";
"";
"}";
"";
"func TestBufferClearBitNext(t *testing.T) {";
"";
"	var expected byte";
"";
"	buf := NewBuffer([]byte{0x00, 0x00, 0x00, 0x00})";
"";
"	buf.ClearBitNext()";
"";
"	out := buf.ReadBit(0x00)";
"	if expected != out {";
"";
"		t.Fatalf(""expected byte does not match the one gotten (got %d, expected %d)"", out, expected)";
"";
"	}";
"";
"}";
"";
"func TestBufferSetBits(t *testing.T) {";
"";
"	var expected uint64 = 5";
"";
"	buf := NewBuffer([]byte{0x00, 0x00, 0x00, 0x00})";
"";
"	buf.SetBits(0x06, 5, 3)";
"";
"	out := buf.ReadBits(0x06, 3)";
"	if expected != out {";
"";
"		t.Fatalf(""expected uint64 does not match the one gotten (got %d, expected %d)"", out, expected)";
"";
"	}";
"";
"}";
"";
"func TestBufferSetBitsNext(t *testing.T) {";
"";
"	var expected uint64 = 13";
"";
"	buf := NewBuffer([]byte{0x00, 0x00, 0x00, 0x00})";
"";
"	buf.SetBitsNext(13, 8)";
"";
"	out := buf.ReadBits(0x00, 8)";
"	if expected != out {";
"";
"		t.Fatalf(""expected uint64 does not match the one gotten (got %d, expected %d)"", out, expected)";
"";
"	}";
"";
"}";
"";
"func TestBufferFlipBit(t *testing.T) {";
"";
"	var expected byte";
"";
"	buf := NewBuffer([]byte{0xff, 0xff, 0xff, 0xff})";
"";
"	buf.FlipBit(0x01)";
"";
"	out := buf.ReadBit(0x01)";
"	if expected != out {";
"";
"		t.Fatalf(""expected byte does not match the one gotten (got %d, expected %d)"", out, expected)";
"";
"	}";
"";
"}";
"";
"func TestBufferFlipBitNext(t *testing.T) {";
"";
"	var expected byte = 1";
"";
"	buf := NewBuffer([]byte{0x00, 0x00, 0x00, 0x00})";
"";
"	buf.FlipBitNext()";
""].

(** v3/buffer_test.go:1501-1600 *)
Definition v3_buffer_test_15 : list string := [
"	out := buf.ReadBit(0x00)";
"	if expected != out {";
"";
"		t.Fatalf(""expected byte does not match the one gotten (got %d, expected %d)"", out, expected)";
"";
"	}";
"";
"}";
"";
"func TestBufferClearAllBits(t *testing.T) {";
"";
"	var expected = []byte{0x00, 0x00, 0x00, 0x00}";
"";
"	buf := NewBuffer([]byte{0xff, 0x00, 0xff, 0x00})";
"";
"	buf.ClearAllBits()";
"";
"	if !cmp.Equal(expected, buf.buf) {";
"";
"		t.Fatalf(""expected byte array does not match the one gotten (got %#v, expected %#v)"", buf.buf, expected)";
"";
"	}";
"";
"}";
"";
"func TestBufferSetAllBits(t *testing.T) {";
"";
"	var expected = []byte{0xff, 0xff, 0xff, 0xff}";
"";
"	buf := NewBuffer([]byte{0x00, 0xff, 0x00, 0xff})";
"";
"	buf.SetAllBits()";
"";
"	if !cmp.Equal(expected, buf.buf) {";
"";
"		t.Fatalf(""expected byte array does not match the one gotten (got %#v, expected %#v)"", buf.buf, expected)";
"";
"	}";
"";
"}";
"";
"func TestBufferFlipAllBits(t *testing.T) {";
"";
"	var expected = []byte{0xff, 0x00, 0xff, 0x00}";
"";
"	buf := NewBuffer([]byte{0x00, 0xff, 0x00, 0xff})";
"";
"	buf.FlipAllBits()";
"";
"	if !cmp.Equal(expected, buf.buf) {";
"";
"		t.Fatalf(""expected byte array does not match the one gotten (got %#v, expected %#v)"", buf.buf, expected)";
"";
"	}";
"";
"}";
"";
"func TestBufferReadbitPanic1(t *testing.T) {";
"";
"	defer panicChecker(t, BufferOverreadError)";
"";
"	buf := NewBuffer([]byte{0x00, 0x00, 0x00, 0x00})";
"";
"	_ = buf.ReadBit(0x20)";
"";
"}";
"";
"func TestBufferReadbitPanic2(t *testing.T) {";
"";
"	defer panicChecker(t, BufferUnderreadError)";
"";
"	buf := NewBuffer([]byte{0x00, 0x00, 0x00, 0x00})";
"";
"	_ = buf.ReadBit(-0x01)";
"";
"}";
"";
"func TestBufferSetbitPanic1(t *testing.T) {";
"";
"	defer panicChecker(t, BufferOverwriteError)";
"";
"	buf := NewBuffer([]byte{0x00, 0x00, 0x00, 0x00})";
"";
"	buf.SetBit(0x20)";
"";
"}";
"";
"func TestBufferSetbitPanic2(t *testing.T) {";
"";
"	defer panicChecker(t, BufferUnderwriteError)";
"";
"	buf := NewBuffer([]byte{0x00, 0x00, 0x00, 0x00})";
"";
"	buf.SetBit(-0x01)";
"";
"}";
"";
"func TestBufferClearbitPanic1(t *testing.T) {";
"";
"	defer panicChecker(t, BufferOverwriteError)"].

(** v3/buffer_test.go:1601-1700 *)
Definition v3_buffer_test_16 : list string := [
"";
"	buf := NewBuffer([]byte{0x00, 0x00, 0x00, 0x00})";
"";
"	buf.ClearBit(0x20)";
"";
"}";
"";
"func TestBufferClearbitPanic2(t *testing.T) {";
"";
"	defer panicChecker(t, BufferUnderwriteError)";
"";
"	buf := NewBuffer([]byte{0x00, 0x00, 0x00, 0x00})";
"";
"	buf.ClearBit(-0x01)";
"";
"}";
"";
"func TestBufferFlipbitPanic1(t *testing.T) {";
"";
"	defer panicChecker(t, BufferOverwriteError)";
"";
"	buf := NewBuffer([]byte{0x00, 0x00, 0x00, 0x00})";
"";
"	buf.FlipBit(0x20)";
"";
"}";
"";
"func TestBufferFlipbitPanic2(t *testing.T) {";
"";
"	defer panicChecker(t, BufferUnderwriteError)";
"";
"	buf := NewBuffer([]byte{0x00, 0x00, 0x00, 0x00})";
"";
"	buf.FlipBit(-0x01)";
"";
"}";
"";
"func TestBufferWriteBytesPanic1(t *testing.T) {";
"";
"	defer panicChecker(t, BufferOverwriteError)";
"";
"	buf := NewBuffer([]byte{0x00, 0x00, 0x00, 0x00})";
"";
"	buf.WriteBytes(0x04, []byte{0x01, 0x01})";
"";
"}";
"";
"func TestBufferWriteBytesPanic2(t *testing.T) {";
"";
"	defer panicChecker(t, BufferUnderwriteError)";
"";
"	buf := NewBuffer([]byte{0x00, 0x00, 0x00, 0x00})";
"";
"	buf.WriteBytes(-0x01, []byte{0x01, 0x01})";
"";
"}";
"";
"func TestBufferReadBytesPanic1(t *testing.T) {";
"";
"	defer panicChecker(t, BufferOverreadError)";
"";
"	buf := NewBuffer([]byte{0x00, 0x00, 0x00, 0x00})";
"";
"	_ = buf.ReadBytes(0x20, 1)";
"";
"}";
"";
"func TestBufferReadBytesPanic2(t *testing.T) {";
"";
"	defer panicChecker(t, BufferUnderreadError)";
"";
"	buf := NewBuffer([]byte{0x00, 0x00, 0x00, 0x00})";
"";
"	_ = buf.ReadBytes(-0x01, 1)";
"";
"}";
"";
"func TestBufferWriteU16LEPanic1(t *testing.T) {";
"";
"	defer panicChecker(t, BufferOverwriteError)";
"";
"	buf := NewBuffer([]byte{0x00, 0x00, 0x00, 0x00})";
"";
"	buf.WriteU16LE(0x00, []uint16{0x01, 0x02, 0x03, 0x04})";
"";
"}";
"";
"func TestBufferWriteU16LEPanic2(t *testing.T) {";
"";
"	defer panicChecker(t, BufferUnderwriteError)";
"";
"	buf := NewBuffer([]byte{0x00, 0x00, 0x00, 0x00})";
"";
"	buf.WriteU16LE(-0x01, []uint16{0x01, 0x02})";
"";
"}";
"";
"func TestBufferWriteU16BEPanic1(t *testing.T) {";
"";
"	defer panicChecker(t, BufferOverwriteError)"].

(** v3/buffer_test.go:1701-1800 *)
Definition v3_buffer_test_17 : list string := [
"";
"	buf := NewBuffer([]byte{0x00, 0x00, 0x00, 0x00})";
"";
"	buf.WriteU16BE(0x00, []uint16{0x01, 0x02, 0x03, 0x04})";
"";
"}";
"";
"func TestBufferWriteU16BEPanic2(t *testing.T) {";
"";
"	defer panicChecker(t, BufferUnderwriteError)";
"";
"	buf := NewBuffer([]byte{0x00, 0x00, 0x00, 0x00})";
"";
"	buf.WriteU16BE(-0x01, []uint16{0x01, 0x02})";
"";
"}";
"";
"func TestBufferWriteU32LEPanic1(t *testing.T) {";
"";
"	defer panicChecker(t, BufferOverwriteError)";
"";
"	buf := NewBuffer([]byte{0x00, 0x00, 0x00, 0x00})";
"";
"	buf.WriteU32LE(0x00, []uint32{0x01, 0x02, 0x03, 0x04})";
"";
"}";
"";
"func TestBufferWriteU32LEPanic2(t *testing.T) {";
"";
"	defer panicChecker(t, BufferUnderwriteError)";
"";
"	buf := NewBuffer([]byte{0x00, 0x00, 0x00, 0x00})";
"";
"	buf.WriteU32LE(-0x01, []uint32{0x01})";
"";
"}";
"";
"func TestBufferWriteU32BEPanic1(t *testing.T) {";
"";
"	defer panicChecker(t, BufferOverwriteError)";
"";
"	buf := NewBuffer([]byte{0x00, 0x00, 0x00, 0x00})";
"";
"	buf.WriteU32BE(0x00, []uint32{0x01, 0x02, 0x03, 0x04})";
"";
"}";
"";
"func TestBufferWriteU32BEPanic2(t *testing.T) {";
"";
"	defer panicChecker(t, BufferUnderwriteError)";
"";
"	buf := NewBuffer([]byte{0x00, 0x00, 0x00, 0x00})";
"";
"	buf.WriteU32BE(-0x01, []uint32{0x01})";
"";
"}";
"";
"func TestBufferWriteU64LEPanic1(t *testing.T) {";
"";
"	defer panicChecker(t, BufferOverwriteError)";
"";
"	buf := NewBuffer([]byte{0x00, 0x00, 0x00, 0x00})";
"";
"	buf.WriteU64LE(0x00, []uint64{0x01, 0x02, 0x03, 0x04})";
"";
"}";
"";
"func TestBufferWriteU64LEPanic2(t *testing.T) {";
"";
"	defer panicChecker(t, BufferUnderwriteError)";
"";
"	buf := NewBuffer([]byte{0x00, 0x00, 0x00, 0x00, 0x00, 0x00, 0x00, 0x00})";
"";
"	buf.WriteU64LE(-0x01, []uint64{0x01})";
"";
"}";
"";
"func TestBufferWriteU64BEPanic1(t *testing.T) {";
"";
"	defer panicChecker(t, BufferOverwriteError)";
"";
"	buf := NewBuffer([]byte{0x00, 0x00, 0x00, 0x00})";
"";
"	buf.WriteU64BE(0x00, []uint64{0x01, 0x02, 0x03, 0x04})";
"";
"}";
"";
"func TestBufferWriteU64BEPanic2(t *testing.T) {";
"";
"	defer panicChecker(t, BufferUnderwriteError)";
"";
"	buf := NewBuffer([]byte{0x00, 0x00, 0x00, 0x00, 0x00, 0x00, 0x00, 0x00})";
"";
"	buf.WriteU64BE(-0x01, []uint64{0x01})";
"";
"}";
"";
"func TestBufferWriteI16LEPanic1(t *testing.T) {";
"";
"	defer panicChecker(t, BufferOverwriteError)"].

(** v3/buffer_test.go:1801-1900 *)
Definition v3_buffer_test_18 : list string := [
"";
"	buf := NewBuffer([]byte{0x00, 0x00, 0x00, 0x00})";
"";
"	buf.WriteI16LE(0x00, []int16{0x01, 0x02, 0x03, 0x04})";
"";
"}";
"";
"func TestBufferWriteI16LEPanic2(t *testing.T) {";
"";
"	defer panicChecker(t, BufferUnderwriteError)";
"";
"	buf := NewBuffer([]byte{0x00, 0x00, 0x00, 0x00})";
"";
"	buf.WriteI16LE(-0x01, []int16{0x01, 0x02})";
"";
"}";
"";
"func TestBufferWriteI16BEPanic1(t *testing.T) {";
"";
"	defer panicChecker(t, BufferOverwriteError)";
"";
"	buf := NewBuffer([]byte{0x00, 0x00, 0x00, 0x00})";
"";
"	buf.WriteI16BE(0x00, []int16{0x01, 0x02, 0x03, 0x04})";
"";
"}";
"";
"func TestBufferWriteI16BEPanic2(t *testing.T) {";
"";
"	defer panicChecker(t, BufferUnderwriteError)";
"";
"	buf := NewBuffer([]byte{0x00, 0x00, 0x00, 0x00})";
"";
"	buf.WriteI16BE(-0x01, []int16{0x01, 0x02})";
"";
"}";
"";
"func TestBufferWriteI32LEPanic1(t *testing.T) {";
"";
"	defer panicChecker(t, BufferOverwriteError)";
"";
"	buf := NewBuffer([]byte{0x00, 0x00, 0x00, 0x00})";
"";
"	buf.WriteI32LE(0x00, []int32{0x01, 0x02, 0x03, 0x04})";
"";
"}";
"";
"func TestBufferWriteI32LEPanic2(t *testing.T) {";
"";
"	defer panicChecker(t, BufferUnderwriteError)";
"";
"	buf := NewBuffer([]byte{0x00, 0x00, 0x00, 0x00})";
"";
"	buf.WriteI32LE(-0x01, []int32{0x01})";
"";
"}";
"";
"func TestBufferWriteI32BEPanic1(t *testing.T) {";
"";
"	defer panicChecker(t, BufferOverwriteError)";
"";
"	buf := NewBuffer([]byte{0x00, 0x00, 0x00, 0x00})";
"";
"	buf.WriteI32BE(0x00, []int32{0x01, 0x02, 0x03, 0x04})";
"";
"}";
"";
"func TestBufferWriteI32BEPanic2(t *testing.T) {";
"";
"	defer panicChecker(t, BufferUnderwriteError)";
"";
"	buf := NewBuffer([]byte{0x00, 0x00, 0x00, 0x00})";
"";
"	buf.WriteI32BE(-0x01, []int32{0x01})";
"";
"}";
"";
"func TestBufferWriteI64LEPanic1(t *testing.T) {";
"";
"	defer panicChecker(t, BufferOverwriteError)";
"";
"	buf := NewBuffer([]byte{0x00, 0x00, 0x00, 0x00})";
"";
"	buf.WriteI64LE(0x00, []int64{0x01, 0x02, 0x03, 0x04})";
"";
"}";
"";
"func TestBufferWriteI64LEPanic2(t *testing.T) {";
"";
"	defer panicChecker(t, BufferUnderwriteError)";
"";
"	buf := NewBuffer([]byte{0x00, 0x00, 0x00, 0x00, 0x00, 0x00, 0x00, 0x00})";
"";
"	buf.WriteI64LE(-0x01, []int64{0x01})";
"";
"}";
"";
"func TestBufferWriteI64BEPanic1(t *testing.T) {";
"";
"	defer panicChecker(t, BufferOverwriteError)"].

(** v3/buffer_test.go:1901-2000 *)
Definition v3_buffer_test_19 : list string := [
"";
"	buf := NewBuffer([]byte{0x00, 0x00, 0x00, 0x00})";
"";
"	buf.WriteI64BE(0x00, []int64{0x01, 0x02, 0x03, 0x04})";
"";
"}";
"";
"func TestBufferWriteI64BEPanic2(t *testing.T) {";
"";
"	defer panicChecker(t, BufferUnderwriteError)";
"";
"	buf := NewBuffer([]byte{0x00, 0x00, 0x00, 0x00, 0x00, 0x00, 0x00, 0x00})";
"";
"	buf.WriteI64BE(-0x01, []int64{0x01})";
"";
"}";
"";
"func TestBufferWriteF32LEPanic1(t *testing.T) {";
"";
"	defer panicChecker(t, BufferOverwriteError)";
"";
"	buf := NewBuffer([]byte{0x00, 0x00, 0x00, 0x00})";
"";
"	buf.WriteF32LE(0x00, []float32{0x01, 0x02, 0x03, 0x04})";
"";
"}";
"";
"func TestBufferWriteF32LEPanic2(t *testing.T) {";
"";
"	defer panicChecker(t, BufferUnderwriteError)";
"";
"	buf := NewBuffer([]byte{0x00, 0x00, 0x00, 0x00})";
"";
"	buf.WriteF32LE(-0x01, []float32{0x01})";
"";
"}";
"";
"func TestBufferWriteF32BEPanic1(t *testing.T) {";
"";
"	defer panicChecker(t, BufferOverwriteError)";
"";
"	buf := NewBuffer([]byte{0x00, 0x00, 0x00, 0x00})";
"";
"	buf.WriteF32BE(0x00, []float32{0x01, 0x02, 0x03, 0x04})";
"";
"}";
"";
"func TestBufferWriteF32BEPanic2(t *testing.T) {";
"";
"	defer panicChecker(t, BufferUnderwriteError)";
"";
"	buf := NewBuffer([]byte{0x00, 0x00, 0x00, 0x00})";
"";
"	buf.WriteF32BE(-0x01, []float32{0x01})";
"";
"}";
"";
"func TestBufferWriteF64LEPanic1(t *testing.T) {";
"";
"	defer panicChecker(t, BufferOverwriteError)";
"";
"	buf := NewBuffer([]byte{0x00, 0x00, 0x00, 0x00})";
"";
"	buf.WriteF64LE(0x00, []float64{0x01, 0x02, 0x03, 0x04})";
"";
"}";
"";
"func TestBufferWriteF64LEPanic2(t *testing.T) {";
"";
"	defer panicChecker(t, BufferUnderwriteError)";
"";
"	buf := NewBuffer([]byte{0x00, 0x00, 0x00, 0x00, 0x00, 0x00, 0x00, 0x00})";
"";
"	buf.WriteF64LE(-0x01, []float64{0x01})";
"";
"}";
"";
"func TestBufferWriteF64BEPanic1(t *testing.T) {";
"";
"	defer panicChecker(t, BufferOverwriteError)";
"";
"	buf := NewBuffer([]byte{0x00, 0x00, 0x00, 0x00})";
"";
"	buf.WriteF64BE(0x00, []float64{0x01, 0x02, 0x03, 0x04})";
"";
"}";
"";
"func TestBufferWriteF64BEPanic2(t *testing.T) {";
"";
"	defer panicChecker(t, BufferUnderwriteError)";
"";
"	buf := NewBuffer([]byte{0x00, 0x00, 0x00, 0x00, 0x00, 0x00, 0x00, 0x00})";
"";
"	buf.WriteF64BE(-0x01, []float64{0x01})";
"";
"}";
"";
"func TestBufferReadU16LEPanic1(t *testing.T) {";
"";
"	defer panicChecker(t, BufferOverreadError)"].

(** v3/buffer_test.go:2001-2100 *)
Definition v3_buffer_test_20 : list string := [
"";
"	buf := NewBuffer([]byte{0x00, 0x00, 0x00, 0x00})";
"";
"	_ = buf.ReadU16LE(0x04, 1)";
"";
"}";
"";
"func TestBufferReadU16LEPanic2(t *testing.T) {";
"";
"	defer panicChecker(t, BufferUnderreadError)";
"";
"	buf := NewBuffer([]byte{0x00, 0x00, 0x00, 0x00})";
"";
"	_ = buf.ReadU16LE(-0x01, 1)";
"";
"}";
"";
"func TestBufferReadU16BEPanic1(t *testing.T) {";
"";
"	defer panicChecker(t, BufferOverreadError)";
"";
"	buf := NewBuffer([]byte{0x00, 0x00, 0x00, 0x00})";
"";
"	_ = buf.ReadU16BE(0x04, 1)";
"";
"}";
"";
"func TestBufferReadU16BEPanic2(t *testing.T) {";
"";
"	defer panicChecker(t, BufferUnderreadError)";
"";
"	buf := NewBuffer([]byte{0x00, 0x00, 0x00, 0x00})";
"";
"	_ = buf.ReadU16BE(-0x01, 1)";
"";
"}";
"";
"func TestBufferReadU32LEPanic1(t *testing.T) {";
"";
"	defer panicChecker(t, BufferOverreadError)";
"";
"	buf := NewBuffer([]byte{0x00, 0x00, 0x00, 0x00})";
"";
"	_ = buf.ReadU32LE(0x04, 1)";
"";
"}";
"";
"func TestBufferReadU32LEPanic2(t *testing.T) {";
"";
"	defer panicChecker(t, BufferUnderreadError)";
"";
"	buf := NewBuffer([]byte{0x00, 0x00, 0x00, 0x00})";
"";
"	_ = buf.ReadU32LE(-0x01, 1)";
"";
"}";
"";
"func TestBufferReadU32BEPanic1(t *testing.T) {";
"";
"	defer panicChecker(t, BufferOverreadError)";
"";
"	buf := NewBuffer([]byte{0x00, 0x00, 0x00, 0x00})";
"";
"	_ = buf.ReadU32BE(0x04, 1)";
"";
"}";
"";
"func TestBufferReadU32BEPanic2(t *testing.T) {";
"";
"	defer panicChecker(t, BufferUnderreadError)";
"";
"	buf := NewBuffer([]byte{0x00, 0x00, 0x00, 0x00})";
"";
"	_ = buf.ReadU32BE(-0x01, 1)";
"";
"}";
"";
"func TestBufferReadU64LEPanic1(t *testing.T) {";
"";
"	defer panicChecker(t, BufferOverreadError)";
"";
"	buf := NewBuffer([]byte{0x00, 0x00, 0x00, 0x00})";
"";
"	_ = buf.ReadU64LE(0x04, 1)";
"";
"}";
"";
"func TestBufferReadU64LEPanic2(t *testing.T) {";
"";
"	defer panicChecker(t, BufferUnderreadError)";
"";
"	buf := NewBuffer([]byte{0x00, 0x00, 0x00, 0x00, 0x00, 0x00, 0x00, 0x00})";
"";
"	_ = buf.ReadU64LE(-0x01, 1)";
"";
"}";
"";
"func TestBufferReadU64BEPanic1(t *testing.T) {";
"";
"	defer panicChecker(t, BufferOverreadError)"].

(** v3/buffer_test.go:2101-2200 *)
Definition v3_buffer_test_21 : list string := [
"";
"	buf := NewBuffer([]byte{0x00, 0x00, 0x00, 0x00})";
"";
"	_ = buf.ReadU64BE(0x04, 1)";
"";
"}";
"";
"func TestBufferReadU64BEPanic2(t *testing.T) {";
"";
"	defer panicChecker(t, BufferUnderreadError)";
"";
"	buf := NewBuffer([]byte{0x00, 0x00, 0x00, 0x00, 0x00, 0x00, 0x00, 0x00})";
"";
"	_ = buf.ReadU64BE(-0x01, 1)";
"";
"}";
"";
"func TestBufferReadI16LEPanic1(t *testing.T) {";
"";
"	defer panicChecker(t, BufferOverreadError)";
"";
"	buf := NewBuffer([]byte{0x00, 0x00, 0x00, 0x00})";
"";
"	_ = buf.ReadI16LE(0x04, 1)";
"";
"}";
"";
"func TestBufferReadI16LEPanic2(t *testing.T) {";
"";
"	defer panicChecker(t, BufferUnderreadError)";
"";
"	buf := NewBuffer([]byte{0x00, 0x00, 0x00, 0x00})";
"";
"	_ = buf.ReadI16LE(-0x01, 1)";
"";
"}";
"";
"func TestBufferReadI16BEPanic1(t *testing.T) {";
"";
"	defer panicChecker(t, BufferOverreadError)";
"";
"	buf := NewBuffer([]byte{0x00, 0x00, 0x00, 0x00})";
"";
"	_ = buf.ReadI16BE(0x04, 1)";
"";
"}";
"";
"func TestBufferReadI16BEPanic2(t *testing.T) {";
"";
"	defer panicChecker(t, BufferUnderreadError)";
"";
"	buf := NewBuffer([]byte{0x00, 0x00, 0x00, 0x00})";
"";
"	_ = buf.ReadI16BE(-0x01, 1)";
"";
"}";
"";
"func TestBufferReadI32LEPanic1(t *testing.T) {";
"";
"	defer panicChecker(t, BufferOverreadError)";
"";
"	buf := NewBuffer([]byte{0x00, 0x00, 0x00, 0x00})";
"";
"	_ = buf.ReadI32LE(0x04, 1)";
"";
"}";
"";
"func TestBufferReadI32LEPanic2(t *testing.T) {";
"";
"	defer panicChecker(t, BufferUnderreadError)";
"";
"	buf := NewBuffer([]byte{0x00, 0x00, 0x00, 0x00})";
"";
"	_ = buf.ReadI32LE(-0x01, 1)";
"";
"}";
"";
"func TestBufferReadI32BEPanic1(t *testing.T) {";
"";
"	defer panicChecker(t, BufferOverreadError)";
"";
"	buf := NewBuffer([]byte{0x00, 0x00, 0x00, 0x00})";
"";
"	_ = buf.ReadI32BE(0x04, 1)";
"";
"}";
"";
"func TestBufferReadI32BEPanic2(t *testing.T) {";
"";
"	defer panicChecker(t, BufferUnderreadError)";
"";
"	buf := NewBuffer([]byte{0x00, 0x00, 0x00, 0x00})";
"";
"	_ = buf.ReadI32BE(-0x01, 1)";
"";
"}";
"";
"func TestBufferReadI64LEPanic1(t *testing.T) {";
"";
"	defer panicChecker(t, BufferOverreadError)"].

(** v3/buffer_test.go:2201-2300 *)
Definition v3_buffer_test_22 : list string := [
"";
"	buf := NewBuffer([]byte{0x00, 0x00, 0x00, 0x00})";
"";
"	_ = buf.ReadI64LE(0x04, 1)";
"";
"}";
"";
"func TestBufferReadI64LEPanic2(t *testing.T) {";
"";
"	defer panicChecker(t, BufferUnderreadError)";
"";
"	buf := NewBuffer([]byte{0x00, 0x00, 0x00, 0x00, 0x00, 0x00, 0x00, 0x00})";
"";
"	_ = buf.ReadI64LE(-0x01, 1)";
"";
"}";
"";
"func TestBufferReadI64BEPanic1(t *testing.T) {";
"";
"	defer panicChecker(t, BufferOverreadError)";
"";
"	buf := NewBuffer([]byte{0x00, 0x00, 0x00, 0x00})";
"";
"	_ = buf.ReadI64BE(0x04, 1)";
"";
"}";
"";
"func TestBufferReadI64BEPanic2(t *testing.T) {";
"";
"	defer panicChecker(t, BufferUnderreadError)";
"";
"	buf := NewBuffer([]byte{0x00, 0x00, 0x00, 0x00, 0x00, 0x00, 0x00, 0x00})";
"";
"	_ = buf.ReadI64BE(-0x01, 1)";
"";
"}";
"";
"func TestBufferReadF32LEPanic1(t *testing.T) {";
"";
"	defer panicChecker(t, BufferOverreadError)";
"";
"	buf := NewBuffer([]byte{0x00, 0x00, 0x00, 0x00})";
"";
"	_ = buf.ReadF32LE(0x04, 1)";
"";
"}";
"";
"func TestBufferReadF32LEPanic2(t *testing.T) {";
"";
"	defer panicChecker(t, BufferUnderreadError)";
"";
"	buf := NewBuffer([]byte{0x00, 0x00, 0x00, 0x00})";
"";
"	_ = buf.ReadF32LE(-0x01, 1)";
"";
"}";
"";
"func TestBufferReadF32BEPanic1(t *testing.T) {";
"";
"	defer panicChecker(t, BufferOverreadError)";
"";
"	buf := NewBuffer([]byte{0x00, 0x00, 0x00, 0x00})";
"";
"	_ = buf.ReadF32BE(0x04, 1)";
"";
"}";
"";
"func TestBufferReadF32BEPanic2(t *testing.T) {";
"";
"	defer panicChecker(t, BufferUnderreadError)";
"";
"	buf := NewBuffer([]byte{0x00, 0x00, 0x00, 0x00})";
"";
"	_ = buf.ReadF32BE(-0x01, 1)";
"";
"}";
"";
"func TestBufferReadF64LEPanic1(t *testing.T) {";
"";
"	defer panicChecker(t, BufferOverreadError)";
"";
"	buf := NewBuffer([]byte{0x00, 0x00, 0x00, 0x00})";
"";
"	_ = buf.ReadF64LE(0x04, 1)";
"";
"}";
"";
"func TestBufferReadF64LEPanic2(t *testing.T) {";
"";
"	defer panicChecker(t, BufferUnderreadError)";
"";
"	buf := NewBuffer([]byte{0x00, 0x00, 0x00, 0x00, 0x00, 0x00, 0x00, 0x00})";
"";
"	_ = buf.ReadF64LE(-0x01, 1)";
"";
"}";
"";
"func TestBufferReadF64BEPanic1(t *testing.T) {";
"";
"	defer panicChecker(t, BufferOverreadError)"].

(** v3/buffer_test.go:2301-2400 *)
Definition v3_buffer_test_23 : list string := [
"";
"	buf := NewBuffer([]byte{0x00, 0x00, 0x00, 0x00})";
"";
"	_ = buf.ReadF64BE(0x04, 1)";
"";
"}";
"";
"func TestBufferReadF64BEPanic2(t *testing.T) {";
"";
"	defer panicChecker(t, BufferUnderreadError)";
"";
"	buf := NewBuffer([]byte{0x00, 0x00, 0x00, 0x00, 0x00, 0x00, 0x00, 0x00})";
"";
"	_ = buf.ReadF64BE(-0x01, 1)";
"";
"}";
"";
"func TestBufferGrowPanic(t *testing.T) {";
"";
"	defer panicChecker(t, BufferInvalidByteCountError)";
"";
"	buf := NewBuffer([]byte{0x00, 0x00})";
"";
"	buf.Grow(-1)";
"";
"}";
"";
"func TestBufferTruncateLeftPanic(t *testing.T) {";
"";
"	defer panicChecker(t, BufferInvalidByteCountError)";
"";
"	buf := NewBuffer([]byte{0x00, 0x00})";
"";
"	buf.TruncateLeft(-1)";
"";
"}";
"";
"func TestBufferTruncateRightPanic(t *testing.T) {";
"";
"	defer panicChecker(t, BufferInvalidByteCountError)";
"";
"	buf := NewBuffer([]byte{0x00, 0x00})";
"";
"	buf.TruncateRight(-1)";
"";
"}";
"";
"/*";
"";
"benchmarks";
"";
"*/";
"";
"func BenchmarkBufferWriteBytes(b *testing.B) {";
"";
"	b.ReportAllocs()";
"";
"	buf := NewBuffer([]byte{0x00, 0x00, 0x00, 0x00})";
"";
"	for n := 0; n < b.N; n++ {";
"";
"		buf.WriteBytes(0x00, []byte{0x01, 0x02})";
"";
"	}";
"";
"}";
"";
"func BenchmarkBufferReadBytes(b *testing.B) {";
"";
"	b.ReportAllocs()";
"";
"	buf := NewBuffer([]byte{0x00, 0x00, 0x00, 0x00})";
"";
"	var out []byte";
"	for n := 0; n < b.N; n++ {";
"";
"		out = buf.ReadBytes(0x00, 2)";
"";
"	}";
"";
"	_ = out";
"";
"}";
"";
"func BenchmarkBufferWriteU32LE(b *testing.B) {";
"";
"	b.ReportAllocs()";
"";
"	buf := NewBuffer([]byte{0x00, 0x00, 0x00, 0x00, 0x00, 0x00, 0x00, 0x00})";
"";
"	for n := 0; n < b.N; n++ {";
"";
"		buf.WriteU32LE(0x00, []uint32{0x01, 0x02})";
"";
"	}";
"";
"}";
"";
"func BenchmarkBufferReadU32LE(b *testing.B) {";
""].

(** v3/buffer_test.go:2401-2485 *)
Definition v3_buffer_test_24 : list string := [
"	b.ReportAllocs()";
"";
"	buf := NewBuffer([]byte{0x00, 0x00, 0x00, 0x00, 0x00, 0x00, 0x00, 0x00})";
"";
"	var out []uint32";
"	for n := 0; n < b.N; n++ {";
"";
"		out = buf.ReadU32LE(0x00, 2)";
"";
"	}";
"";
"	_ = out";
"";
"}";
"";
"func BenchmarkBufferReadBit(b *testing.B) {";
"";
"	b.ReportAllocs()";
"";
"	buf := NewBuffer([]byte{0x00, 0x00, 0x00, 0x00})";
"";
"	for n := 0; n < b.N; n++ {";
"";
"		_ = buf.ReadBit(0x00)";
"";
"	}";
"";
"}";
"";
"func BenchmarkBufferReadBits(b *testing.B) {";
"";
"	b.ReportAllocs()";
"";
"	buf := NewBuffer([]byte{0x00, 0x00, 0x00, 0x00})";
"";
"	for n := 0; n < b.N; n++ {";
"";
"		_ = buf.ReadBits(0x00, 2)";
"";
"	}";
"";
"}";
"";
"func BenchmarkBufferSetBit(b *testing.B) {";
"";
"	b.ReportAllocs()";
"";
"	buf := NewBuffer([]byte{0x00, 0x00, 0x00, 0x00})";
"";
"	for n := 0; n < b.N; n++ {";
"";
"		buf.SetBit(0x00)";
"";
"	}";
"";
"}";
"";
"func BenchmarkBufferClearBit(b *testing.B) {";
"";
"	b.ReportAllocs()";
"";
"	buf := NewBuffer([]byte{0x00, 0x00, 0x00, 0x00})";
"";
"	for n := 0; n < b.N; n++ {";
"";
"		buf.ClearBit(0x00)";
"";
"	}";
"";
"}";
"";
"func BenchmarkBufferGrow(b *testing.B) {";
"";
"	b.ReportAllocs()";
"";
"	buf := NewBuffer()";
"";
"	for n := 0; n < b.N; n++ {";
"";
"		buf.Grow(1)";
"		buf.Reset()";
"";
"	}";
"";
"}"].

(** v3/buffer_test.go *)
Definition v3_buffer_test : list string := (v3_buffer_test_0 ++ v3_buffer_test_1 ++ v3_buffer_test_2 ++ v3_buffer_test_3 ++ v3_buffer_test_4 ++ v3_buffer_test_5 ++ v3_buffer_test_6 ++ v3_buffer_test_7 ++ v3_buffer_test_8 ++ v3_buffer_test_9 ++ v3_buffer_test_10 ++ v3_buffer_test_11 ++ v3_buffer_test_12 ++ v3_buffer_test_13 ++ v3_buffer_test_14 ++ v3_buffer_test_15 ++ v3_buffer_test_16 ++ v3_buffer_test_17 ++ v3_buffer_test_18 ++ v3_buffer_test_19 ++ v3_buffer_test_20 ++ v3_buffer_test_21 ++ v3_buffer_test_22 ++ v3_buffer_test_23 ++ v3_buffer_test_24)%list.

(** v3/minibuf_test.go:1-100 *)
Definition v3_minibuf_test_0 : list string := [
"/*";
"";
"crunch - utilities for taking bytes out of things";
"Copyright (c) 2019-2020 superwhiskers <whiskerdev@protonmail.com>";
"";
"This Source Code Form is subject to the terms of the Mozilla Public";
"License, v. 2.0. If a copy of the MPL was not distributed with this";
"file, You can obtain one at https://mozilla.org/MPL/2.0/.";
"";
"*/";
"";
"package v3";
"";
"import (";
"	""testing""";
"";
"	""github.com/google/go-cmp/cmp""";
")";
"";
"/*";
"";
"utilities";
"";
"*/";
"";
"var MiniBufferComparer = cmp.Comparer(func(x, y *MiniBuffer) bool {";
"";
"	return cmp.Equal(x.buf, y.buf) &&";
"		x.off == y.off &&";
"		x.cap == y.cap &&";
"		x.boff == y.boff &&";
"		x.bcap == y.bcap";
"";
"})";
"";
"/*";
"";
"tests";
"";
"*/";
"";
"func TestNewMiniBuffer(t *testing.T) {";
"";
"	var (";
"		expected1 = &MiniBuffer{";
"			buf:  []byte{0x00, 0x00, 0x00, 0x00},";
"			off:  0x00,";
"			cap:  4,";
"			boff: 0x00,";
"			bcap: 32,";
"		}";
"		expected2 = &MiniBuffer{";
"			buf:  []byte{},";
"			off:  0x00,";
"			cap:  0,";
"			boff: 0x00,";
"			bcap: 0,";
"		}";
"		expected3 = &MiniBuffer{";
"			buf:  []byte{0x00, 0x00, 0x00, 0x00, 0x00, 0x00, 0x00, 0x00},";
"			off:  0x00,";
"			cap:  8,";
"			boff: 0x00,";
"			bcap: 64,";
"		}";
"	)";
"";
"	out := &MiniBuffer{}";
"";
"	NewMiniBuffer(&out, []byte{0x00, 0x00, 0x00, 0x00})";
"	if !cmp.Equal(expected1, out, MiniBufferComparer) {";
"";
"		t.Fatalf(""expected minibuffer does not match the one gotten (got %#v, expected %#v)"", out, expected1)";
"";
"	}";
"";
"	NewMiniBuffer(&out)";
"	if !cmp.Equal(expected2, out, MiniBufferComparer) {";
"";
"		t.Fatalf(""expected minibuffer does not match the one gotten (got %#v, expected %#v)"", out, expected2)";
"";
"	}";
"";
"	NewMiniBuffer(&out, []byte{0x00, 0x00, 0x00, 0x00}, []byte{0x00, 0x00, 0x00, 0x00})";
"	if !cmp.Equal(expected3, out, MiniBufferComparer) {";
"";
"		t.Fatalf(""expected minibuffer does not match the one gotten (got %#v, expected %#v)"", out, expected3)";
"";
"	}";
"";
"}";
"";
"func TestMiniBufferBytes(t *testing.T) {";
"";
"	var expected = []byte{0x01, 0x02, 0x03, 0x04}";
"";
"	buf := &MiniBuffer{}";
"	NewMiniBuffer(&buf, []byte{0x01, 0x02, 0x03, 0x04})";
"";
"	out := []byte{}"].

(** v3/minibuf_test.go:101-200 *)
Definition v3_minibuf_test_1 : list string := [
"	buf.Bytes(&out)";
"	if !cmp.Equal(expected, out) {";
"";
"		t.Fatalf(""expected byte array does not match the one gotten (got %#v, expected %#v)"", out, expected)";
"";
"	}";
"";
"}";
"";
"func TestMiniBufferByteCapacity(t *testing.T) {";
"";
"	var expected int64 = 4";
"";
"	buf := &MiniBuffer{}";
"	NewMiniBuffer(&buf, []byte{0x00, 0x00, 0x00, 0x00})";
"";
"	var out int64";
"	buf.ByteCapacity(&out)";
"	if expected != out {";
"";
"		t.Fatalf(""expected int64 does not match the one gotten (got %d, expected %d)"", out, expected)";
"";
"	}";
"";
"}";
"";
"func TestMiniBufferBitCapacity(t *testing.T) {";
"";
"	var expected int64 = 32";
"";
"	buf := &MiniBuffer{}";
"	NewMiniBuffer(&buf, []byte{0x00, 0x00, 0x00, 0x00})";
"";
"	var out int64";
"	buf.BitCapacity(&out)";
"	if expected != out {";
"";
"		t.Fatalf(""expected int64 does not match the one gotten (got %d, expected %d)"", out, expected)";
"";
"	}";
"";
"}";
"";
"func TestMiniBufferByteOffset(t *testing.T) {";
"";
"	var expected int64 = 0x02";
"";
"	buf := &MiniBuffer{}";
"	NewMiniBuffer(&buf, []byte{0x00, 0x00, 0x00, 0x00})";
"";
"	buf.SeekByte(0x02, false)";
"";
"	var out int64";
"	buf.ByteOffset(&out)";
"	if expected != out {";
"";
"		t.Fatalf(""expected int64 does not match the one gotten (got %d, expected %d)"", out, expected)";
"";
"	}";
"";
"}";
"";
"func TestMiniBufferBitOffset(t *testing.T) {";
"";
"	var expected int64 = 0x0f";
"";
"	buf := &MiniBuffer{}";
"	NewMiniBuffer(&buf, []byte{0x00, 0x00, 0x00, 0x00})";
"";
"	buf.SeekBit(0x0f, false)";
"";
"	var out int64";
"	buf.BitOffset(&out)";
"	if expected != out {";
"";
"		t.Fatalf(""expected int64 does not match the one gotten (got %d, expected %d)"", out, expected)";
"";
"	}";
"";
"}";
"";
"func TestMiniBufferRefresh(t *testing.T) {";
"";
"	var (";
"		expected1 int64 = 4";
"		expected2 int64 = 32";
"	)";
"";
"	buf := &MiniBuffer{}";
"	NewMiniBuffer(&buf, []byte{0x00, 0x00, 0x00, 0x00})";
"";
"	buf.Refresh()";
"";
"	if expected1 != buf.cap || expected2 != buf.bcap {";
"";
"		t.Fatalf(""expected int64(s) do not match the ones gotten (got %d and %d, expected %d and %d)"", buf.cap, buf.bcap, expected1, expected2)";
"";
"	}";
"";
"}"].

(** v3/minibuf_test.go:201-300 *)
Definition v3_minibuf_test_2 : list string := [
"";
"func TestMiniBufferReset(t *testing.T) {";
"";
"	var expected = []byte{}";
"";
"	buf := &MiniBuffer{}";
"	NewMiniBuffer(&buf, []byte{0x00, 0x00, 0x00, 0x00})";
"";
"	buf.Reset()";
"";
"	if !cmp.Equal(expected, buf.buf) {";
"";
"		t.Fatalf(""expected byte array does not match the one gotten (got %#v, expected %#v)"", buf.buf, expected)";
"";
"	}";
"";
"}";
"";
"func TestMiniBufferTruncateLeft(t *testing.T) {";
"";
"	var (";
"		expected1 byte  = 0x02";
"		expected2 int64 = 1";
"	)";
"";
"	buf := &MiniBuffer{}";
"	NewMiniBuffer(&buf, []byte{0x01, 0x02})";
"";
"	buf.TruncateLeft(1)";
"";
"	var out1 []byte";
"	buf.ReadBytes(&out1, 0x00, 1)";
"	if expected1 != out1[0] {";
"";
"		t.Fatalf(""expected byte does not match the one gotten (got %d, expected %d)"", out1, expected1)";
"";
"	}";
"";
"	var out2 int64";
"	buf.ByteCapacity(&out2)";
"	if expected2 != out2 {";
"";
"		t.Fatalf(""expected int64 does not match the one gotten (got %d, expected %d)"", out2, expected2)";
"";
"	}";
"";
"}";
"";
"func TestMiniBufferTruncateRight(t *testing.T) {";
"";
"	var (";
"		expected1 byte  = 0x01";
"		expected2 int64 = 1";
"	)";
"";
"	buf := &MiniBuffer{}";
"	NewMiniBuffer(&buf, []byte{0x01, 0x02})";
"";
"	buf.TruncateRight(1)";
"";
"	var out1 []byte";
"	buf.ReadBytes(&out1, 0x00, 1)";
"	if expected1 != out1[0] {";
"";
"		t.Fatalf(""expected byte does not match the one gotten (got %d, expected %d)"", out1, expected1)";
"";
"	}";
"";
"	var out2 int64";
"	buf.ByteCapacity(&out2)";
"	if expected2 != out2 {";
"";
"		t.Fatalf(""expected int64 does not match the one gotten (got %d, expected %d)"", out2, expected2)";
"";
"	}";
"";
"}";
"";
"func TestMiniBufferGrow(t *testing.T) {";
"";
"	var expected int64 = 4";
"";
"	buf := &MiniBuffer{}";
"	NewMiniBuffer(&buf, []byte{0x00, 0x00})";
"";
"	buf.Grow(2)";
"";
"	var out int64";
"	buf.ByteCapacity(&out)";
"	if expected != out {";
"";
"		t.Fatalf(""expected int64 does not match the one gotten (got %d, expected %d)"", out, expected)";
"";
"	}";
"";
"}";
"";
"func TestMiniBufferGrow2(t *testing.T) {";
"";
"	var expected int64 = 4"].

(** v3/minibuf_test.go:301-400 *)
Definition v3_minibuf_test_3 : list string := [
"";
"	buf := &MiniBuffer{}";
"	NewMiniBuffer(&buf, make([]byte, 2, 4))";
"";
"	buf.Grow(2)";
"";
"	var out int64";
"	buf.ByteCapacity(&out)";
"	if expected != out {";
"";
"		t.Fatalf(""expected int64 does not match the one gotten (got %d, expected %d)"", out, expected)";
"";
"	}";
"";
"}";
"";
"func TestMiniBufferSeekByte(t *testing.T) {";
"";
"	var expected int64 = 0x04";
"";
"	buf := &MiniBuffer{}";
"	NewMiniBuffer(&buf, []byte{0x00, 0x00, 0x00, 0x00})";
"";
"	buf.SeekByte(2, true)";
"	buf.SeekByte(2, true)";
"";
"	var out int64";
"	buf.ByteOffset(&out)";
"	if expected != out {";
"";
"		t.Fatalf(""expected int64 does not match the one gotten (got %d, expected %d)"", out, expected)";
"";
"	}";
"";
"}";
"";
"func TestMiniBufferSeekBit(t *testing.T) {";
"";
"	var expected int64 = 0x20";
"";
"	buf := &MiniBuffer{}";
"	NewMiniBuffer(&buf, []byte{0x00, 0x00, 0x00, 0x00})";
"";
"	buf.SeekBit(16, true)";
"	buf.SeekBit(16, true)";
"";
"	var out int64";
"	buf.BitOffset(&out)";
"	if expected != out {";
"";
"		t.Fatalf(""expected int64 does not match the one gotten (got %d, expected %d)"", out, expected)";
"";
"	}";
"";
"}";
"";
"func TestMiniBufferAlignBit(t *testing.T) {";
"";
"	var expected int64 = 0x20";
"";
"	buf := &MiniBuffer{}";
"	NewMiniBuffer(&buf, []byte{0x00, 0x00, 0x00, 0x00})";
"";
"	buf.SeekByte(0x04, false)";
"	buf.AlignBit()";
"";
"	var out int64";
"	buf.BitOffset(&out)";
"	if expected != out {";
"";
"		t.Fatalf(""expected int64 does not match the one gotten (got %d, expected %d)"", out, expected)";
"";
"	}";
"";
"}";
"";
"func TestMiniBufferAlignByte(t *testing.T) {";
"";
"	var expected int64 = 0x04";
"";
"	buf := &MiniBuffer{}";
"	NewMiniBuffer(&buf, []byte{0x00, 0x00, 0x00, 0x00})";
"";
"	buf.SeekBit(0x20, false)";
"	buf.AlignByte()";
"";
"	var out int64";
"	buf.ByteOffset(&out)";
"	if expected != out {";
"";
"		t.Fatalf(""expected int64 does not match the one gotten (got %d, expected %d)"", out, expected)";
"";
"	}";
"";
"}";
"";
"func TestMiniBufferAfterByte(t *testing.T) {";
"";
"	var expected int64 = 2";
""].

(** v3/minibuf_test.go:401-500 *)
Definition v3_minibuf_test_4 : list string := [
"	buf := &MiniBuffer{}";
"	NewMiniBuffer(&buf, []byte{0x00, 0x00, 0x00, 0x00})";
"";
"	var out int64";
"";
"	buf.SeekByte(0x01, false)";
"	buf.AfterByte(&out)";
"";
"	if expected != out {";
"";
"		t.Fatalf(""expected int64 does not match the one gotten (got %d, expected %d)"", out, expected)";
"";
"	}";
"";
"	buf.AfterByte(&out, 0x01)";
"";
"	if expected != out {";
"";
"		t.Fatalf(""expected int64 does not match the one gotten (got %d, expected %d)"", out, expected)";
"";
"	}";
"";
"}";
"";
"func TestMiniBufferAfterBit(t *testing.T) {";
"";
"	var expected int64 = 16";
"";
"	buf := &MiniBuffer{}";
"	NewMiniBuffer(&buf, []byte{0x00, 0x00, 0x00, 0x00})";
"";
"	var out int64";
"";
"	buf.SeekBit(0x0f, false)";
"	buf.AfterBit(&out)";
"";
"	if expected != out {";
"";
"		t.Fatalf(""expected int64 does not match the one gotten (got %d, expected %d)"", out, expected)";
"";
"	}";
"";
"	buf.AfterBit(&out, 0x0f)";
"";
"	if expected != out {";
"";
"		t.Fatalf(""expected int64 does not match the one gotten (got %d, expected %d)"", out, expected)";
"";
"	}";
"";
"}";
"";
"func TestMiniBufferReadBytes(t *testing.T) {";
"";
"	var expected = []byte{0x03, 0x04}";
"";
"	buf := &MiniBuffer{}";
"	NewMiniBuffer(&buf, []byte{0x01, 0x02, 0x03, 0x04})";
"";
"	var out []byte";
"	buf.ReadBytes(&out, 0x02, 2)";
"	if !cmp.Equal(expected, out) {";
"";
"		t.Fatalf(""expected byte array does not match the one gotten (got %#v, expected %#v)"", out, expected)";
"";
"	}";
"";
"}";
"";
"func TestMiniBufferReadBytesNext(t *testing.T) {";
"";
"	var expected = []byte{0x01, 0x02}";
"";
"	buf := &MiniBuffer{}";
"	NewMiniBuffer(&buf, []byte{0x01, 0x02, 0x03, 0x04})";
"";
"	var out []byte";
"	buf.ReadBytesNext(&out, 2)";
"	if !cmp.Equal(expected, out) {";
"";
"		t.Fatalf(""expected byte array does not match the one gotten (got %#v, expected %#v)"", out, expected)";
"";
"	}";
"";
"}";
"";
"//gocyclo:ignore";
"func TestMiniBufferReadSNEN(t *testing.T) {";
"";
"	var (";
"		expectedReadu16le = []uint16{0x01, 0x00}";
"		expectedReadu16be = []uint16{0x100, 0x00}";
"		expectedReadu32le = []uint32{0x01, 0x00}";
"		expectedReadu32be = []uint32{0x1000000, 0x00}";
"		expectedReadu64le = []uint64{0x01, 0x01}";
"		expectedReadu64be = []uint64{0x100000000000000, 0x100000000000000}";
"";
"		expectedReadi16le = []int16{0x01, 0x00}";
"		expectedReadi16be = []int16{0x100, 0x00}";
"		expectedReadi32le = []int32{0x01, 0x00}"].

(** v3/minibuf_test.go:501-600 *)
Definition v3_minibuf_test_5 : list string := [
"		expectedReadi32be = []int32{0x1000000, 0x00}";
"		expectedReadi64le = []int64{0x01, 0x01}";
"		expectedReadi64be = []int64{0x100000000000000, 0x100000000000000}";
"";
"		off = int64(0)";
"";
"		out1 = []uint16{0x00, 0x00}";
"		out2 = []uint32{0x00, 0x00}";
"		out3 = []uint64{0x00, 0x00}";
"";
"		out4 = []int16{0x00, 0x00}";
"		out5 = []int32{0x00, 0x00}";
"		out6 = []int64{0x00, 0x00}";
"";
"		out7 = []float32{0x00, 0x00}";
"		out8 = []float64{0x00, 0x00}";
"	)";
"";
"	buf := &MiniBuffer{}";
"	NewMiniBuffer(&buf, []byte{0x01, 0x00, 0x00, 0x00, 0x00, 0x00, 0x00, 0x00, 0x01, 0x00, 0x00, 0x00, 0x00, 0x00, 0x00, 0x00})";
"";
"	//";
"	// u16le";
"	//";
"";
"	buf.ReadU16LENext(&out1, 2)";
"	if !cmp.Equal(out1, expectedReadu16le) {";
"";
"		t.Fatalf(""expected uint16 array does not match the one gotten (got %#v, expected %#v)"", out1, expectedReadu16le)";
"";
"	}";
"";
"	buf.ByteOffset(&off)";
"	if off != 4 {";
"";
"		t.Fatalf(""incorrect offset: %d"", off)";
"";
"	}";
"	buf.SeekByte(0x00, false)";
"";
"	//";
"	// u16be";
"	//";
"";
"	buf.ReadU16BENext(&out1, 2)";
"	if !cmp.Equal(out1, expectedReadu16be) {";
"";
"		t.Fatalf(""expected uint16 array does not match the one gotten (got %#v, expected %#v)"", out1, expectedReadu16be)";
"";
"	}";
"";
"	buf.ByteOffset(&off)";
"	if off != 4 {";
"";
"		t.Fatalf(""incorrect offset: %d"", off)";
"";
"	}";
"	buf.SeekByte(0x00, false)";
"";
"	//";
"	// u32le";
"	//";
"";
"	buf.ReadU32LENext(&out2, 2)";
"	if !cmp.Equal(out2, expectedReadu32le) {";
"";
"		t.Fatalf(""expected uint32 array does not match the one gotten (got %#v, expected %#v)"", out2, expectedReadu32le)";
"";
"	}";
"";
"	buf.ByteOffset(&off)";
"	if off != 8 {";
"";
"		t.Fatalf(""incorrect offset: %d"", off)";
"";
"	}";
"	buf.SeekByte(0x00, false)";
"";
"	//";
"	// u32be";
"	//";
"";
"	buf.ReadU32BENext(&out2, 2)";
"	if !cmp.Equal(out2, expectedReadu32be) {";
"";
"		t.Fatalf(""expected uint32 array does not match the one gotten (got %#v, expected %#v)"", out2, expectedReadu32be)";
"";
"	}";
"";
"	buf.ByteOffset(&off)";
"	if off != 8 {";
"";
"		t.Fatalf(""incorrect offset: %d"", off)";
"";
"	}";
"	buf.SeekByte(0x00, false)";
"";
"	//";
"	// u64le";
"	//"].

(** v3/minibuf_test.go:601-700 *)
Definition v3_minibuf_test_6 : list string := [
"";
"	buf.ReadU64LENext(&out3, 2)";
"	if !cmp.Equal(out3, expectedReadu64le) {";
"";
"		t.Fatalf(""expected uint64 array does not match the one gotten (got %#v, expected %#v)"", out3, expectedReadu64le)";
"";
"	}";
"";
"	buf.ByteOffset(&off)";
"	if off != 16 {";
"";
"		t.Fatalf(""incorrect offset: %d"", off)";
"";
"	}";
"	buf.SeekByte(0x00, false)";
"";
"	//";
"	// u64be";
"	//";
"";
"	buf.ReadU64BENext(&out3, 2)";
"	if !cmp.Equal(out3, expectedReadu64be) {";
"";
"		t.Fatalf(""expected uint64 array does not match the one gotten (got %#v, expected %#v)"", out3, expectedReadu64be)";
"";
"	}";
"";
"	buf.ByteOffset(&off)";
"	if off != 16 {";
"";
"		t.Fatalf(""incorrect offset: %d"", off)";
"";
"	}";
"	buf.SeekByte(0x00, false)";
"";
"	//";
"	// i16le";
"	//";
"";
"	buf.ReadI16LENext(&out4, 2)";
"	if !cmp.Equal(out4, expectedReadi16le) {";
"";
"		t.Fatalf(""expected int16 array does not match the one gotten (got %#v, expected %#v)"", out4, expectedReadi16le)";
"";
"	}";
"";
"	buf.ByteOffset(&off)";
"	if off != 4 {";
"";
"		t.Fatalf(""incorrect offset: %d"", off)";
"";
"	}";
"	buf.SeekByte(0x00, false)";
"";
"	//";
"	// i16be";
"	//";
"";
"	buf.ReadI16BENext(&out4, 2)";
"	if !cmp.Equal(out4, expectedReadi16be) {";
"";
"		t.Fatalf(""expected int16 array does not match the one gotten (got %#v, expected %#v)"", out4, expectedReadi16be)";
"";
"	}";
"";
"	buf.ByteOffset(&off)";
"	if off != 4 {";
"";
"		t.Fatalf(""incorrect offset: %d"", off)";
"";
"	}";
"	buf.SeekByte(0x00, false)";
"";
"	//";
"	// i32le";
"	//";
"";
"	buf.ReadI32LENext(&out5, 2)";
"	if !cmp.Equal(out5, expectedReadi32le) {";
"";
"		t.Fatalf(""expected int32 array does not match the one gotten (got %#v, expected %#v)"", out5, expectedReadi32le)";
"";
"	}";
"";
"	buf.ByteOffset(&off)";
"	if off != 8 {";
"";
"		t.Fatalf(""incorrect offset: %d"", off)";
"";
"	}";
"	buf.SeekByte(0x00, false)";
"";
"	//";
"	// i32be";
"	//";
"";
"	buf.ReadI32BENext(&out5, 2)";
"	if !cmp.Equal(out5, expectedReadi32be) {";
"";
"		t.Fatalf(""expected int32 array does not match the one gotten (got %#v, expected %#v)"", out5, expectedReadi32be)"].

(** v3/minibuf_test.go:701-800 *)
Definition v3_minibuf_test_7 : list string := [
"";
"	}";
"";
"	buf.ByteOffset(&off)";
"	if off != 8 {";
"";
"		t.Fatalf(""incorrect offset: %d"", off)";
"";
"	}";
"	buf.SeekByte(0x00, false)";
"";
"	//";
"	// i64le";
"	//";
"";
"	buf.ReadI64LENext(&out6, 2)";
"	if !cmp.Equal(out6, expectedReadi64le) {";
"";
"		t.Fatalf(""expected int64 array does not match the one gotten (got %#v, expected %#v)"", out6, expectedReadi64le)";
"";
"	}";
"";
"	buf.ByteOffset(&off)";
"	if off != 16 {";
"";
"		t.Fatalf(""incorrect offset: %d"", off)";
"";
"	}";
"	buf.SeekByte(0x00, false)";
"";
"	//";
"	// i64be";
"	//";
"";
"	buf.ReadI64BENext(&out6, 2)";
"	if !cmp.Equal(out6, expectedReadi64be) {";
"";
"		t.Fatalf(""expected int64 array does not match the one gotten (got %#v, expected %#v)"", out6, expectedReadi64be)";
"";
"	}";
"";
"	buf.ByteOffset(&off)";
"	if off != 16 {";
"";
"		t.Fatalf(""incorrect offset: %d"", off)";
"";
"	}";
"	buf.SeekByte(0x00, false)";
"";
"	//";
"	// floats (we use a slightly different buffer to have higher confidence here)";
"	//";
"";
"	var (";
"		expectedReadf32le = []float32{-45.318115, -8.536945e+32}";
"		expectedReadf32be = []float32{-3.081406, -1.0854726e-29}";
"		expectedReadf64le = []float64{-1.498274907009045e+261, 5.278146837874356e-99}";
"		expectedReadf64be = []float64{-42.42, 3.621}";
"	)";
"";
"	NewMiniBuffer(&buf, []byte{0xc0, 0x45, 0x35, 0xc2, 0x8f, 0x5c, 0x28, 0xf6, 0x40, 0xc, 0xf7, 0xce, 0xd9, 0x16, 0x87, 0x2b})";
"";
"	//";
"	// f32le";
"	//";
"";
"	buf.ReadF32LENext(&out7, 2)";
"	if !cmp.Equal(out7, expectedReadf32le) {";
"";
"		t.Fatalf(""expected float32 array does not match the one gotten (got %#v, expected %#v)"", out7, expectedReadf32le)";
"";
"	}";
"	buf.ByteOffset(&off)";
"	if off != 8 {";
"";
"		t.Fatalf(""incorrect offset: %d"", off)";
"";
"	}";
"	buf.SeekByte(0x00, false)";
"";
"	//";
"	// f32be";
"	//";
"";
"	buf.ReadF32BENext(&out7, 2)";
"	if !cmp.Equal(out7, expectedReadf32be) {";
"";
"		t.Fatalf(""expected float32 array does not match the one gotten (got %#v, expected %#v)"", out7, expectedReadf32be)";
"";
"	}";
"	buf.ByteOffset(&off)";
"	if off != 8 {";
"";
"		t.Fatalf(""incorrect offset: %d"", off)";
"";
"	}";
"	buf.SeekByte(0x00, false)";
"";
"	//";
"	// f64le"].

(** v3/minibuf_test.go:801-900 *)
Definition v3_minibuf_test_8 : list string := [
"	//";
"";
"	buf.ReadF64LENext(&out8, 2)";
"	if !cmp.Equal(out8, expectedReadf64le) {";
"";
"		t.Fatalf(""expected float64 array does not match the one gotten (got %#v, expected %#v)"", out8, expectedReadf64le)";
"";
"	}";
"	buf.ByteOffset(&off)";
"	if off != 16 {";
"";
"		t.Fatalf(""incorrect offset: %d"", off)";
"";
"	}";
"	buf.SeekByte(0x00, false)";
"";
"	//";
"	// f64be";
"	//";
"";
"	buf.ReadF64BENext(&out8, 2)";
"	if !cmp.Equal(out8, expectedReadf64be) {";
"";
"		t.Fatalf(""expected float64 array does not match the one gotten (got %#v, expected %#v)"", out8, expectedReadf64be)";
"";
"	}";
"	buf.ByteOffset(&off)";
"	if off != 16 {";
"";
"		t.Fatalf(""incorrect offset: %d"", off)";
"";
"	}";
"	buf.SeekByte(0x00, false)";
"";
"}";
"";
"func TestMiniBufferWriteBytes(t *testing.T) {";
"";
"	var expected = []byte{0x01, 0x02}";
"";
"	buf := &MiniBuffer{}";
"	NewMiniBuffer(&buf, []byte{0x00, 0x00, 0x00, 0x00})";
"";
"	buf.WriteBytes(0x02, []byte{0x01, 0x02})";
"";
"	var out []byte";
"	buf.ReadBytes(&out, 0x02, 2)";
"	if !cmp.Equal(expected, out) {";
"";
"		t.Fatalf(""expected byte array does not match the one gotten (got %#v, expected %#v)"", out, expected)";
"";
"	}";
"";
"}";
"";
"func TestMiniBufferWriteBytesNext(t *testing.T) {";
"";
"	var expected = []byte{0x01, 0x02}";
"";
"	buf := &MiniBuffer{}";
"	NewMiniBuffer(&buf, []byte{0x00, 0x00, 0x00, 0x00})";
"";
"	buf.WriteBytesNext([]byte{0x01, 0x02})";
"";
"	var out []byte";
"	buf.ReadBytes(&out, 0x00, 2)";
"	if !cmp.Equal(expected, out) {";
"";
"		t.Fatalf(""expected byte array does not match the one gotten (got %#v, expected %#v)"", out, expected)";
"";
"	}";
"";
"}";
"";
"//gocyclo:ignore";
"func TestMiniBufferWriteSNEN(t *testing.T) {";
"";
"	var (";
"		out           = []byte{0x00}";
"		off           = int64(0)";
"		expected byte = 0x01";
"	)";
"";
"	buf := &MiniBuffer{}";
"	NewMiniBuffer(&buf, []byte{0x00, 0x00, 0x00, 0x00, 0x00, 0x00, 0x00, 0x00, 0x00, 0x00, 0x00, 0x00, 0x00, 0x00, 0x00, 0x00})";
"";
"	//";
"	// u16le";
"	//";
"";
"	buf.WriteU16LENext([]uint16{0x01, 0x01})";
"";
"	buf.ReadBytes(&out, 0x00, 1)";
"	if expected != out[0] {";
"";
"		t.Fatalf(""expected byte does not match the one gotten (got %d, expected %d)"", out[0], expected)";
"";
"	}";
"";
"	buf.ReadBytes(&out, 0x02, 1)"].

(** v3/minibuf_test.go:901-1000 *)
Definition v3_minibuf_test_9 : list string := [
"	if expected != out[0] {";
"";
"		t.Fatalf(""expected byte does not match the one gotten (got %d, expected %d)"", out[0], expected)";
"";
"	}";
"";
"	buf.ByteOffset(&off)";
"	if off != 4 {";
"";
"		t.Fatalf(""incorrect offset: %d"", off)";
"";
"	}";
"	buf.SeekByte(0x00, false)";
"";
"	//";
"	// u16be";
"	//";
"";
"	buf.WriteU16BENext([]uint16{0x100, 0x100})";
"";
"	buf.ReadBytes(&out, 0x00, 1)";
"	if expected != out[0] {";
"";
"		t.Fatalf(""expected byte does not match the one gotten (got %d, expected %d)"", out[0], expected)";
"";
"	}";
"";
"	buf.ReadBytes(&out, 0x02, 1)";
"	if expected != out[0] {";
"";
"		t.Fatalf(""expected byte does not match the one gotten (got %d, expected %d)"", out[0], expected)";
"";
"	}";
"";
"	buf.ByteOffset(&off)";
"	if off != 4 {";
"";
"		t.Fatalf(""incorrect offset: %d"", off)";
"";
"	}";
"	buf.SeekByte(0x00, false)";
"";
"	//";
"	// u32le";
"	//";
"";
"	buf.WriteU32LENext([]uint32{0x01, 0x01})";
"";
"	buf.ReadBytes(&out, 0x00, 1)";
"	if expected != out[0] {";
"";
"		t.Fatalf(""expected byte does not match the one gotten (got %d, expected %d)"", out[0], expected)";
"";
"	}";
"";
"	buf.ReadBytes(&out, 0x04, 1)";
"	if expected != out[0] {";
"";
"		t.Fatalf(""expected byte does not match the one gotten (got %d, expected %d)"", out[0], expected)";
"";
"	}";
"";
"	buf.ByteOffset(&off)";
"	if off != 8 {";
"";
"		t.Fatalf(""incorrect offset: %d"", off)";
"";
"	}";
"	buf.SeekByte(0x00, false)";
"";
"	//";
"	// u32be";
"	//";
"";
"	buf.WriteU32BENext([]uint32{0x1000000, 0x1000000})";
"";
"	buf.ReadBytes(&out, 0x00, 1)";
"	if expected != out[0] {";
"";
"		t.Fatalf(""expected byte does not match the one gotten (got %d, expected %d)"", out[0], expected)";
"";
"	}";
"";
"	buf.ReadBytes(&out, 0x04, 1)";
"	if expected != out[0] {";
"";
"		t.Fatalf(""expected byte does not match the one gotten (got %d, expected %d)"", out[0], expected)";
"";
"	}";
"";
"	buf.ByteOffset(&off)";
"	if off != 8 {";
"";
"		t.Fatalf(""incorrect offset: %d"", off)";
"";
"	}";
"	buf.SeekByte(0x00, false)";
"";
"	//";
"	// u64le"].

(** v3/minibuf_test.go:1001-1100 *)
Definition v3_minibuf_test_10 : list string := [
"	//";
"";
"	buf.WriteU64LENext([]uint64{0x01, 0x01})";
"";
"	buf.ReadBytes(&out, 0x00, 1)";
"	if expected != out[0] {";
"";
"		t.Fatalf(""expected byte does not match the one gotten (got %d, expected %d)"", out[0], expected)";
"";
"	}";
"";
"	buf.ReadBytes(&out, 0x08, 1)";
"	if expected != out[0] {";
"";
"		t.Fatalf(""expected byte does not match the one gotten (got %d, expected %d)"", out[0], expected)";
"";
"	}";
"";
"	buf.ByteOffset(&off)";
"	if off != 16 {";
"";
"		t.Fatalf(""incorrect offset: %d"", off)";
"";
"	}";
"	buf.SeekByte(0x00, false)";
"";
"	//";
"	// u64be";
"	//";
"";
"	buf.WriteU64BENext([]uint64{0x100000000000000, 0x100000000000000})";
"";
"	buf.ReadBytes(&out, 0x00, 1)";
"	if expected != out[0] {";
"";
"		t.Fatalf(""expected byte does not match the one gotten (got %d, expected %d)"", out[0], expected)";
"";
"	}";
"";
"	buf.ReadBytes(&out, 0x08, 1)";
"	if expected != out[0] {";
"";
"		t.Fatalf(""expected byte does not match the one gotten (got %d, expected %d)"", out[0], expected)";
"";
"	}";
"";
"	buf.ByteOffset(&off)";
"	if off != 16 {";
"";
"		t.Fatalf(""incorrect offset: %d"", off)";
"";
"	}";
"	buf.SeekByte(0x00, false)";
"";
"	//";
"	// i16le";
"	//";
"";
"	buf.WriteI16LENext([]int16{0x01, 0x01})";
"";
"	buf.ReadBytes(&out, 0x00, 1)";
"	if expected != out[0] {";
"";
"		t.Fatalf(""expected byte does not match the one gotten (got %d, expected %d)"", out[0], expected)";
"";
"	}";
"";
"	buf.ReadBytes(&out, 0x02, 1)";
"	if expected != out[0] {";
"";
"		t.Fatalf(""expected byte does not match the one gotten (got %d, expected %d)"", out[0], expected)";
"";
"	}";
"";
"	buf.ByteOffset(&off)";
"	if off != 4 {";
"";
"		t.Fatalf(""incorrect offset: %d"", off)";
"";
"	}";
"	buf.SeekByte(0x00, false)";
"";
"	//";
"	// i16be";
"	//";
"";
"	buf.WriteI16BENext([]int16{0x100, 0x100})";
"";
"	buf.ReadBytes(&out, 0x00, 1)";
"	if expected != out[0] {";
"";
"		t.Fatalf(""expected byte does not match the one gotten (got %d, expected %d)"", out[0], expected)";
"";
"	}";
"";
"	buf.ReadBytes(&out, 0x02, 1)";
"	if expected != out[0] {";
"";
"		t.Fatalf(""expected byte does not match the one gotten (got %d, expected %d)"", out[0], expected)";
""].

(** v3/minibuf_test.go:1101-1200 *)
Definition v3_minibuf_test_11 : list string := [
"	}";
"";
"	buf.ByteOffset(&off)";
"	if off != 4 {";
"";
"		t.Fatalf(""incorrect offset: %d"", off)";
"";
"	}";
"	buf.SeekByte(0x00, false)";
"";
"	//";
"	// i32le";
"	//";
"";
"	buf.WriteI32LENext([]int32{0x01, 0x01})";
"";
"	buf.ReadBytes(&out, 0x00, 1)";
"	if expected != out[0] {";
"";
"		t.Fatalf(""expected byte does not match the one gotten (got %d, expected %d)"", out[0], expected)";
"";
"	}";
"";
"	buf.ReadBytes(&out, 0x04, 1)";
"	if expected != out[0] {";
"";
"		t.Fatalf(""expected byte does not match the one gotten (got %d, expected %d)"", out[0], expected)";
"";
"	}";
"";
"	buf.ByteOffset(&off)";
"	if off != 8 {";
"";
"		t.Fatalf(""incorrect offset: %d"", off)";
"";
"	}";
"	buf.SeekByte(0x00, false)";
"";
"	//";
"	// i32be";
"	//";
"";
"	buf.WriteI32BENext([]int32{0x1000000, 0x1000000})";
"";
"	buf.ReadBytes(&out, 0x00, 1)";
"	if expected != out[0] {";
"";
"		t.Fatalf(""expected byte does not match the one gotten (got %d, expected %d)"", out[0], expected)";
"";
"	}";
"";
"	buf.ReadBytes(&out, 0x04, 1)";
"	if expected != out[0] {";
"";
"		t.Fatalf(""expected byte does not match the one gotten (got %d, expected %d)"", out[0], expected)";
"";
"	}";
"";
"	buf.ByteOffset(&off)";
"	if off != 8 {";
"";
"		t.Fatalf(""incorrect offset: %d"", off)";
"";
"	}";
"	buf.SeekByte(0x00, false)";
"";
"	//";
"	// i64le";
"	//";
"";
"	buf.WriteI64LENext([]int64{0x01, 0x01})";
"";
"	buf.ReadBytes(&out, 0x00, 1)";
"	if expected != out[0] {";
"";
"		t.Fatalf(""expected byte does not match the one gotten (got %d, expected %d)"", out[0], expected)";
"";
"	}";
"";
"	buf.ReadBytes(&out, 0x08, 1)";
"	if expected != out[0] {";
"";
"		t.Fatalf(""expected byte does not match the one gotten (got %d, expected %d)"", out[0], expected)";
"";
"	}";
"";
"	buf.ByteOffset(&off)";
"	if off != 16 {";
"";
"		t.Fatalf(""incorrect offset: %d"", off)";
"";
"	}";
"	buf.SeekByte(0x00, false)";
"";
"	//";
"	// i64be";
"	//";
"";
"	buf.WriteI64BENext([]int64{0x100000000000000, 0x100000000000000})";
""].

(** v3/minibuf_test.go:1201-1300 *)
Definition v3_minibuf_test_12 : list string := [
"	buf.ReadBytes(&out, 0x00, 1)";
"	if expected != out[0] {";
"";
"		t.Fatalf(""expected byte does not match the one gotten (got %d, expected %d)"", out[0], expected)";
"";
"	}";
"";
"	buf.ReadBytes(&out, 0x08, 1)";
"	if expected != out[0] {";
"";
"		t.Fatalf(""expected byte does not match the one gotten (got %d, expected %d)"", out[0], expected)";
"";
"	}";
"";
"	buf.ByteOffset(&off)";
"	if off != 16 {";
"";
"		t.Fatalf(""incorrect offset: %d"", off)";
"";
"	}";
"	buf.SeekByte(0x00, false)";
"";
"	//";
"	// floats (we use a slightly different expected integer array to have higher confidence here)";
"	//";
"";
"	NewMiniBuffer(&buf, []byte{0x00, 0x00, 0x00, 0x00, 0x00, 0x00, 0x00, 0x00, 0x00, 0x00, 0x00, 0x00, 0x00, 0x00, 0x00, 0x00})";
"";
"	expected2 := []byte{0xc0, 0x45, 0x35, 0xc2, 0x8f, 0x5c, 0x28, 0xf6, 0x40, 0xc, 0xf7, 0xce, 0xd9, 0x16, 0x87, 0x2b}";
"";
"	//";
"	// f32le";
"	//";
"";
"	buf.WriteF32LENext([]float32{-45.318115, -8.536945e+32})";
"";
"	buf.ReadBytes(&out, 0x00, 8)";
"	if !cmp.Equal(expected2[0:8], out) {";
"";
"		t.Fatalf(""expected byte array does not match the one gotten (got %#v, expected %#v)"", out, expected2)";
"";
"	}";
"";
"	buf.ByteOffset(&off)";
"	if off != 8 {";
"";
"		t.Fatalf(""incorrect offset: %d"", off)";
"";
"	}";
"	buf.SeekByte(0x00, false)";
"";
"	//";
"	// f32be";
"	//";
"";
"	buf.WriteF32BENext([]float32{-3.081406, -1.0854726e-29})";
"";
"	buf.ReadBytes(&out, 0x00, 8)";
"	if !cmp.Equal(expected2[0:8], out) {";
"";
"		t.Fatalf(""expected byte array does not match the one gotten (got %#v, expected %#v)"", out, expected2)";
"";
"	}";
"";
"	buf.ByteOffset(&off)";
"	if off != 8 {";
"";
"		t.Fatalf(""incorrect offset: %d"", off)";
"";
"	}";
"	buf.SeekByte(0x00, false)";
"";
"	//";
"	// f64le";
"	//";
"";
"	buf.WriteF64LENext([]float64{-1.498274907009045e+261, 5.278146837874356e-99})";
"";
"	buf.ReadBytes(&out, 0x00, 16)";
"	if !cmp.Equal(expected2, out) {";
"";
"		t.Fatalf(""expected byte array does not match the one gotten (got %#v, expected %#v)"", out, expected2)";
"";
"	}";
"";
"	buf.ByteOffset(&off)";
"	if off != 16 {";
"";
"		t.Fatalf(""incorrect offset: %d"", off)";
"";
"	}";
"	buf.SeekByte(0x00, false)";
"";
"	//";
"	// f64be";
"	//";
"";
"	buf.WriteF64BENext([]float64{-42.42, 3.621})";
"";
"	buf.ReadBytes(&out, 0x00, 16)"].

(** v3/minibuf_test.go:1301-1400 *)
Definition v3_minibuf_test_13 : list string := [
"	if !cmp.Equal(expected2, out) {";
"";
"		t.Fatalf(""expected byte array does not match the one gotten (got %#v, expected %#v)"", out, expected2)";
"";
"	}";
"";
"	buf.ByteOffset(&off)";
"	if off != 16 {";
"";
"		t.Fatalf(""incorrect offset: %d"", off)";
"";
"	}";
"	buf.SeekByte(0x00, false)";
"}";
"";
"func TestMiniBufferReadBit(t *testing.T) {";
"";
"	var expected byte = 1";
"";
"	buf := &MiniBuffer{}";
"	NewMiniBuffer(&buf, []byte{0x01, 0x00, 0x00, 0x00})";
"";
"	var out byte";
"	buf.ReadBit(&out, 0x07)";
"	if expected != out {";
"";
"		t.Fatalf(""expected byte does not match the one gotten (got %d, expected %d)"", out, expected)";
"";
"	}";
"";
"}";
"";
"func TestMiniBufferReadBitNext(t *testing.T) {";
"";
"	var expected byte = 1";
"";
"	buf := &MiniBuffer{}";
"	NewMiniBuffer(&buf, []byte{0xff, 0x00, 0x00, 0x00})";
"";
"	var out byte";
"	buf.ReadBitNext(&out)";
"	if expected != out {";
"";
"		t.Fatalf(""expected byte does not match the one gotten (got %d, expected %d)"", out, expected)";
"";
"	}";
"";
"}";
"";
"func TestMiniBufferReadBits(t *testing.T) {";
"";
"	var expected uint64 = 5";
"";
"	buf := &MiniBuffer{}";
"	NewMiniBuffer(&buf, []byte{0x0d, 0x00, 0x00, 0x00})";
"";
"	var out uint64";
"	buf.ReadBits(&out, 0x05, 3)";
"	if expected != out {";
"";
"		t.Fatalf(""expected uint64 does not match the one gotten (got %d, expected %d)"", out, expected)";
"";
"	}";
"";
"}";
"";
"func TestMiniBufferReadBitsNext(t *testing.T) {";
"";
"	var expected uint64 = 13";
"";
"	buf := &MiniBuffer{}";
"	NewMiniBuffer(&buf, []byte{0x0d, 0x00, 0x00, 0x00})";
"";
"	var out uint64";
"	buf.ReadBitsNext(&out, 8)";
"	if expected != out {";
"";
"		t.Fatalf(""expected uint64 does not match the one gotten (got %d, expected %d)"", out, expected)";
"";
"	}";
"";
"}";
"";
"func TestMiniBufferSetBit(t *testing.T) {";
"";
"	var expected byte = 1";
"";
"	buf := &MiniBuffer{}";
"	NewMiniBuffer(&buf, []byte{0x00, 0x00, 0x00, 0x00})";
"";
"	buf.SetBit(0x00)";
"";
"	var out byte";
"	buf.ReadBit(&out, 0x00)";
"	if expected != out {";
"";
"		t.Fatalf(""expected byte does not match the one gotten (got %d, expected %d)"", out, expected)";
"";
"	}";
""].

(** v3/minibuf_test.go:1401-1500 *)
Definition v3_minibuf_test_14 : list string := [
"}";
"";
"func TestMiniBufferSetBitNext(t *testing.T) {";
"";
"	var expected byte = 1";
"";
"	buf := &MiniBuffer{}";
"	NewMiniBuffer(&buf, []byte{0x00, 0x00, 0x00, 0x00})";
"";
"	buf.SetBitNext()";
"";
"	var out byte";
"	buf.ReadBit(&out, 0x00)";
"	if expected != out {";
"";
"		t.Fatalf(""expected byte does not match the one gotten (got %d, expected %d)"", out, expected)";
"";
"	}";
"";
"}";
"";
"func TestMiniBufferClearBit(t *testing.T) {";
"";
"	var expected byte";
"";
"	buf := &MiniBuffer{}";
"	NewMiniBuffer(&buf, []byte{0x00, 0x00, 0x00, 0x00})";
"";
"	buf.ClearBit(0x00)";
"";
"	var out byte";
"	buf.ReadBit(&out, 0x00)";
"	if expected != out {";
"";
"		t.Fatalf(""expected byte does not match the one gotten (got %d, expected %d)"", out, expected)";
"";
"	}";
"";
"}";
"";
"func TestMiniBufferClearBitNext(t *testing.T) {";
"";
"	var expected byte";
"";
"	buf := &MiniBuffer{}";
"	NewMiniBuffer(&buf, []byte{0x00, 0x00, 0x00, 0x00})";
"";
"	buf.ClearBitNext()";
"";
"	var out byte";
"	buf.ReadBit(&out, 0x00)";
"	if expected != out {";
"";
"		t.Fatalf(""expected byte does not match the one gotten (got %d, expected %d)"", out, expected)";
"";
"	}";
"";
"}";
"";
"func TestMiniBufferSetBits(t *testing.T) {";
"";
"	var expected uint64 = 5";
"";
"	buf := &MiniBuffer{}";
"	NewMiniBuffer(&buf, []byte{0x00, 0x00, 0x00, 0x00})";
"";
"	buf.SetBits(0x06, 5, 3)";
"";
"	var out uint64";
"	buf.ReadBits(&out, 0x06, 3)";
"	if expected != out {";
"";
"		t.Fatalf(""expected uint64 does not match the one gotten (got %d, expected %d)"", out, expected)";
"";
"	}";
"";
"}";
"";
"func TestMiniBufferSetBitsNext(t *testing.T) {";
"";
"	var expected uint64 = 13";
"";
"	buf := &MiniBuffer{}";
"	NewMiniBuffer(&buf, []byte{0x00, 0x00, 0x00, 0x00})";
"";
"	buf.SetBitsNext(13, 8)";
"";
"	var out uint64";
"	buf.ReadBits(&out, 0x00, 8)";
"	if expected != out {";
"";
"		t.Fatalf(""expected uint64 does not match the one gotten (got %d, expected %d)"", out, expected)";
"";
"	}";
"";
"}";
"";
"func TestMiniBufferFlipBit(t *testing.T) {";
"";
"	var expected byte"].

(** v3/minibuf_test.go:1501-1600 *)
Definition v3_minibuf_test_15 : list string := [
"";
"	buf := &MiniBuffer{}";
"	NewMiniBuffer(&buf, []byte{0xff, 0xff, 0xff, 0xff})";
"";
"	buf.FlipBit(0x01)";
"";
"	var out byte";
"	buf.ReadBit(&out, 0x01)";
"	if expected != out {";
"";
"		t.Fatalf(""expected byte does not match the one gotten (got %d, expected %d)"", out, expected)";
"";
"	}";
"";
"}";
"";
"func TestMiniBufferFlipBitNext(t *testing.T) {";
"";
"	var expected byte = 1";
"";
"	buf := &MiniBuffer{}";
"	NewMiniBuffer(&buf, []byte{0x00, 0x00, 0x00, 0x00})";
"";
"	buf.FlipBitNext()";
"";
"	var out byte";
"	buf.ReadBit(&out, 0x00)";
"	if expected != out {";
"";
"		t.Fatalf(""expected byte does not match the one gotten (got %d, expected %d)"", out, expected)";
"";
"	}";
"";
"}";
"";
"func TestMiniBufferClearAllBits(t *testing.T) {";
"";
"	var expected = []byte{0x00, 0x00, 0x00, 0x00}";
"";
"	buf := &MiniBuffer{}";
"	NewMiniBuffer(&buf, []byte{0xff, 0x00, 0xff, 0x00})";
"";
"	buf.ClearAllBits()";
"";
"	if !cmp.Equal(expected, buf.buf) {";
"";
"		t.Fatalf(""expected byte array does not match the one gotten (got %#v, expected %#v)"", buf.buf, expected)";
"";
"	}";
"";
"}";
"";
"func TestMiniBufferSetAllBits(t *testing.T) {";
"";
"	var expected = []byte{0xff, 0xff, 0xff, 0xff}";
"";
"	buf := &MiniBuffer{}";
"	NewMiniBuffer(&buf, []byte{0x00, 0xff, 0x00, 0xff})";
"";
"	buf.SetAllBits()";
"";
"	if !cmp.Equal(expected, buf.buf) {";
"";
"		t.Fatalf(""expected byte array does not match the one gotten (got %#v, expected %#v)"", buf.buf, expected)";
"";
"	}";
"";
"}";
"";
"func TestMiniBufferFlipAllBits(t *testing.T) {";
"";
"	var expected = []byte{0xff, 0x00, 0xff, 0x00}";
"";
"	buf := &MiniBuffer{}";
"	NewMiniBuffer(&buf, []byte{0x00, 0xff, 0x00, 0xff})";
"";
"	buf.FlipAllBits()";
"";
"	if !cmp.Equal(expected, buf.buf) {";
"";
"		t.Fatalf(""expected byte array does not match the one gotten (got %#v, expected %#v)"", buf.buf, expected)";
"";
"	}";
"";
"}";
"";
"/*";
"";
"benchmarks";
"";
"*/";
"";
"func BenchmarkMiniBufferWriteBytes(b *testing.B) {";
"";
"	b.ReportAllocs()";
"";
"	buf := &MiniBuffer{}";
"	NewMiniBuffer(&buf, []byte{0x00, 0x00, 0x00, 0x00})";
"";
"	for n := 0; n < b.N; n++ {"].

(** v3/minibuf_test.go:1601-1700 *)
Definition v3_minibuf_test_16 : list string := [
"";
"		buf.WriteBytes(0x00, []byte{0x01, 0x02})";
"";
"	}";
"";
"}";
"";
"func BenchmarkMiniBufferReadBytes(b *testing.B) {";
"";
"	b.ReportAllocs()";
"";
"	buf := &MiniBuffer{}";
"	NewMiniBuffer(&buf, []byte{0x00, 0x00, 0x00, 0x00})";
"";
"	out := []byte{}";
"";
"	for n := 0; n < b.N; n++ {";
"";
"		buf.ReadBytes(&out, 0x00, 2)";
"";
"	}";
"";
"}";
"";
"func BenchmarkMiniBufferWriteU32LE(b *testing.B) {";
"";
"	b.ReportAllocs()";
"";
"	buf := &MiniBuffer{}";
"	NewMiniBuffer(&buf, []byte{0x00, 0x00, 0x00, 0x00, 0x00, 0x00, 0x00, 0x00})";
"";
"	for n := 0; n < b.N; n++ {";
"";
"		buf.WriteU32LE(0x00, []uint32{0x01, 0x02})";
"";
"	}";
"";
"}";
"";
"func BenchmarkMiniBufferReadU32LE(b *testing.B) {";
"";
"	b.ReportAllocs()";
"";
"	buf := &MiniBuffer{}";
"	NewMiniBuffer(&buf, []byte{0x00, 0x00, 0x00, 0x00, 0x00, 0x00, 0x00, 0x00})";
"";
"	out := []uint32{0x00, 0x00}";
"	for n := 0; n < b.N; n++ {";
"";
"		buf.ReadU32LE(&out, 0x00, 2)";
"";
"	}";
"";
"	_ = out";
"";
"}";
"";
"func BenchmarkMiniBufferWriteF32LE(b *testing.B) {";
"";
"	b.ReportAllocs()";
"";
"	buf := &MiniBuffer{}";
"	NewMiniBuffer(&buf, []byte{0x00, 0x00, 0x00, 0x00, 0x00, 0x00, 0x00, 0x00})";
"";
"	for n := 0; n < b.N; n++ {";
"";
"		buf.WriteF32LE(0x00, []float32{0.01, 0.02})";
"";
"	}";
"";
"}";
"";
"func BenchmarkMiniBufferReadF32LE(b *testing.B) {";
"";
"	b.ReportAllocs()";
"";
"	buf := &MiniBuffer{}";
"	NewMiniBuffer(&buf, []byte{0x00, 0x00, 0x00, 0x00, 0x00, 0x00, 0x00, 0x00})";
"";
"	out := []float32{0x00, 0x00}";
"	for n := 0; n < b.N; n++ {";
"";
"		buf.ReadF32LE(&out, 0x00, 2)";
"";
"	}";
"";
"	_ = out";
"";
"}";
"";
"func BenchmarkMiniBufferReadBit(b *testing.B) {";
"";
"	b.ReportAllocs()";
"";
"	buf := &MiniBuffer{}";
"	NewMiniBuffer(&buf, []byte{0x00, 0x00, 0x00, 0x00})";
"";
"	var out byte";
"	for n := 0; n < b.N; n++ {";
""].

(** v3/minibuf_test.go:1701-1771 *)
Definition v3_minibuf_test_17 : list string := [
"		buf.ReadBit(&out, 0x00)";
"";
"	}";
"";
"	_ = out";
"";
"}";
"";
"func BenchmarkMiniBufferReadBits(b *testing.B) {";
"";
"	b.ReportAllocs()";
"";
"	buf := &MiniBuffer{}";
"	NewMiniBuffer(&buf, []byte{0x00, 0x00, 0x00, 0x00})";
"";
"	var out uint64";
"	for n := 0; n < b.N; n++ {";
"";
"		buf.ReadBits(&out, 0x00, 2)";
"";
"	}";
"";
"	_ = out";
"";
"}";
"";
"func BenchmarkMiniBufferSetBit(b *testing.B) {";
"";
"	b.ReportAllocs()";
"";
"	buf := &MiniBuffer{}";
"	NewMiniBuffer(&buf, []byte{0x00, 0x00, 0x00, 0x00})";
"";
"	for n := 0; n < b.N; n++ {";
"";
"		buf.SetBit(0x00)";
"";
"	}";
"";
"}";
"";
"func BenchmarkMiniBufferClearBit(b *testing.B) {";
"";
"	b.ReportAllocs()";
"";
"	buf := &MiniBuffer{}";
"	NewMiniBuffer(&buf, []byte{0x00, 0x00, 0x00, 0x00})";
"";
"	for n := 0; n < b.N; n++ {";
"";
"		buf.ClearBit(0x00)";
"";
"	}";
"";
"}";
"";
"func BenchmarkMiniBufferGrow(b *testing.B) {";
"";
"	b.ReportAllocs()";
"";
"	buf := &MiniBuffer{}";
"	NewMiniBuffer(&buf)";
"";
"	for n := 0; n < b.N; n++ {";
"";
"		buf.Grow(1)";
"		buf.Reset()";
"";
"	}";
"";
"}"].

(** v3/minibuf_test.go *)
Definition v3_minibuf_test : list string := (v3_minibuf_test_0 ++ v3_minibuf_test_1 ++ v3_minibuf_test_2 ++ v3_minibuf_test_3 ++ v3_minibuf_test_4 ++ v3_minibuf_test_5 ++ v3_minibuf_test_6 ++ v3_minibuf_test_7 ++ v3_minibuf_test_8 ++ v3_minibuf_test_9 ++ v3_minibuf_test_10 ++ v3_minibuf_test_11 ++ v3_minibuf_test_12 ++ v3_minibuf_test_13 ++ v3_minibuf_test_14 ++ v3_minibuf_test_15 ++ v3_minibuf_test_16 ++ v3_minibuf_test_17)%list.
