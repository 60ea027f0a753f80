(** * SrcV3: source files of /repo, line by line, written by tools/embed.py.
    Nothing here is a model: these are the bytes of the files. *)
From Coq Require Import List String.
Import ListNotations.
Open Scope string_scope.

(** v3/_buffer.go:1-100 *)
Definition v3_buffer_template_0 : list string := [
"/*";
"";
"crunch - utilities for taking bytes out of things";
"Copyright (c) 2019-2020 superwhiskers <whiskerdev@protonmail.com>";
"";
"This Source Code Form is subject to the terms of the Mozilla Public";
"License, v. 2.0. If a copy of the MPL was not distributed with this";
"file, You can obtain one at https://mozilla.org/MPL/2.0/.";
"";
"*/";
"";
"package v3";
"";
"import ""unsafe""";
"";
"// Buffer implements a buffer type in go that handles multiple types";
"// of data easily. it has overwrite/read checks for extra safety";
"type Buffer struct {";
"	buf  []byte";
"	off  int64";
"	cap  int64";
"	boff int64";
"	bcap int64";
"}";
"";
"// NewBuffer initilaizes a new Buffer with the provided byte slice(s)";
"// stored inside in the order provided";
"func NewBuffer(slices ...[]byte) (buf *Buffer) {";
"";
"	buf = &Buffer{";
"		buf:  []byte{},";
"		off:  0x00,";
"		boff: 0x00,";
"	}";
"";
"	switch len(slices) {";
"";
"	case 0:";
"		break";
"";
"	case 1:";
"		buf.buf = slices[0]";
"";
"	default:";
"		var (";
"			i = int64(0)";
"			n = int64(len(slices))";
"		)";
"		{";
"		append_loop:";
"			buf.buf = append(buf.buf, slices[i]...)";
"			i++";
"			if i < n {";
"";
"				goto append_loop";
"";
"			}";
"		}";
"";
"	}";
"";
"	buf.Refresh()";
"	return";
"";
"}";
"";
"/* internal use methods */";
"";
"/* bitfield methods */";
"";
"// ReadBit returns the bit located at the specified offset without";
"// modifying the internal offset value";
"func (b *Buffer) ReadBit(off int64) byte {";
"";
"	if off > (b.bcap - 1) {";
"";
"		panic(BufferOverreadError)";
"";
"	}";
"";
"	if off < 0x00 {";
"";
"		panic(BufferUnderreadError)";
"";
"	}";
"";
"	return (b.buf[off/8] >> (7 - uint64(off%8))) & 1";
"";
"}";
"";
"// ReadBitNext returns the next bit from the current offset and moves";
"// the offset forward a bit";
"func (b *Buffer) ReadBitNext() (out byte) {";
"";
"	out = b.ReadBit(b.boff)";
"	b.SeekBit(1, true)";
"	return";
"";
"}";
""].

(** v3/_buffer.go:101-200 *)
Definition v3_buffer_template_1 : list string := [
"// ReadBits returns the next n bits from the specified offset without";
"// modifying the internal offset value";
"func (b *Buffer) ReadBits(off, n int64) (out uint64) {";
"";
"	i := int64(0)";
"";
"	{";
"	read_loop:";
"		out = (out << uint64(1)) | uint64(b.ReadBit(off+i))";
"		i++";
"		if i < n {";
"";
"			goto read_loop";
"";
"		}";
"	}";
"";
"	return";
"";
"}";
"";
"// ReadBitsNext returns the next n bits from the current offset and";
"// moves the offset forward the amount of bits read";
"func (b *Buffer) ReadBitsNext(n int64) (out uint64) {";
"";
"	out = b.ReadBits(b.boff, n)";
"	b.SeekBit(n, true)";
"	return";
"";
"}";
"";
"// SetBit sets the bit located at the specified offset without";
"// modifying the internal offset value";
"func (b *Buffer) SetBit(off int64) {";
"";
"	if off > (b.bcap - 1) {";
"";
"		panic(BufferOverwriteError)";
"";
"	}";
"";
"	if off < 0x00 {";
"";
"		panic(BufferUnderwriteError)";
"";
"	}";
"";
"	b.buf[off/8] |= (1 << uint(7-(off%8)))";
"";
"}";
"";
"// SetBitNext sets the next bit from the current offset and moves the";
"// offset forward a bit";
"func (b *Buffer) SetBitNext() {";
"";
"	b.SetBit(b.boff)";
"	b.SeekBit(1, true)";
"";
"}";
"";
"// ClearBit clears the bit located at the specified offset without";
"// modifying the internal offset value";
"func (b *Buffer) ClearBit(off int64) {";
"";
"	if off > (b.bcap - 1) {";
"";
"		panic(BufferOverwriteError)";
"";
"	}";
"";
"	if off < 0x00 {";
"";
"		panic(BufferUnderwriteError)";
"";
"	}";
"";
"	b.buf[off/8] &= ^(1 << uint(7-(off%8)))";
"";
"}";
"";
"// ClearBitNext clears the next bit from the current offset and moves";
"// the offset forward a bit";
"func (b *Buffer) ClearBitNext() {";
"";
"	b.ClearBit(b.boff)";
"	b.SeekBit(1, true)";
"";
"}";
"";
"// SetBits sets the next n bits from the specified offset without";
"// modifying the internal offset value";
"func (b *Buffer) SetBits(off int64, data uint64, n int64) {";
"";
"	i := int64(0)";
"";
"	{";
"	write_loop:";
"		if byte((data>>uint64(n-i-1))&1) == 0 {";
"";
"			b.ClearBit(off + i)"].

(** v3/_buffer.go:201-300 *)
Definition v3_buffer_template_2 : list string := [
"";
"		} else {";
"";
"			b.SetBit(off + i)";
"";
"		}";
"		i++";
"		if i < n {";
"";
"			goto write_loop";
"";
"		}";
"	}";
"";
"}";
"";
"// SetBitsNext sets the next n bits from the current offset and moves";
"// the offset forward the amount of bits set";
"func (b *Buffer) SetBitsNext(data uint64, n int64) {";
"";
"	b.SetBits(b.boff, data, n)";
"	b.SeekBit(n, true)";
"";
"}";
"";
"// FlipBit flips the bit located at the specified offset without";
"// modifying the internal offset value";
"func (b *Buffer) FlipBit(off int64) {";
"";
"	if off > (b.bcap - 1) {";
"";
"		panic(BufferOverwriteError)";
"";
"	}";
"";
"	if off < 0x00 {";
"";
"		panic(BufferUnderwriteError)";
"";
"	}";
"";
"	b.buf[off/8] ^= (1 << uint(7-(off%8)))";
"";
"}";
"";
"// FlipBitNext flips the next bit from the current offset and moves";
"// the offset forward a bit";
"func (b *Buffer) FlipBitNext() {";
"";
"	b.FlipBit(b.boff)";
"	b.SeekBit(1, true)";
"";
"}";
"";
"// ClearAllBits sets all of the buffer's bits to 0";
"func (b *Buffer) ClearAllBits() {";
"";
"	var (";
"		i = int64(0)";
"		n = int64(len(b.buf))";
"	)";
"	{";
"	clear_loop:";
"		b.buf[i] = 0";
"		i++";
"		if i < n {";
"";
"			goto clear_loop";
"";
"		}";
"	}";
"";
"}";
"";
"// SetAllBits sets all of the buffer's bits to 1";
"func (b *Buffer) SetAllBits() {";
"";
"	var (";
"		i = int64(0)";
"		n = int64(len(b.buf))";
"	)";
"	{";
"	set_loop:";
"		b.buf[i] = 0xFF";
"		i++";
"		if i < n {";
"";
"			goto set_loop";
"";
"		}";
"	}";
"";
"}";
"";
"// FlipAllBits flips all of the buffer's bits";
"func (b *Buffer) FlipAllBits() {";
"";
"	var (";
"		i = int64(0)";
"		n = int64(len(b.buf))"].

(** v3/_buffer.go:301-400 *)
Definition v3_buffer_template_3 : list string := [
"	)";
"	{";
"	flip_loop:";
"		b.buf[i] = ^b.buf[i]";
"		i++";
"		if i < n {";
"";
"			goto flip_loop";
"";
"		}";
"";
"	}";
"";
"}";
"";
"// SeekBit seeks to bit position off of the the buffer relative to";
"// the current position or exact";
"func (b *Buffer) SeekBit(off int64, relative bool) {";
"";
"	if relative {";
"";
"		b.boff += off";
"";
"	} else {";
"";
"		b.boff = off";
"";
"	}";
"";
"}";
"";
"// AfterBit returns the amount of bits located after the current bit";
"// position or the specified one";
"func (b *Buffer) AfterBit(off ...int64) int64 {";
"";
"	if len(off) == 0 {";
"";
"		return b.bcap - b.boff - 1";
"";
"	}";
"	return b.bcap - off[0] - 1";
"";
"}";
"";
"// AlignBit aligns the bit offset to the byte offset";
"func (b *Buffer) AlignBit() {";
"";
"	b.boff = b.off * 8";
"";
"}";
"";
"/* byte buffer methods */";
"";
"// WriteBytes writes bytes to the buffer at the specified offset";
"// without modifying the internal offset value";
"func (b *Buffer) WriteBytes(off int64, data []byte) {";
"";
"	if (off + int64(len(data))) > b.cap {";
"";
"		panic(BufferOverwriteError)";
"";
"	}";
"";
"	if off < 0x00 {";
"";
"		panic(BufferUnderwriteError)";
"";
"	}";
"";
"	copy(b.buf[off:], data)";
"";
"}";
"";
"// WriteBytesNext writes bytes to the buffer at the current offset";
"// and moves the offset forward the amount of bytes written";
"func (b *Buffer) WriteBytesNext(data []byte) {";
"";
"	b.WriteBytes(b.off, data)";
"	b.SeekByte(int64(len(data)), true)";
"";
"}";
"";
"// WriteByte writes a byte to the buffer at the specified offset";
"// without modifying the internal offset value";
"func (b *Buffer) WriteByte(off int64, data byte) {";
"";
"	b.WriteBytes(off, []byte{data})";
"";
"}";
"";
"// WriteByteNext writes a byte to the buffer at the current";
"// offset and moves the offset forward the amount of bytes written";
"func (b *Buffer) WriteByteNext(data byte) {";
"";
"	b.WriteBytes(b.off, []byte{data})";
"	b.SeekByte(1, true)";
"";
"}";
"";
"//generator:complex Buffer Write U 16 LE"].

(** v3/_buffer.go:401-500 *)
Definition v3_buffer_template_4 : list string := [
"";
"//generator:complex Buffer Write U 16 BE";
"";
"//generator:complex Buffer Write U 32 LE";
"";
"//generator:complex Buffer Write U 32 BE";
"";
"//generator:complex Buffer Write U 64 LE";
"";
"//generator:complex Buffer Write U 64 BE";
"";
"//generator:complex Buffer Write I 16 LE";
"";
"//generator:complex Buffer Write I 16 BE";
"";
"//generator:complex Buffer Write I 32 LE";
"";
"//generator:complex Buffer Write I 32 BE";
"";
"//generator:complex Buffer Write I 64 LE";
"";
"//generator:complex Buffer Write I 64 BE";
"";
"//generator:complex Buffer Write F 32 LE";
"";
"//generator:complex Buffer Write F 32 BE";
"";
"//generator:complex Buffer Write F 64 LE";
"";
"//generator:complex Buffer Write F 64 BE";
"";
"// ReadBytes returns the next n bytes from the specified offset";
"// without modifying the internal offset value";
"func (b *Buffer) ReadBytes(off, n int64) []byte {";
"";
"	if (off + n) > b.cap {";
"";
"		panic(BufferOverreadError)";
"";
"	}";
"";
"	if off < 0x00 {";
"";
"		panic(BufferUnderreadError)";
"";
"	}";
"";
"	return b.buf[off : off+n]";
"";
"}";
"";
"// ReadBytesNext returns the next n bytes from the current offset";
"// and moves the offset forward the amount of bytes read";
"func (b *Buffer) ReadBytesNext(n int64) (out []byte) {";
"";
"	out = b.ReadBytes(b.off, n)";
"	b.SeekByte(n, true)";
"	return";
"";
"}";
"";
"// ReadByte returns the next byte from the specified offset without";
"// modifying the internal offset value";
"func (b *Buffer) ReadByte(off int64) byte {";
"";
"	return b.ReadBytes(off, 1)[0]";
"";
"}";
"";
"// ReadByteNext returns the next byte from the current offset and";
"// moves the offset forward a byte";
"func (b *Buffer) ReadByteNext() (out byte) {";
"";
"	out = b.ReadBytes(b.off, 1)[0]";
"	b.SeekByte(1, true)";
"	return";
"";
"}";
"";
"//generator:complex Buffer Read U 16 LE";
"";
"//generator:complex Buffer Read U 16 BE";
"";
"//generator:complex Buffer Read U 32 LE";
"";
"//generator:complex Buffer Read U 32 BE";
"";
"//generator:complex Buffer Read U 64 LE";
"";
"//generator:complex Buffer Read U 64 BE";
"";
"//generator:complex Buffer Read I 16 LE";
"";
"//generator:complex Buffer Read I 16 BE";
"";
"//generator:complex Buffer Read I 32 LE";
"";
"//generator:complex Buffer Read I 32 BE";
"";
"//generator:complex Buffer Read I 64 LE"].

(** v3/_buffer.go:501-600 *)
Definition v3_buffer_template_5 : list string := [
"";
"//generator:complex Buffer Read I 64 BE";
"";
"//generator:complex Buffer Read F 32 LE";
"";
"//generator:complex Buffer Read F 32 BE";
"";
"//generator:complex Buffer Read F 64 LE";
"";
"//generator:complex Buffer Read F 64 BE";
"";
"// SeekByte seeks to position off of the buffer relative to the";
"// current position or exact";
"func (b *Buffer) SeekByte(off int64, relative bool) {";
"";
"	if relative {";
"";
"		b.off += off";
"";
"	} else {";
"";
"		b.off = off";
"";
"	}";
"";
"}";
"";
"// AfterByte returns the amount of bytes located after the current";
"// position or the specified one";
"func (b *Buffer) AfterByte(off ...int64) int64 {";
"";
"	if len(off) == 0 {";
"";
"		return b.cap - b.off - 1";
"";
"	}";
"	return b.cap - off[0] - 1";
"";
"}";
"";
"// AlignByte aligns the byte offset to the bit offset";
"func (b *Buffer) AlignByte() {";
"";
"	b.off = b.boff / 8";
"";
"}";
"";
"/* generic methods */";
"";
"// TruncateLeft truncates the buffer on the left side";
"func (b *Buffer) TruncateLeft(n int64) {";
"";
"	if n < 0 {";
"";
"		panic(BufferInvalidByteCountError)";
"";
"	}";
"";
"	b.buf = b.buf[n:b.cap]";
"	b.Refresh()";
"";
"}";
"";
"// TruncateRight truncates the buffer on the right side";
"func (b *Buffer) TruncateRight(n int64) {";
"";
"	if n < 0 {";
"";
"		panic(BufferInvalidByteCountError)";
"";
"	}";
"";
"	b.buf = b.buf[0x00 : b.cap-n]";
"	b.Refresh()";
"";
"}";
"";
"// Grow makes the buffer's capacity bigger by n bytes";
"func (b *Buffer) Grow(n int64) {";
"";
"	if n < 0 {";
"";
"		panic(BufferInvalidByteCountError)";
"";
"	}";
"";
"	if n <= int64(cap(b.buf))-b.cap {";
"";
"		b.buf = b.buf[0 : b.cap+n]";
"		b.Refresh()";
"		return";
"";
"	}";
"	tmp := make([]byte, b.cap+n, (int64(cap(b.buf))+n)*2)";
"	copy(tmp, b.buf)";
"	b.buf = tmp";
"	b.Refresh()";
"";
"}";
""].

(** v3/_buffer.go:601-655 *)
Definition v3_buffer_template_6 : list string := [
"// Refresh updates the cached internal statistics of the buffer forcefully";
"func (b *Buffer) Refresh() {";
"";
"	b.cap = int64(len(b.buf))";
"	b.bcap = b.cap * 8";
"";
"}";
"";
"// Reset resets the entire buffer";
"func (b *Buffer) Reset() {";
"";
"	b.buf = b.buf[0:0]";
"	b.off = 0x00";
"	b.boff = 0x00";
"	b.cap = 0";
"	b.bcap = 0";
"";
"}";
"";
"/* value retrieval */";
"";
"// Bytes returns the internal byte slice of the buffer";
"func (b *Buffer) Bytes() []byte {";
"";
"	return b.buf";
"";
"}";
"";
"// ByteCapacity returns the capacity of the buffer";
"func (b *Buffer) ByteCapacity() int64 {";
"";
"	return b.cap";
"";
"}";
"";
"// BitCapacity returns the bit capacity of the buffer";
"func (b *Buffer) BitCapacity() int64 {";
"";
"	return b.bcap";
"";
"}";
"";
"// ByteOffset returns the current offset of the buffer";
"func (b *Buffer) ByteOffset() int64 {";
"";
"	return b.off";
"";
"}";
"";
"// BitOffset returns the current bit offset of the buffer";
"func (b *Buffer) BitOffset() int64 {";
"";
"	return b.boff";
"";
"}"].

(** v3/_buffer.go *)
Definition v3_buffer_template : list string := (v3_buffer_template_0 ++ v3_buffer_template_1 ++ v3_buffer_template_2 ++ v3_buffer_template_3 ++ v3_buffer_template_4 ++ v3_buffer_template_5 ++ v3_buffer_template_6)%list.

(** v3/_minibuf.go:1-100 *)
Definition v3_minibuf_template_0 : list string := [
"/*";
"";
"crunch - utilities for taking bytes out of things";
"Copyright (c) 2019-2020 superwhiskers <whiskerdev@protonmail.com>";
"";
"This Source Code Form is subject to the terms of the Mozilla Public";
"License, v. 2.0. If a copy of the MPL was not distributed with this";
"file, You can obtain one at https://mozilla.org/MPL/2.0/.";
"";
"*/";
"";
"package v3";
"";
"import ""unsafe""";
"";
"// MiniBuffer implements a fast and low-memory buffer type in go that";
"// handles multiple types of data easily. it lacks the overwrite/read";
"// and underwrite/read checks that Buffer has";
"type MiniBuffer struct {";
"	buf  []byte";
"	off  int64";
"	cap  int64";
"	boff int64";
"	bcap int64";
"}";
"";
"// NewMiniBuffer initilaizes a new MiniBuffer with the provided byte";
"// slice(s) stored inside in the order provided";
"func NewMiniBuffer(out **MiniBuffer, slices ...[]byte) {";
"";
"	*out = &MiniBuffer{";
"		buf:  []byte{},";
"		off:  0x00,";
"		boff: 0x00,";
"	}";
"";
"	switch len(slices) {";
"";
"	case 0:";
"		break";
"";
"	case 1:";
"		(*out).buf = slices[0]";
"";
"	default:";
"		var (";
"			i = int64(0)";
"			n = int64(len(slices))";
"		)";
"		{";
"		append_loop:";
"			(*out).buf = append((*out).buf, slices[i]...)";
"			i++";
"			if i < n {";
"";
"				goto append_loop";
"";
"			}";
"		}";
"";
"	}";
"";
"	(*out).Refresh()";
"";
"}";
"";
"/* bitfield methods */";
"";
"// ReadBit stores the bit located at the specified offset without";
"// modifying the internal offset value in out";
"func (b *MiniBuffer) ReadBit(out *byte, off int64) {";
"";
"	*out = (b.buf[off/8] >> (7 - uint64(off%8))) & 1";
"";
"}";
"";
"// ReadBitNext stores the next bit from the current offset and moves";
"// the offset forward a bit in out";
"func (b *MiniBuffer) ReadBitNext(out *byte) {";
"";
"	b.ReadBit(out, b.boff)";
"	b.SeekBit(1, true)";
"";
"}";
"";
"// ReadBits stores the next n bits from the specified offset without";
"// modifying the internal offset value in out";
"func (b *MiniBuffer) ReadBits(out *uint64, off, n int64) {";
"";
"	var (";
"		bout byte";
"";
"		i = int64(0)";
"	)";
"	{";
"	read_loop:";
"		b.ReadBit(&bout, off+i)";
"		*out = (*out << uint64(1)) | uint64(bout)";
"		i++";
"		if i < n {"].

(** v3/_minibuf.go:101-200 *)
Definition v3_minibuf_template_1 : list string := [
"";
"			goto read_loop";
"";
"		}";
"	}";
"";
"}";
"";
"// ReadBitsNext stores the next n bits from the current offset and";
"// moves the offset forward the amount of bits read in out";
"func (b *MiniBuffer) ReadBitsNext(out *uint64, n int64) {";
"";
"	b.ReadBits(out, b.boff, n)";
"	b.SeekBit(n, true)";
"";
"}";
"";
"// SetBit sets the bit located at the specified offset without";
"// modifying the internal offset value";
"func (b *MiniBuffer) SetBit(off int64) {";
"";
"	b.buf[off/8] |= (1 << uint(7-(off%8)))";
"";
"}";
"";
"// SetBitNext sets the next bit from the current offset and moves the";
"// offset forward a bit";
"func (b *MiniBuffer) SetBitNext() {";
"";
"	b.SetBit(b.boff)";
"	b.SeekBit(1, true)";
"";
"}";
"";
"// ClearBit clears the bit located at the specified offset without";
"// modifying the internal offset value";
"func (b *MiniBuffer) ClearBit(off int64) {";
"";
"	b.buf[off/8] &= ^(1 << uint(7-(off%8)))";
"";
"}";
"";
"// ClearBitNext clears the next bit from the current offset and moves";
"// the offset forward a bit";
"func (b *MiniBuffer) ClearBitNext() {";
"";
"	b.ClearBit(b.boff)";
"	b.SeekBit(1, true)";
"";
"}";
"";
"// SetBits sets the next n bits from the specified offset without";
"// modifying the internal offset value";
"func (b *MiniBuffer) SetBits(off int64, data uint64, n int64) {";
"";
"	i := int64(0)";
"";
"	{";
"	write_loop:";
"		if byte((data>>uint64(n-i-1))&1) == 0 {";
"";
"			b.ClearBit(off + i)";
"";
"		} else {";
"";
"			b.SetBit(off + i)";
"";
"		}";
"		i++";
"		if i < n {";
"";
"			goto write_loop";
"";
"		}";
"	}";
"";
"}";
"";
"// SetBitsNext sets the next n bits from the current offset and moves";
"// the offset forward the amount of bits set";
"func (b *MiniBuffer) SetBitsNext(data uint64, n int64) {";
"";
"	b.SetBits(b.boff, data, n)";
"	b.SeekBit(n, true)";
"";
"}";
"";
"// FlipBit flips the bit located at the specified offset without";
"// modifying the internal offset value";
"func (b *MiniBuffer) FlipBit(off int64) {";
"";
"	b.buf[off/8] ^= (1 << uint(7-(off%8)))";
"";
"}";
"";
"// FlipBitNext flips the next bit from the current offset and moves";
"// the offset forward a bit";
"func (b *MiniBuffer) FlipBitNext() {";
"";
"	b.FlipBit(b.boff)"].

(** v3/_minibuf.go:201-300 *)
Definition v3_minibuf_template_2 : list string := [
"	b.SeekBit(1, true)";
"";
"}";
"";
"// ClearAllBits sets all of the buffer's bits to 0";
"func (b *MiniBuffer) ClearAllBits() {";
"";
"	var (";
"		i = int64(0)";
"		n = int64(len(b.buf))";
"	)";
"	{";
"	clear_loop:";
"		b.buf[i] = 0";
"		i++";
"		if i < n {";
"";
"			goto clear_loop";
"";
"		}";
"	}";
"";
"}";
"";
"// SetAllBits sets all of the buffer's bits to 1";
"func (b *MiniBuffer) SetAllBits() {";
"";
"	var (";
"		i = int64(0)";
"		n = int64(len(b.buf))";
"	)";
"	{";
"	set_loop:";
"		b.buf[i] = 0xFF";
"		i++";
"		if i < n {";
"";
"			goto set_loop";
"";
"		}";
"	}";
"";
"}";
"";
"// FlipAllBits flips all of the buffer's bits";
"func (b *MiniBuffer) FlipAllBits() {";
"";
"	var (";
"		i = int64(0)";
"		n = int64(len(b.buf))";
"	)";
"	{";
"	flip_loop:";
"		b.buf[i] = ^b.buf[i]";
"		i++";
"		if i < n {";
"";
"			goto flip_loop";
"";
"		}";
"";
"	}";
"";
"}";
"";
"// SeekBit seeks to bit position off of the the buffer relative to";
"// the current position or exact";
"func (b *MiniBuffer) SeekBit(off int64, relative bool) {";
"";
"	if relative {";
"";
"		b.boff += off";
"";
"	} else {";
"";
"		b.boff = off";
"";
"	}";
"";
"}";
"";
"// AfterBit stores the amount of bits located after the current bit";
"// position or the specified one in out";
"func (b *MiniBuffer) AfterBit(out *int64, off ...int64) {";
"";
"	if len(off) == 0 {";
"";
"		*out = b.bcap - b.boff - 1";
"		return";
"";
"	}";
"	*out = b.bcap - off[0] - 1";
"";
"}";
"";
"// AlignBit aligns the bit offset to the byte offset";
"func (b *MiniBuffer) AlignBit() {";
"";
"	b.boff = b.off * 8";
""].

(** v3/_minibuf.go:301-400 *)
Definition v3_minibuf_template_3 : list string := [
"}";
"";
"/* byte buffer methods */";
"";
"// WriteBytes writes bytes to the buffer at the specified offset";
"// without modifying the internal offset value";
"func (b *MiniBuffer) WriteBytes(off int64, data []byte) {";
"";
"	copy(b.buf[off:], data)";
"";
"}";
"";
"// WriteBytesNext writes bytes to the buffer at the current offset";
"// and moves the offset forward the amount of bytes written";
"func (b *MiniBuffer) WriteBytesNext(data []byte) {";
"";
"	b.WriteBytes(b.off, data)";
"	b.SeekByte(int64(len(data)), true)";
"";
"}";
"";
"//generator:complex MiniBuffer Write U 16 LE";
"";
"//generator:complex MiniBuffer Write U 16 BE";
"";
"//generator:complex MiniBuffer Write U 32 LE";
"";
"//generator:complex MiniBuffer Write U 32 BE";
"";
"//generator:complex MiniBuffer Write U 64 LE";
"";
"//generator:complex MiniBuffer Write U 64 BE";
"";
"//generator:complex MiniBuffer Write I 16 LE";
"";
"//generator:complex MiniBuffer Write I 16 BE";
"";
"//generator:complex MiniBuffer Write I 32 LE";
"";
"//generator:complex MiniBuffer Write I 32 BE";
"";
"//generator:complex MiniBuffer Write I 64 LE";
"";
"//generator:complex MiniBuffer Write I 64 BE";
"";
"//generator:complex MiniBuffer Write F 32 LE";
"";
"//generator:complex MiniBuffer Write F 32 BE";
"";
"//generator:complex MiniBuffer Write F 64 LE";
"";
"//generator:complex MiniBuffer Write F 64 BE";
"";
"// ReadBytes stores the next n bytes from the specified offset";
"// without modifying the internal offset value in out";
"func (b *MiniBuffer) ReadBytes(out *[]byte, off, n int64) {";
"";
"	*out = b.buf[off : off+n]";
"";
"}";
"";
"// ReadBytesNext stores the next n bytes from the current offset and";
"// moves the offset forward the amount of bytes read in out";
"func (b *MiniBuffer) ReadBytesNext(out *[]byte, n int64) {";
"";
"	b.ReadBytes(out, b.off, n)";
"	b.SeekByte(n, true)";
"";
"}";
"";
"//generator:complex MiniBuffer Read U 16 LE";
"";
"//generator:complex MiniBuffer Read U 16 BE";
"";
"//generator:complex MiniBuffer Read U 32 LE";
"";
"//generator:complex MiniBuffer Read U 32 BE";
"";
"//generator:complex MiniBuffer Read U 64 LE";
"";
"//generator:complex MiniBuffer Read U 64 BE";
"";
"//generator:complex MiniBuffer Read I 16 LE";
"";
"//generator:complex MiniBuffer Read I 16 BE";
"";
"//generator:complex MiniBuffer Read I 32 LE";
"";
"//generator:complex MiniBuffer Read I 32 BE";
"";
"//generator:complex MiniBuffer Read I 64 LE";
"";
"//generator:complex MiniBuffer Read I 64 BE";
"";
"//generator:complex MiniBuffer Read F 32 LE";
"";
"//generator:complex MiniBuffer Read F 32 BE";
"";
"//generator:complex MiniBuffer Read F 64 LE";
""].

(** v3/_minibuf.go:401-500 *)
Definition v3_minibuf_template_4 : list string := [
"//generator:complex MiniBuffer Read F 64 BE";
"";
"// SeekByte seeks to position off of the buffer relative to the";
"// current position or exact";
"func (b *MiniBuffer) SeekByte(off int64, relative bool) {";
"";
"	if relative {";
"";
"		b.off += off";
"";
"	} else {";
"";
"		b.off = off";
"";
"	}";
"";
"}";
"";
"// AfterByte stores the amount of bytes located after the current";
"// position or the specified one in out";
"func (b *MiniBuffer) AfterByte(out *int64, off ...int64) {";
"";
"	if len(off) == 0 {";
"";
"		*out = b.cap - b.off - 1";
"		return";
"";
"	}";
"	*out = b.cap - off[0] - 1";
"";
"}";
"";
"// AlignByte aligns the byte offset to the bit offset";
"func (b *MiniBuffer) AlignByte() {";
"";
"	b.off = b.boff / 8";
"";
"}";
"";
"/* generic methods */";
"";
"// TruncateLeft truncates the buffer on the left side";
"func (b *MiniBuffer) TruncateLeft(n int64) {";
"";
"	b.buf = b.buf[n:b.cap]";
"	b.Refresh()";
"";
"}";
"";
"// TruncateRight truncates the buffer on the right side";
"func (b *MiniBuffer) TruncateRight(n int64) {";
"";
"	b.buf = b.buf[0x00 : b.cap-n]";
"	b.Refresh()";
"";
"}";
"";
"// Grow makes the buffer's capacity bigger by n bytes";
"func (b *MiniBuffer) Grow(n int64) {";
"";
"	if n <= int64(cap(b.buf))-b.cap {";
"";
"		b.buf = b.buf[0 : b.cap+n]";
"		b.Refresh()";
"		return";
"";
"	}";
"	tmp := make([]byte, b.cap+n, (int64(cap(b.buf))+n)*2)";
"	copy(tmp, b.buf)";
"	b.buf = tmp";
"";
"	b.Refresh()";
"";
"}";
"";
"// Refresh updates the cached internal statistics of the buffer forcefully";
"func (b *MiniBuffer) Refresh() {";
"";
"	b.cap = int64(len(b.buf))";
"	b.bcap = b.cap * 8";
"";
"}";
"";
"// Reset resets the entire buffer";
"func (b *MiniBuffer) Reset() {";
"";
"	b.buf = b.buf[0:0]";
"	b.off = 0x00";
"	b.boff = 0x00";
"	b.cap = 0";
"	b.bcap = 0";
"";
"}";
"";
"/* value retrieval */";
"";
"// Bytes stores the internal byte slice of the buffer in out";
"func (b *MiniBuffer) Bytes(out *[]byte) {";
"";
"	*out = b.buf"].

(** v3/_minibuf.go:501-530 *)
Definition v3_minibuf_template_5 : list string := [
"";
"}";
"";
"// ByteCapacity stores the capacity of the buffer in out";
"func (b *MiniBuffer) ByteCapacity(out *int64) {";
"";
"	*out = b.cap";
"";
"}";
"";
"// BitCapacity stores the bit capacity of the buffer in out";
"func (b *MiniBuffer) BitCapacity(out *int64) {";
"";
"	*out = b.bcap";
"";
"}";
"";
"// ByteOffset stores the current offset of the buffer in out";
"func (b *MiniBuffer) ByteOffset(out *int64) {";
"";
"	*out = b.off";
"";
"}";
"";
"// BitOffset stores the current bit offset of the buffer in out";
"func (b *MiniBuffer) BitOffset(out *int64) {";
"";
"	*out = b.boff";
"";
"}"].

(** v3/_minibuf.go *)
Definition v3_minibuf_template : list string := (v3_minibuf_template_0 ++ v3_minibuf_template_1 ++ v3_minibuf_template_2 ++ v3_minibuf_template_3 ++ v3_minibuf_template_4 ++ v3_minibuf_template_5)%list.

(** v3/buffer.generated.go:1-100 *)
Definition v3_buffer_0 : list string := [
"/*";
"";
"crunch - utilities for taking bytes out of things";
"Copyright (c) 2019-2020 superwhiskers <whiskerdev@protonmail.com>";
"";
"This Source Code Form is subject to the terms of the Mozilla Public";
"License, v. 2.0. If a copy of the MPL was not distributed with this";
"file, You can obtain one at https://mozilla.org/MPL/2.0/.";
"";
"*/";
"";
"package v3";
"";
"import ""unsafe""";
"";
"// Buffer implements a buffer type in go that handles multiple types";
"// of data easily. it has overwrite/read checks for extra safety";
"type Buffer struct {";
"	buf  []byte";
"	off  int64";
"	cap  int64";
"	boff int64";
"	bcap int64";
"}";
"";
"// NewBuffer initilaizes a new Buffer with the provided byte slice(s)";
"// stored inside in the order provided";
"func NewBuffer(slices ...[]byte) (buf *Buffer) {";
"";
"	buf = &Buffer{";
"		buf:  []byte{},";
"		off:  0x00,";
"		boff: 0x00,";
"	}";
"";
"	switch len(slices) {";
"";
"	case 0:";
"		break";
"";
"	case 1:";
"		buf.buf = slices[0]";
"";
"	default:";
"		var (";
"			i = int64(0)";
"			n = int64(len(slices))";
"		)";
"		{";
"		append_loop:";
"			buf.buf = append(buf.buf, slices[i]...)";
"			i++";
"			if i < n {";
"";
"				goto append_loop";
"";
"			}";
"		}";
"";
"	}";
"";
"	buf.Refresh()";
"	return";
"";
"}";
"";
"/* internal use methods */";
"";
"/* bitfield methods */";
"";
"// ReadBit returns the bit located at the specified offset without";
"// modifying the internal offset value";
"func (b *Buffer) ReadBit(off int64) byte {";
"";
"	if off > (b.bcap - 1) {";
"";
"		panic(BufferOverreadError)";
"";
"	}";
"";
"	if off < 0x00 {";
"";
"		panic(BufferUnderreadError)";
"";
"	}";
"";
"	return (b.buf[off/8] >> (7 - uint64(off%8))) & 1";
"";
"}";
"";
"// ReadBitNext returns the next bit from the current offset and moves";
"// the offset forward a bit";
"func (b *Buffer) ReadBitNext() (out byte) {";
"";
"	out = b.ReadBit(b.boff)";
"	b.SeekBit(1, true)";
"	return";
"";
"}";
""].

(** v3/buffer.generated.go:101-200 *)
Definition v3_buffer_1 : list string := [
"// ReadBits returns the next n bits from the specified offset without";
"// modifying the internal offset value";
"func (b *Buffer) ReadBits(off, n int64) (out uint64) {";
"";
"	i := int64(0)";
"";
"	{";
"	read_loop:";
"		out = (out << uint64(1)) | uint64(b.ReadBit(off+i))";
"		i++";
"		if i < n {";
"";
"			goto read_loop";
"";
"		}";
"	}";
"";
"	return";
"";
"}";
"";
"// ReadBitsNext returns the next n bits from the current offset and";
"// moves the offset forward the amount of bits read";
"func (b *Buffer) ReadBitsNext(n int64) (out uint64) {";
"";
"	out = b.ReadBits(b.boff, n)";
"	b.SeekBit(n, true)";
"	return";
"";
"}";
"";
"// SetBit sets the bit located at the specified offset without";
"// modifying the internal offset value";
"func (b *Buffer) SetBit(off int64) {";
"";
"	if off > (b.bcap - 1) {";
"";
"		panic(BufferOverwriteError)";
"";
"	}";
"";
"	if off < 0x00 {";
"";
"		panic(BufferUnderwriteError)";
"";
"	}";
"";
"	b.buf[off/8] |= (1 << uint(7-(off%8)))";
"";
"}";
"";
"// SetBitNext sets the next bit from the current offset and moves the";
"// offset forward a bit";
"func (b *Buffer) SetBitNext() {";
"";
"	b.SetBit(b.boff)";
"	b.SeekBit(1, true)";
"";
"}";
"";
"// ClearBit clears the bit located at the specified offset without";
"// modifying the internal offset value";
"func (b *Buffer) ClearBit(off int64) {";
"";
"	if off > (b.bcap - 1) {";
"";
"		panic(BufferOverwriteError)";
"";
"	}";
"";
"	if off < 0x00 {";
"";
"		panic(BufferUnderwriteError)";
"";
"	}";
"";
"	b.buf[off/8] &= ^(1 << uint(7-(off%8)))";
"";
"}";
"";
"// ClearBitNext clears the next bit from the current offset and moves";
"// the offset forward a bit";
"func (b *Buffer) ClearBitNext() {";
"";
"	b.ClearBit(b.boff)";
"	b.SeekBit(1, true)";
"";
"}";
"";
"// SetBits sets the next n bits from the specified offset without";
"// modifying the internal offset value";
"func (b *Buffer) SetBits(off int64, data uint64, n int64) {";
"";
"	i := int64(0)";
"";
"	{";
"	write_loop:";
"		if byte((data>>uint64(n-i-1))&1) == 0 {";
"";
"			b.ClearBit(off + i)"].

(** v3/buffer.generated.go:201-300 *)
Definition v3_buffer_2 : list string := [
"";
"		} else {";
"";
"			b.SetBit(off + i)";
"";
"		}";
"		i++";
"		if i < n {";
"";
"			goto write_loop";
"";
"		}";
"	}";
"";
"}";
"";
"// SetBitsNext sets the next n bits from the current offset and moves";
"// the offset forward the amount of bits set";
"func (b *Buffer) SetBitsNext(data uint64, n int64) {";
"";
"	b.SetBits(b.boff, data, n)";
"	b.SeekBit(n, true)";
"";
"}";
"";
"// FlipBit flips the bit located at the specified offset without";
"// modifying the internal offset value";
"func (b *Buffer) FlipBit(off int64) {";
"";
"	if off > (b.bcap - 1) {";
"";
"		panic(BufferOverwriteError)";
"";
"	}";
"";
"	if off < 0x00 {";
"";
"		panic(BufferUnderwriteError)";
"";
"	}";
"";
"	b.buf[off/8] ^= (1 << uint(7-(off%8)))";
"";
"}";
"";
"// FlipBitNext flips the next bit from the current offset and moves";
"// the offset forward a bit";
"func (b *Buffer) FlipBitNext() {";
"";
"	b.FlipBit(b.boff)";
"	b.SeekBit(1, true)";
"";
"}";
"";
"// ClearAllBits sets all of the buffer's bits to 0";
"func (b *Buffer) ClearAllBits() {";
"";
"	var (";
"		i = int64(0)";
"		n = int64(len(b.buf))";
"	)";
"	{";
"	clear_loop:";
"		b.buf[i] = 0";
"		i++";
"		if i < n {";
"";
"			goto clear_loop";
"";
"		}";
"	}";
"";
"}";
"";
"// SetAllBits sets all of the buffer's bits to 1";
"func (b *Buffer) SetAllBits() {";
"";
"	var (";
"		i = int64(0)";
"		n = int64(len(b.buf))";
"	)";
"	{";
"	set_loop:";
"		b.buf[i] = 0xFF";
"		i++";
"		if i < n {";
"";
"			goto set_loop";
"";
"		}";
"	}";
"";
"}";
"";
"// FlipAllBits flips all of the buffer's bits";
"func (b *Buffer) FlipAllBits() {";
"";
"	var (";
"		i = int64(0)";
"		n = int64(len(b.buf))"].

(** v3/buffer.generated.go:301-400 *)
Definition v3_buffer_3 : list string := [
"	)";
"	{";
"	flip_loop:";
"		b.buf[i] = ^b.buf[i]";
"		i++";
"		if i < n {";
"";
"			goto flip_loop";
"";
"		}";
"";
"	}";
"";
"}";
"";
"// SeekBit seeks to bit position off of the the buffer relative to";
"// the current position or exact";
"func (b *Buffer) SeekBit(off int64, relative bool) {";
"";
"	if relative {";
"";
"		b.boff += off";
"";
"	} else {";
"";
"		b.boff = off";
"";
"	}";
"";
"}";
"";
"// AfterBit returns the amount of bits located after the current bit";
"// position or the specified one";
"func (b *Buffer) AfterBit(off ...int64) int64 {";
"";
"	if len(off) == 0 {";
"";
"		return b.bcap - b.boff - 1";
"";
"	}";
"	return b.bcap - off[0] - 1";
"";
"}";
"";
"// AlignBit aligns the bit offset to the byte offset";
"func (b *Buffer) AlignBit() {";
"";
"	b.boff = b.off * 8";
"";
"}";
"";
"/* byte buffer methods */";
"";
"// WriteBytes writes bytes to the buffer at the specified offset";
"// without modifying the internal offset value";
"func (b *Buffer) WriteBytes(off int64, data []byte) {";
"";
"	if (off + int64(len(data))) > b.cap {";
"";
"		panic(BufferOverwriteError)";
"";
"	}";
"";
"	if off < 0x00 {";
"";
"		panic(BufferUnderwriteError)";
"";
"	}";
"";
"	copy(b.buf[off:], data)";
"";
"}";
"";
"// WriteBytesNext writes bytes to the buffer at the current offset";
"// and moves the offset forward the amount of bytes written";
"func (b *Buffer) WriteBytesNext(data []byte) {";
"";
"	b.WriteBytes(b.off, data)";
"	b.SeekByte(int64(len(data)), true)";
"";
"}";
"";
"// WriteByte writes a byte to the buffer at the specified offset";
"// without modifying the internal offset value";
"func (b *Buffer) WriteByte(off int64, data byte) {";
"";
"	b.WriteBytes(off, []byte{data})";
"";
"}";
"";
"// WriteByteNext writes a byte to the buffer at the current";
"// offset and moves the offset forward the amount of bytes written";
"func (b *Buffer) WriteByteNext(data byte) {";
"";
"	b.WriteBytes(b.off, []byte{data})";
"	b.SeekByte(1, true)";
"";
"}";
"";
"// WriteU16LE writes a slice of uint16s to the buffer at the"].

(** v3/buffer.generated.go:401-500 *)
Definition v3_buffer_4 : list string := [
"// specified offset in little-endian without modifying the internal";
"// offset value";
"func (b *Buffer) WriteU16LE(off int64, data []uint16) {";
"	if (off + int64(len(data))*2) > b.cap {";
"		panic(BufferOverwriteError)";
"	}";
"	if off < 0 {";
"		panic(BufferUnderwriteError)";
"	}";
"	i := 0";
"	n := len(data)";
"	{";
"	write_loop:";
"		b.buf[off+int64(i*2)] = byte(data[i])";
"		b.buf[off+int64(1+(i*2))] = byte(data[i] >> 8)";
"		i++";
"		if i < n {";
"			goto write_loop";
"		}";
"	}";
"}";
"";
"// WriteU16LENext writes a slice of uint16s to the buffer at the";
"// current offset in little-endian and moves the offset forward the";
"// amount of bytes written";
"func (b *Buffer) WriteU16LENext(data []uint16) {";
"	b.WriteU16LE(b.off, data)";
"	b.SeekByte(int64(len(data))*2, true)";
"}";
"";
"// WriteU16BE writes a slice of uint16s to the buffer at the";
"// specified offset in big-endian without modifying the internal";
"// offset value";
"func (b *Buffer) WriteU16BE(off int64, data []uint16) {";
"	if (off + int64(len(data))*2) > b.cap {";
"		panic(BufferOverwriteError)";
"	}";
"	if off < 0 {";
"		panic(BufferUnderwriteError)";
"	}";
"	i := 0";
"	n := len(data)";
"	{";
"	write_loop:";
"		b.buf[off+int64(i*2)] = byte(data[i] >> 8)";
"		b.buf[off+int64(1+(i*2))] = byte(data[i])";
"		i++";
"		if i < n {";
"			goto write_loop";
"		}";
"	}";
"}";
"";
"// WriteU16BENext writes a slice of uint16s to the buffer at the";
"// current offset in big-endian and moves the offset forward the";
"// amount of bytes written";
"func (b *Buffer) WriteU16BENext(data []uint16) {";
"	b.WriteU16BE(b.off, data)";
"	b.SeekByte(int64(len(data))*2, true)";
"}";
"";
"// WriteU32LE writes a slice of uint32s to the buffer at the";
"// specified offset in little-endian without modifying the internal";
"// offset value";
"func (b *Buffer) WriteU32LE(off int64, data []uint32) {";
"	if (off + int64(len(data))*4) > b.cap {";
"		panic(BufferOverwriteError)";
"	}";
"	if off < 0 {";
"		panic(BufferUnderwriteError)";
"	}";
"	i := 0";
"	n := len(data)";
"	{";
"	write_loop:";
"		b.buf[off+int64(i*4)] = byte(data[i])";
"		b.buf[off+int64(1+(i*4))] = byte(data[i] >> 8)";
"		b.buf[off+int64(2+(i*4))] = byte(data[i] >> 16)";
"		b.buf[off+int64(3+(i*4))] = byte(data[i] >> 24)";
"		i++";
"		if i < n {";
"			goto write_loop";
"		}";
"	}";
"}";
"";
"// WriteU32LENext writes a slice of uint32s to the buffer at the";
"// current offset in little-endian and moves the offset forward the";
"// amount of bytes written";
"func (b *Buffer) WriteU32LENext(data []uint32) {";
"	b.WriteU32LE(b.off, data)";
"	b.SeekByte(int64(len(data))*4, true)";
"}";
"";
"// WriteU32BE writes a slice of uint32s to the buffer at the";
"// specified offset in big-endian without modifying the internal";
"// offset value";
"func (b *Buffer) WriteU32BE(off int64, data []uint32) {";
"	if (off + int64(len(data))*4) > b.cap {";
"		panic(BufferOverwriteError)"].

(** v3/buffer.generated.go:501-600 *)
Definition v3_buffer_5 : list string := [
"	}";
"	if off < 0 {";
"		panic(BufferUnderwriteError)";
"	}";
"	i := 0";
"	n := len(data)";
"	{";
"	write_loop:";
"		b.buf[off+int64(i*4)] = byte(data[i] >> 24)";
"		b.buf[off+int64(1+(i*4))] = byte(data[i] >> 16)";
"		b.buf[off+int64(2+(i*4))] = byte(data[i] >> 8)";
"		b.buf[off+int64(3+(i*4))] = byte(data[i])";
"		i++";
"		if i < n {";
"			goto write_loop";
"		}";
"	}";
"}";
"";
"// WriteU32BENext writes a slice of uint32s to the buffer at the";
"// current offset in big-endian and moves the offset forward the";
"// amount of bytes written";
"func (b *Buffer) WriteU32BENext(data []uint32) {";
"	b.WriteU32BE(b.off, data)";
"	b.SeekByte(int64(len(data))*4, true)";
"}";
"";
"// WriteU64LE writes a slice of uint64s to the buffer at the";
"// specified offset in little-endian without modifying the internal";
"// offset value";
"func (b *Buffer) WriteU64LE(off int64, data []uint64) {";
"	if (off + int64(len(data))*8) > b.cap {";
"		panic(BufferOverwriteError)";
"	}";
"	if off < 0 {";
"		panic(BufferUnderwriteError)";
"	}";
"	i := 0";
"	n := len(data)";
"	{";
"	write_loop:";
"		b.buf[off+int64(i*8)] = byte(data[i])";
"		b.buf[off+int64(1+(i*8))] = byte(data[i] >> 8)";
"		b.buf[off+int64(2+(i*8))] = byte(data[i] >> 16)";
"		b.buf[off+int64(3+(i*8))] = byte(data[i] >> 24)";
"		b.buf[off+int64(4+(i*8))] = byte(data[i] >> 32)";
"		b.buf[off+int64(5+(i*8))] = byte(data[i] >> 40)";
"		b.buf[off+int64(6+(i*8))] = byte(data[i] >> 48)";
"		b.buf[off+int64(7+(i*8))] = byte(data[i] >> 56)";
"		i++";
"		if i < n {";
"			goto write_loop";
"		}";
"	}";
"}";
"";
"// WriteU64LENext writes a slice of uint64s to the buffer at the";
"// current offset in little-endian and moves the offset forward the";
"// amount of bytes written";
"func (b *Buffer) WriteU64LENext(data []uint64) {";
"	b.WriteU64LE(b.off, data)";
"	b.SeekByte(int64(len(data))*8, true)";
"}";
"";
"// WriteU64BE writes a slice of uint64s to the buffer at the";
"// specified offset in big-endian without modifying the internal";
"// offset value";
"func (b *Buffer) WriteU64BE(off int64, data []uint64) {";
"	if (off + int64(len(data))*8) > b.cap {";
"		panic(BufferOverwriteError)";
"	}";
"	if off < 0 {";
"		panic(BufferUnderwriteError)";
"	}";
"	i := 0";
"	n := len(data)";
"	{";
"	write_loop:";
"		b.buf[off+int64(i*8)] = byte(data[i] >> 56)";
"		b.buf[off+int64(1+(i*8))] = byte(data[i] >> 48)";
"		b.buf[off+int64(2+(i*8))] = byte(data[i] >> 40)";
"		b.buf[off+int64(3+(i*8))] = byte(data[i] >> 32)";
"		b.buf[off+int64(4+(i*8))] = byte(data[i] >> 24)";
"		b.buf[off+int64(5+(i*8))] = byte(data[i] >> 16)";
"		b.buf[off+int64(6+(i*8))] = byte(data[i] >> 8)";
"		b.buf[off+int64(7+(i*8))] = byte(data[i])";
"		i++";
"		if i < n {";
"			goto write_loop";
"		}";
"	}";
"}";
"";
"// WriteU64BENext writes a slice of uint64s to the buffer at the";
"// current offset in big-endian and moves the offset forward the";
"// amount of bytes written";
"func (b *Buffer) WriteU64BENext(data []uint64) {";
"	b.WriteU64BE(b.off, data)";
"	b.SeekByte(int64(len(data))*8, true)";
"}"].

(** v3/buffer.generated.go:601-700 *)
Definition v3_buffer_6 : list string := [
"";
"// WriteI16LE writes a slice of int16s to the buffer at the";
"// specified offset in little-endian without modifying the internal";
"// offset value";
"func (b *Buffer) WriteI16LE(off int64, data []int16) {";
"	if (off + int64(len(data))*2) > b.cap {";
"		panic(BufferOverwriteError)";
"	}";
"	if off < 0 {";
"		panic(BufferUnderwriteError)";
"	}";
"	i := 0";
"	n := len(data)";
"	{";
"	write_loop:";
"		b.buf[off+int64(i*2)] = byte(data[i])";
"		b.buf[off+int64(1+(i*2))] = byte(data[i] >> 8)";
"		i++";
"		if i < n {";
"			goto write_loop";
"		}";
"	}";
"}";
"";
"// WriteI16LENext writes a slice of int16s to the buffer at the";
"// current offset in little-endian and moves the offset forward the";
"// amount of bytes written";
"func (b *Buffer) WriteI16LENext(data []int16) {";
"	b.WriteI16LE(b.off, data)";
"	b.SeekByte(int64(len(data))*2, true)";
"}";
"";
"// WriteI16BE writes a slice of int16s to the buffer at the";
"// specified offset in big-endian without modifying the internal";
"// offset value";
"func (b *Buffer) WriteI16BE(off int64, data []int16) {";
"	if (off + int64(len(data))*2) > b.cap {";
"		panic(BufferOverwriteError)";
"	}";
"	if off < 0 {";
"		panic(BufferUnderwriteError)";
"	}";
"	i := 0";
"	n := len(data)";
"	{";
"	write_loop:";
"		b.buf[off+int64(i*2)] = byte(data[i] >> 8)";
"		b.buf[off+int64(1+(i*2))] = byte(data[i])";
"		i++";
"		if i < n {";
"			goto write_loop";
"		}";
"	}";
"}";
"";
"// WriteI16BENext writes a slice of int16s to the buffer at the";
"// current offset in big-endian and moves the offset forward the";
"// amount of bytes written";
"func (b *Buffer) WriteI16BENext(data []int16) {";
"	b.WriteI16BE(b.off, data)";
"	b.SeekByte(int64(len(data))*2, true)";
"}";
"";
"// WriteI32LE writes a slice of int32s to the buffer at the";
"// specified offset in little-endian without modifying the internal";
"// offset value";
"func (b *Buffer) WriteI32LE(off int64, data []int32) {";
"	if (off + int64(len(data))*4) > b.cap {";
"		panic(BufferOverwriteError)";
"	}";
"	if off < 0 {";
"		panic(BufferUnderwriteError)";
"	}";
"	i := 0";
"	n := len(data)";
"	{";
"	write_loop:";
"		b.buf[off+int64(i*4)] = byte(data[i])";
"		b.buf[off+int64(1+(i*4))] = byte(data[i] >> 8)";
"		b.buf[off+int64(2+(i*4))] = byte(data[i] >> 16)";
"		b.buf[off+int64(3+(i*4))] = byte(data[i] >> 24)";
"		i++";
"		if i < n {";
"			goto write_loop";
"		}";
"	}";
"}";
"";
"// WriteI32LENext writes a slice of int32s to the buffer at the";
"// current offset in little-endian and moves the offset forward the";
"// amount of bytes written";
"func (b *Buffer) WriteI32LENext(data []int32) {";
"	b.WriteI32LE(b.off, data)";
"	b.SeekByte(int64(len(data))*4, true)";
"}";
"";
"// WriteI32BE writes a slice of int32s to the buffer at the";
"// specified offset in big-endian without modifying the internal";
"// offset value";
"func (b *Buffer) WriteI32BE(off int64, data []int32) {"].

(** v3/buffer.generated.go:701-800 *)
Definition v3_buffer_7 : list string := [
"	if (off + int64(len(data))*4) > b.cap {";
"		panic(BufferOverwriteError)";
"	}";
"	if off < 0 {";
"		panic(BufferUnderwriteError)";
"	}";
"	i := 0";
"	n := len(data)";
"	{";
"	write_loop:";
"		b.buf[off+int64(i*4)] = byte(data[i] >> 24)";
"		b.buf[off+int64(1+(i*4))] = byte(data[i] >> 16)";
"		b.buf[off+int64(2+(i*4))] = byte(data[i] >> 8)";
"		b.buf[off+int64(3+(i*4))] = byte(data[i])";
"		i++";
"		if i < n {";
"			goto write_loop";
"		}";
"	}";
"}";
"";
"// WriteI32BENext writes a slice of int32s to the buffer at the";
"// current offset in big-endian and moves the offset forward the";
"// amount of bytes written";
"func (b *Buffer) WriteI32BENext(data []int32) {";
"	b.WriteI32BE(b.off, data)";
"	b.SeekByte(int64(len(data))*4, true)";
"}";
"";
"// WriteI64LE writes a slice of int64s to the buffer at the";
"// specified offset in little-endian without modifying the internal";
"// offset value";
"func (b *Buffer) WriteI64LE(off int64, data []int64) {";
"	if (off + int64(len(data))*8) > b.cap {";
"		panic(BufferOverwriteError)";
"	}";
"	if off < 0 {";
"		panic(BufferUnderwriteError)";
"	}";
"	i := 0";
"	n := len(data)";
"	{";
"	write_loop:";
"		b.buf[off+int64(i*8)] = byte(data[i])";
"		b.buf[off+int64(1+(i*8))] = byte(data[i] >> 8)";
"		b.buf[off+int64(2+(i*8))] = byte(data[i] >> 16)";
"		b.buf[off+int64(3+(i*8))] = byte(data[i] >> 24)";
"		b.buf[off+int64(4+(i*8))] = byte(data[i] >> 32)";
"		b.buf[off+int64(5+(i*8))] = byte(data[i] >> 40)";
"		b.buf[off+int64(6+(i*8))] = byte(data[i] >> 48)";
"		b.buf[off+int64(7+(i*8))] = byte(data[i] >> 56)";
"		i++";
"		if i < n {";
"			goto write_loop";
"		}";
"	}";
"}";
"";
"// WriteI64LENext writes a slice of int64s to the buffer at the";
"// current offset in little-endian and moves the offset forward the";
"// amount of bytes written";
"func (b *Buffer) WriteI64LENext(data []int64) {";
"	b.WriteI64LE(b.off, data)";
"	b.SeekByte(int64(len(data))*8, true)";
"}";
"";
"// WriteI64BE writes a slice of int64s to the buffer at the";
"// specified offset in big-endian without modifying the internal";
"// offset value";
"func (b *Buffer) WriteI64BE(off int64, data []int64) {";
"	if (off + int64(len(data))*8) > b.cap {";
"		panic(BufferOverwriteError)";
"	}";
"	if off < 0 {";
"		panic(BufferUnderwriteError)";
"	}";
"	i := 0";
"	n := len(data)";
"	{";
"	write_loop:";
"		b.buf[off+int64(i*8)] = byte(data[i] >> 56)";
"		b.buf[off+int64(1+(i*8))] = byte(data[i] >> 48)";
"		b.buf[off+int64(2+(i*8))] = byte(data[i] >> 40)";
"		b.buf[off+int64(3+(i*8))] = byte(data[i] >> 32)";
"		b.buf[off+int64(4+(i*8))] = byte(data[i] >> 24)";
"		b.buf[off+int64(5+(i*8))] = byte(data[i] >> 16)";
"		b.buf[off+int64(6+(i*8))] = byte(data[i] >> 8)";
"		b.buf[off+int64(7+(i*8))] = byte(data[i])";
"		i++";
"		if i < n {";
"			goto write_loop";
"		}";
"	}";
"}";
"";
"// WriteI64BENext writes a slice of int64s to the buffer at the";
"// current offset in big-endian and moves the offset forward the";
"// amount of bytes written";
"func (b *Buffer) WriteI64BENext(data []int64) {";
"	b.WriteI64BE(b.off, data)"].

(** v3/buffer.generated.go:801-900 *)
Definition v3_buffer_8 : list string := [
"	b.SeekByte(int64(len(data))*8, true)";
"}";
"";
"// WriteF32LE writes a slice of float32s to the buffer at the";
"// specified offset in little-endian without modifying the internal";
"// offset value";
"func (b *Buffer) WriteF32LE(off int64, data []float32) {";
"	if (off + int64(len(data))*4) > b.cap {";
"		panic(BufferOverwriteError)";
"	}";
"	if off < 0 {";
"		panic(BufferUnderwriteError)";
"	}";
"	i := 0";
"	n := len(data)";
"	{";
"	write_loop:";
"		b.buf[off+int64(i*4)] = byte(*(*uint32)(unsafe.Pointer(&data[i])))";
"		b.buf[off+int64(1+(i*4))] = byte(*(*uint32)(unsafe.Pointer(&data[i])) >> 8)";
"		b.buf[off+int64(2+(i*4))] = byte(*(*uint32)(unsafe.Pointer(&data[i])) >> 16)";
"		b.buf[off+int64(3+(i*4))] = byte(*(*uint32)(unsafe.Pointer(&data[i])) >> 24)";
"		i++";
"		if i < n {";
"			goto write_loop";
"		}";
"	}";
"}";
"";
"// WriteF32LENext writes a slice of float32s to the buffer at the";
"// current offset in little-endian and moves the offset forward the";
"// amount of bytes written";
"func (b *Buffer) WriteF32LENext(data []float32) {";
"	b.WriteF32LE(b.off, data)";
"	b.SeekByte(int64(len(data))*4, true)";
"}";
"";
"// WriteF32BE writes a slice of float32s to the buffer at the";
"// specified offset in big-endian without modifying the internal";
"// offset value";
"func (b *Buffer) WriteF32BE(off int64, data []float32) {";
"	if (off + int64(len(data))*4) > b.cap {";
"		panic(BufferOverwriteError)";
"	}";
"	if off < 0 {";
"		panic(BufferUnderwriteError)";
"	}";
"	i := 0";
"	n := len(data)";
"	{";
"	write_loop:";
"		b.buf[off+int64(i*4)] = byte(*(*uint32)(unsafe.Pointer(&data[i])) >> 24)";
"		b.buf[off+int64(1+(i*4))] = byte(*(*uint32)(unsafe.Pointer(&data[i])) >> 16)";
"		b.buf[off+int64(2+(i*4))] = byte(*(*uint32)(unsafe.Pointer(&data[i])) >> 8)";
"		b.buf[off+int64(3+(i*4))] = byte(*(*uint32)(unsafe.Pointer(&data[i])))";
"		i++";
"		if i < n {";
"			goto write_loop";
"		}";
"	}";
"}";
"";
"// WriteF32BENext writes a slice of float32s to the buffer at the";
"// current offset in big-endian and moves the offset forward the";
"// amount of bytes written";
"func (b *Buffer) WriteF32BENext(data []float32) {";
"	b.WriteF32BE(b.off, data)";
"	b.SeekByte(int64(len(data))*4, true)";
"}";
"";
"// WriteF64LE writes a slice of float64s to the buffer at the";
"// specified offset in little-endian without modifying the internal";
"// offset value";
"func (b *Buffer) WriteF64LE(off int64, data []float64) {";
"	if (off + int64(len(data))*8) > b.cap {";
"		panic(BufferOverwriteError)";
"	}";
"	if off < 0 {";
"		panic(BufferUnderwriteError)";
"	}";
"	i := 0";
"	n := len(data)";
"	{";
"	write_loop:";
"		b.buf[off+int64(i*8)] = byte(*(*uint64)(unsafe.Pointer(&data[i])))";
"		b.buf[off+int64(1+(i*8))] = byte(*(*uint64)(unsafe.Pointer(&data[i])) >> 8)";
"		b.buf[off+int64(2+(i*8))] = byte(*(*uint64)(unsafe.Pointer(&data[i])) >> 16)";
"		b.buf[off+int64(3+(i*8))] = byte(*(*uint64)(unsafe.Pointer(&data[i])) >> 24)";
"		b.buf[off+int64(4+(i*8))] = byte(*(*uint64)(unsafe.Pointer(&data[i])) >> 32)";
"		b.buf[off+int64(5+(i*8))] = byte(*(*uint64)(unsafe.Pointer(&data[i])) >> 40)";
"		b.buf[off+int64(6+(i*8))] = byte(*(*uint64)(unsafe.Pointer(&data[i])) >> 48)";
"		b.buf[off+int64(7+(i*8))] = byte(*(*uint64)(unsafe.Pointer(&data[i])) >> 56)";
"		i++";
"		if i < n {";
"			goto write_loop";
"		}";
"	}";
"}";
"";
"// WriteF64LENext writes a slice of float64s to the buffer at the";
"// current offset in little-endian and moves the offset forward the"].

(** v3/buffer.generated.go:901-1000 *)
Definition v3_buffer_9 : list string := [
"// amount of bytes written";
"func (b *Buffer) WriteF64LENext(data []float64) {";
"	b.WriteF64LE(b.off, data)";
"	b.SeekByte(int64(len(data))*8, true)";
"}";
"";
"// WriteF64BE writes a slice of float64s to the buffer at the";
"// specified offset in big-endian without modifying the internal";
"// offset value";
"func (b *Buffer) WriteF64BE(off int64, data []float64) {";
"	if (off + int64(len(data))*8) > b.cap {";
"		panic(BufferOverwriteError)";
"	}";
"	if off < 0 {";
"		panic(BufferUnderwriteError)";
"	}";
"	i := 0";
"	n := len(data)";
"	{";
"	write_loop:";
"		b.buf[off+int64(i*8)] = byte(*(*uint64)(unsafe.Pointer(&data[i])) >> 56)";
"		b.buf[off+int64(1+(i*8))] = byte(*(*uint64)(unsafe.Pointer(&data[i])) >> 48)";
"		b.buf[off+int64(2+(i*8))] = byte(*(*uint64)(unsafe.Pointer(&data[i])) >> 40)";
"		b.buf[off+int64(3+(i*8))] = byte(*(*uint64)(unsafe.Pointer(&data[i])) >> 32)";
"		b.buf[off+int64(4+(i*8))] = byte(*(*uint64)(unsafe.Pointer(&data[i])) >> 24)";
"		b.buf[off+int64(5+(i*8))] = byte(*(*uint64)(unsafe.Pointer(&data[i])) >> 16)";
"		b.buf[off+int64(6+(i*8))] = byte(*(*uint64)(unsafe.Pointer(&data[i])) >> 8)";
"		b.buf[off+int64(7+(i*8))] = byte(*(*uint64)(unsafe.Pointer(&data[i])))";
"		i++";
"		if i < n {";
"			goto write_loop";
"		}";
"	}";
"}";
"";
"// WriteF64BENext writes a slice of float64s to the buffer at the";
"// current offset in big-endian and moves the offset forward the";
"// amount of bytes written";
"func (b *Buffer) WriteF64BENext(data []float64) {";
"	b.WriteF64BE(b.off, data)";
"	b.SeekByte(int64(len(data))*8, true)";
"}";
"";
"// ReadBytes returns the next n bytes from the specified offset";
"// without modifying the internal offset value";
"func (b *Buffer) ReadBytes(off, n int64) []byte {";
"";
"	if (off + n) > b.cap {";
"";
"		panic(BufferOverreadError)";
"";
"	}";
"";
"	if off < 0x00 {";
"";
"		panic(BufferUnderreadError)";
"";
"	}";
"";
"	return b.buf[off : off+n]";
"";
"}";
"";
"// ReadBytesNext returns the next n bytes from the current offset";
"// and moves the offset forward the amount of bytes read";
"func (b *Buffer) ReadBytesNext(n int64) (out []byte) {";
"";
"	out = b.ReadBytes(b.off, n)";
"	b.SeekByte(n, true)";
"	return";
"";
"}";
"";
"// ReadByte returns the next byte from the specified offset without";
"// modifying the internal offset value";
"func (b *Buffer) ReadByte(off int64) byte {";
"";
"	return b.ReadBytes(off, 1)[0]";
"";
"}";
"";
"// ReadByteNext returns the next byte from the current offset and";
"// moves the offset forward a byte";
"func (b *Buffer) ReadByteNext() (out byte) {";
"";
"	out = b.ReadBytes(b.off, 1)[0]";
"	b.SeekByte(1, true)";
"	return";
"";
"}";
"";
"// ReadU16LE reads a slice of uint16s from the buffer at the";
"// specified offset in little-endian without modifying the internal";
"// offset value";
"func (b *Buffer) ReadU16LE(off, n int64) (out []uint16) {";
"	if (off + n*2) > b.cap {";
"		panic(BufferOverreadError)";
"	}";
"	if off < 0 {";
"		panic(BufferUnderreadError)"].

(** v3/buffer.generated.go:1001-1100 *)
Definition v3_buffer_10 : list string := [
"	}";
"	out = make([]uint16, n)";
"	i := int64(0)";
"	{";
"	read_loop:";
"		out[i] = uint16(b.buf[off+(i*2)]) | uint16(b.buf[off+(1+(i*2))])<<8";
"		i++";
"		if i < n {";
"			goto read_loop";
"		}";
"	}";
"	return";
"}";
"";
"// ReadU16LENext reads a slice of uint16s from the buffer at the";
"// current offset in little-endian and moves the offset forward the";
"// amount of bytes written";
"func (b *Buffer) ReadU16LENext(n int64) (out []uint16) {";
"	out = b.ReadU16LE(b.off, n)";
"	b.SeekByte(n*2, true)";
"	return";
"}";
"";
"// ReadU16BE reads a slice of uint16s from the buffer at the";
"// specified offset in big-endian without modifying the internal";
"// offset value";
"func (b *Buffer) ReadU16BE(off, n int64) (out []uint16) {";
"	if (off + n*2) > b.cap {";
"		panic(BufferOverreadError)";
"	}";
"	if off < 0 {";
"		panic(BufferUnderreadError)";
"	}";
"	out = make([]uint16, n)";
"	i := int64(0)";
"	{";
"	read_loop:";
"		out[i] = uint16(b.buf[off+(1+(i*2))]) | uint16(b.buf[off+(i*2)])<<8";
"		i++";
"		if i < n {";
"			goto read_loop";
"		}";
"	}";
"	return";
"}";
"";
"// ReadU16BENext reads a slice of uint16s from the buffer at the";
"// current offset in big-endian and moves the offset forward the";
"// amount of bytes written";
"func (b *Buffer) ReadU16BENext(n int64) (out []uint16) {";
"	out = b.ReadU16BE(b.off, n)";
"	b.SeekByte(n*2, true)";
"	return";
"}";
"";
"// ReadU32LE reads a slice of uint32s from the buffer at the";
"// specified offset in little-endian without modifying the internal";
"// offset value";
"func (b *Buffer) ReadU32LE(off, n int64) (out []uint32) {";
"	if (off + n*4) > b.cap {";
"		panic(BufferOverreadError)";
"	}";
"	if off < 0 {";
"		panic(BufferUnderreadError)";
"	}";
"	out = make([]uint32, n)";
"	i := int64(0)";
"	{";
"	read_loop:";
"		out[i] = uint32(b.buf[off+(i*4)]) | uint32(b.buf[off+(1+(i*4))])<<8 | uint32(b.buf[off+(2+(i*4))])<<16 | uint32(b.buf[off+(3+(i*4))])<<24";
"		i++";
"		if i < n {";
"			goto read_loop";
"		}";
"	}";
"	return";
"}";
"";
"// ReadU32LENext reads a slice of uint32s from the buffer at the";
"// current offset in little-endian and moves the offset forward the";
"// amount of bytes written";
"func (b *Buffer) ReadU32LENext(n int64) (out []uint32) {";
"	out = b.ReadU32LE(b.off, n)";
"	b.SeekByte(n*4, true)";
"	return";
"}";
"";
"// ReadU32BE reads a slice of uint32s from the buffer at the";
"// specified offset in big-endian without modifying the internal";
"// offset value";
"func (b *Buffer) ReadU32BE(off, n int64) (out []uint32) {";
"	if (off + n*4) > b.cap {";
"		panic(BufferOverreadError)";
"	}";
"	if off < 0 {";
"		panic(BufferUnderreadError)";
"	}";
"	out = make([]uint32, n)";
"	i := int64(0)";
"	{"].

(** v3/buffer.generated.go:1101-1200 *)
Definition v3_buffer_11 : list string := [
"	read_loop:";
"		out[i] = uint32(b.buf[off+(3+(i*4))]) | uint32(b.buf[off+(2+(i*4))])<<8 | uint32(b.buf[off+(1+(i*4))])<<16 | uint32(b.buf[off+(i*4)])<<24";
"		i++";
"		if i < n {";
"			goto read_loop";
"		}";
"	}";
"	return";
"}";
"";
"// ReadU32BENext reads a slice of uint32s from the buffer at the";
"// current offset in big-endian and moves the offset forward the";
"// amount of bytes written";
"func (b *Buffer) ReadU32BENext(n int64) (out []uint32) {";
"	out = b.ReadU32BE(b.off, n)";
"	b.SeekByte(n*4, true)";
"	return";
"}";
"";
"// ReadU64LE reads a slice of uint64s from the buffer at the";
"// specified offset in little-endian without modifying the internal";
"// offset value";
"func (b *Buffer) ReadU64LE(off, n int64) (out []uint64) {";
"	if (off + n*8) > b.cap {";
"		panic(BufferOverreadError)";
"	}";
"	if off < 0 {";
"		panic(BufferUnderreadError)";
"	}";
"	out = make([]uint64, n)";
"	i := int64(0)";
"	{";
"	read_loop:";
"		out[i] = uint64(b.buf[off+(i*8)]) | uint64(b.buf[off+(1+(i*8))])<<8 | uint64(b.buf[off+(2+(i*8))])<<16 | uint64(b.buf[off+(3+(i*8))])<<24 | uint64(b.buf[off+(4+(i*8))])<<32 | uint64(b.buf[off+(5+(i*8))])<<40 | uint64(b.buf[off+(6+(i*8))])<<48 | uint64(b.buf[off+(7+(i*8))])<<56";
"		i++";
"		if i < n {";
"			goto read_loop";
"		}";
"	}";
"	return";
"}";
"";
"// ReadU64LENext reads a slice of uint64s from the buffer at the";
"// current offset in little-endian and moves the offset forward the";
"// amount of bytes written";
"func (b *Buffer) ReadU64LENext(n int64) (out []uint64) {";
"	out = b.ReadU64LE(b.off, n)";
"	b.SeekByte(n*8, true)";
"	return";
"}";
"";
"// ReadU64BE reads a slice of uint64s from the buffer at the";
"// specified offset in big-endian without modifying the internal";
"// offset value";
"func (b *Buffer) ReadU64BE(off, n int64) (out []uint64) {";
"	if (off + n*8) > b.cap {";
"		panic(BufferOverreadError)";
"	}";
"	if off < 0 {";
"		panic(BufferUnderreadError)";
"	}";
"	out = make([]uint64, n)";
"	i := int64(0)";
"	{";
"	read_loop:";
"		out[i] = uint64(b.buf[off+(7+(i*8))]) | uint64(b.buf[off+(6+(i*8))])<<8 | uint64(b.buf[off+(5+(i*8))])<<16 | uint64(b.buf[off+(4+(i*8))])<<24 | uint64(b.buf[off+(3+(i*8))])<<32 | uint64(b.buf[off+(2+(i*8))])<<40 | uint64(b.buf[off+(1+(i*8))])<<48 | uint64(b.buf[off+(i*8)])<<56";
"		i++";
"		if i < n {";
"			goto read_loop";
"		}";
"	}";
"	return";
"}";
"";
"// ReadU64BENext reads a slice of uint64s from the buffer at the";
"// current offset in big-endian and moves the offset forward the";
"// amount of bytes written";
"func (b *Buffer) ReadU64BENext(n int64) (out []uint64) {";
"	out = b.ReadU64BE(b.off, n)";
"	b.SeekByte(n*8, true)";
"	return";
"}";
"";
"// ReadI16LE reads a slice of int16s from the buffer at the";
"// specified offset in little-endian without modifying the internal";
"// offset value";
"func (b *Buffer) ReadI16LE(off, n int64) (out []int16) {";
"	if (off + n*2) > b.cap {";
"		panic(BufferOverreadError)";
"	}";
"	if off < 0 {";
"		panic(BufferUnderreadError)";
"	}";
"	out = make([]int16, n)";
"	i := int64(0)";
"	{";
"	read_loop:";
"		out[i] = int16(b.buf[off+(i*2)]) | int16(b.buf[off+(1+(i*2))])<<8";
"		i++";
"		if i < n {"].

(** v3/buffer.generated.go:1201-1300 *)
Definition v3_buffer_12 : list string := [
"			goto read_loop";
"		}";
"	}";
"	return";
"}";
"";
"// ReadI16LENext reads a slice of int16s from the buffer at the";
"// current offset in little-endian and moves the offset forward the";
"// amount of bytes written";
"func (b *Buffer) ReadI16LENext(n int64) (out []int16) {";
"	out = b.ReadI16LE(b.off, n)";
"	b.SeekByte(n*2, true)";
"	return";
"}";
"";
"// ReadI16BE reads a slice of int16s from the buffer at the";
"// specified offset in big-endian without modifying the internal";
"// offset value";
"func (b *Buffer) ReadI16BE(off, n int64) (out []int16) {";
"	if (off + n*2) > b.cap {";
"		panic(BufferOverreadError)";
"	}";
"	if off < 0 {";
"		panic(BufferUnderreadError)";
"	}";
"	out = make([]int16, n)";
"	i := int64(0)";
"	{";
"	read_loop:";
"		out[i] = int16(b.buf[off+(1+(i*2))]) | int16(b.buf[off+(i*2)])<<8";
"		i++";
"		if i < n {";
"			goto read_loop";
"		}";
"	}";
"	return";
"}";
"";
"// ReadI16BENext reads a slice of int16s from the buffer at the";
"// current offset in big-endian and moves the offset forward the";
"// amount of bytes written";
"func (b *Buffer) ReadI16BENext(n int64) (out []int16) {";
"	out = b.ReadI16BE(b.off, n)";
"	b.SeekByte(n*2, true)";
"	return";
"}";
"";
"// ReadI32LE reads a slice of int32s from the buffer at the";
"// specified offset in little-endian without modifying the internal";
"// offset value";
"func (b *Buffer) ReadI32LE(off, n int64) (out []int32) {";
"	if (off + n*4) > b.cap {";
"		panic(BufferOverreadError)";
"	}";
"	if off < 0 {";
"		panic(BufferUnderreadError)";
"	}";
"	out = make([]int32, n)";
"	i := int64(0)";
"	{";
"	read_loop:";
"		out[i] = int32(b.buf[off+(i*4)]) | int32(b.buf[off+(1+(i*4))])<<8 | int32(b.buf[off+(2+(i*4))])<<16 | int32(b.buf[off+(3+(i*4))])<<24";
"		i++";
"		if i < n {";
"			goto read_loop";
"		}";
"	}";
"	return";
"}";
"";
"// ReadI32LENext reads a slice of int32s from the buffer at the";
"// current offset in little-endian and moves the offset forward the";
"// amount of bytes written";
"func (b *Buffer) ReadI32LENext(n int64) (out []int32) {";
"	out = b.ReadI32LE(b.off, n)";
"	b.SeekByte(n*4, true)";
"	return";
"}";
"";
"// ReadI32BE reads a slice of int32s from the buffer at the";
"// specified offset in big-endian without modifying the internal";
"// offset value";
"func (b *Buffer) ReadI32BE(off, n int64) (out []int32) {";
"	if (off + n*4) > b.cap {";
"		panic(BufferOverreadError)";
"	}";
"	if off < 0 {";
"		panic(BufferUnderreadError)";
"	}";
"	out = make([]int32, n)";
"	i := int64(0)";
"	{";
"	read_loop:";
"		out[i] = int32(b.buf[off+(3+(i*4))]) | int32(b.buf[off+(2+(i*4))])<<8 | int32(b.buf[off+(1+(i*4))])<<16 | int32(b.buf[off+(i*4)])<<24";
"		i++";
"		if i < n {";
"			goto read_loop";
"		}";
"	}";
"	return"].

(** v3/buffer.generated.go:1301-1400 *)
Definition v3_buffer_13 : list string := [
"}";
"";
"// ReadI32BENext reads a slice of int32s from the buffer at the";
"// current offset in big-endian and moves the offset forward the";
"// amount of bytes written";
"func (b *Buffer) ReadI32BENext(n int64) (out []int32) {";
"	out = b.ReadI32BE(b.off, n)";
"	b.SeekByte(n*4, true)";
"	return";
"}";
"";
"// ReadI64LE reads a slice of int64s from the buffer at the";
"// specified offset in little-endian without modifying the internal";
"// offset value";
"func (b *Buffer) ReadI64LE(off, n int64) (out []int64) {";
"	if (off + n*8) > b.cap {";
"		panic(BufferOverreadError)";
"	}";
"	if off < 0 {";
"		panic(BufferUnderreadError)";
"	}";
"	out = make([]int64, n)";
"	i := int64(0)";
"	{";
"	read_loop:";
"		out[i] = int64(b.buf[off+(i*8)]) | int64(b.buf[off+(1+(i*8))])<<8 | int64(b.buf[off+(2+(i*8))])<<16 | int64(b.buf[off+(3+(i*8))])<<24 | int64(b.buf[off+(4+(i*8))])<<32 | int64(b.buf[off+(5+(i*8))])<<40 | int64(b.buf[off+(6+(i*8))])<<48 | int64(b.buf[off+(7+(i*8))])<<56";
"		i++";
"		if i < n {";
"			goto read_loop";
"		}";
"	}";
"	return";
"}";
"";
"// ReadI64LENext reads a slice of int64s from the buffer at the";
"// current offset in little-endian and moves the offset forward the";
"// amount of bytes written";
"func (b *Buffer) ReadI64LENext(n int64) (out []int64) {";
"	out = b.ReadI64LE(b.off, n)";
"	b.SeekByte(n*8, true)";
"	return";
"}";
"";
"// ReadI64BE reads a slice of int64s from the buffer at the";
"// specified offset in big-endian without modifying the internal";
"// offset value";
"func (b *Buffer) ReadI64BE(off, n int64) (out []int64) {";
"	if (off + n*8) > b.cap {";
"		panic(BufferOverreadError)";
"	}";
"	if off < 0 {";
"		panic(BufferUnderreadError)";
"	}";
"	out = make([]int64, n)";
"	i := int64(0)";
"	{";
"	read_loop:";
"		out[i] = int64(b.buf[off+(7+(i*8))]) | int64(b.buf[off+(6+(i*8))])<<8 | int64(b.buf[off+(5+(i*8))])<<16 | int64(b.buf[off+(4+(i*8))])<<24 | int64(b.buf[off+(3+(i*8))])<<32 | int64(b.buf[off+(2+(i*8))])<<40 | int64(b.buf[off+(1+(i*8))])<<48 | int64(b.buf[off+(i*8)])<<56";
"		i++";
"		if i < n {";
"			goto read_loop";
"		}";
"	}";
"	return";
"}";
"";
"// ReadI64BENext reads a slice of int64s from the buffer at the";
"// current offset in big-endian and moves the offset forward the";
"// amount of bytes written";
"func (b *Buffer) ReadI64BENext(n int64) (out []int64) {";
"	out = b.ReadI64BE(b.off, n)";
"	b.SeekByte(n*8, true)";
"	return";
"}";
"";
"// ReadF32LE reads a slice of float32s from the buffer at the";
"// specified offset in little-endian without modifying the internal";
"// offset value";
"func (b *Buffer) ReadF32LE(off, n int64) (out []float32) {";
"	if (off + n*4) > b.cap {";
"		panic(BufferOverreadError)";
"	}";
"	if off < 0 {";
"		panic(BufferUnderreadError)";
"	}";
"	out = make([]float32, n)";
"	i := int64(0)";
"	var u uint32";
"	{";
"	read_loop:";
"		u = (uint32(b.buf[off+(i*4)]) | uint32(b.buf[off+(1+(i*4))])<<8 | uint32(b.buf[off+(2+(i*4))])<<16 | uint32(b.buf[off+(3+(i*4))])<<24)";
"		out[i] = *(*float32)(unsafe.Pointer(&u))";
"		i++";
"		if i < n {";
"			goto read_loop";
"		}";
"	}";
"	return";
"}";
""].

(** v3/buffer.generated.go:1401-1500 *)
Definition v3_buffer_14 : list string := [
"// ReadF32LENext reads a slice of float32s from the buffer at the";
"// current offset in little-endian and moves the offset forward the";
"// amount of bytes written";
"func (b *Buffer) ReadF32LENext(n int64) (out []float32) {";
"	out = b.ReadF32LE(b.off, n)";
"	b.SeekByte(n*4, true)";
"	return";
"}";
"";
"// ReadF32BE reads a slice of float32s from the buffer at the";
"// specified offset in big-endian without modifying the internal";
"// offset value";
"func (b *Buffer) ReadF32BE(off, n int64) (out []float32) {";
"	if (off + n*4) > b.cap {";
"		panic(BufferOverreadError)";
"	}";
"	if off < 0 {";
"		panic(BufferUnderreadError)";
"	}";
"	out = make([]float32, n)";
"	i := int64(0)";
"	var u uint32";
"	{";
"	read_loop:";
"		u = (uint32(b.buf[off+(3+(i*4))]) | uint32(b.buf[off+(2+(i*4))])<<8 | uint32(b.buf[off+(1+(i*4))])<<16 | uint32(b.buf[off+(i*4)])<<24)";
"		out[i] = *(*float32)(unsafe.Pointer(&u))";
"		i++";
"		if i < n {";
"			goto read_loop";
"		}";
"	}";
"	return";
"}";
"";
"// ReadF32BENext reads a slice of float32s from the buffer at the";
"// current offset in big-endian and moves the offset forward the";
"// amount of bytes written";
"func (b *Buffer) ReadF32BENext(n int64) (out []float32) {";
"	out = b.ReadF32BE(b.off, n)";
"	b.SeekByte(n*4, true)";
"	return";
"}";
"";
"// ReadF64LE reads a slice of float64s from the buffer at the";
"// specified offset in little-endian without modifying the internal";
"// offset value";
"func (b *Buffer) ReadF64LE(off, n int64) (out []float64) {";
"	if (off + n*8) > b.cap {";
"		panic(BufferOverreadError)";
"	}";
"	if off < 0 {";
"		panic(BufferUnderreadError)";
"	}";
"	out = make([]float64, n)";
"	i := int64(0)";
"	var u uint64";
"	{";
"	read_loop:";
"		u = (uint64(b.buf[off+(i*8)]) | uint64(b.buf[off+(1+(i*8))])<<8 | uint64(b.buf[off+(2+(i*8))])<<16 | uint64(b.buf[off+(3+(i*8))])<<24 | uint64(b.buf[off+(4+(i*8))])<<32 | uint64(b.buf[off+(5+(i*8))])<<40 | uint64(b.buf[off+(6+(i*8))])<<48 | uint64(b.buf[off+(7+(i*8))])<<56)";
"		out[i] = *(*float64)(unsafe.Pointer(&u))";
"		i++";
"		if i < n {";
"			goto read_loop";
"		}";
"	}";
"	return";
"}";
"";
"// ReadF64LENext reads a slice of float64s from the buffer at the";
"// current offset in little-endian and moves the offset forward the";
"// amount of bytes written";
"func (b *Buffer) ReadF64LENext(n int64) (out []float64) {";
"	out = b.ReadF64LE(b.off, n)";
"	b.SeekByte(n*8, true)";
"	return";
"}";
"";
"// ReadF64BE reads a slice of float64s from the buffer at the";
"// specified offset in big-endian without modifying the internal";
"// offset value";
"func (b *Buffer) ReadF64BE(off, n int64) (out []float64) {";
"	if (off + n*8) > b.cap {";
"		panic(BufferOverreadError)";
"	}";
"	if off < 0 {";
"		panic(BufferUnderreadError)";
"	}";
"	out = make([]float64, n)";
"	i := int64(0)";
"	var u uint64";
"	{";
"	read_loop:";
"		u = (uint64(b.buf[off+(7+(i*8))]) | uint64(b.buf[off+(6+(i*8))])<<8 | uint64(b.buf[off+(5+(i*8))])<<16 | uint64(b.buf[off+(4+(i*8))])<<24 | uint64(b.buf[off+(3+(i*8))])<<32 | uint64(b.buf[off+(2+(i*8))])<<40 | uint64(b.buf[off+(1+(i*8))])<<48 | uint64(b.buf[off+(i*8)])<<56)";
"		out[i] = *(*float64)(unsafe.Pointer(&u))";
"		i++";
"		if i < n {";
"			goto read_loop";
"		}";
"	}";
"	return"].

(** v3/buffer.generated.go:1501-1600 *)
Definition v3_buffer_15 : list string := [
"}";
"";
"// ReadF64BENext reads a slice of float64s from the buffer at the";
"// current offset in big-endian and moves the offset forward the";
"// amount of bytes written";
"func (b *Buffer) ReadF64BENext(n int64) (out []float64) {";
"	out = b.ReadF64BE(b.off, n)";
"	b.SeekByte(n*8, true)";
"	return";
"}";
"";
"// SeekByte seeks to position off of the buffer relative to the";
"// current position or exact";
"func (b *Buffer) SeekByte(off int64, relative bool) {";
"";
"	if relative {";
"";
"		b.off += off";
"";
"	} else {";
"";
"		b.off = off";
"";
"	}";
"";
"}";
"";
"// AfterByte returns the amount of bytes located after the current";
"// position or the specified one";
"func (b *Buffer) AfterByte(off ...int64) int64 {";
"";
"	if len(off) == 0 {";
"";
"		return b.cap - b.off - 1";
"";
"	}";
"	return b.cap - off[0] - 1";
"";
"}";
"";
"// AlignByte aligns the byte offset to the bit offset";
"func (b *Buffer) AlignByte() {";
"";
"	b.off = b.boff / 8";
"";
"}";
"";
"/* generic methods */";
"";
"// TruncateLeft truncates the buffer on the left side";
"func (b *Buffer) TruncateLeft(n int64) {";
"";
"	if n < 0 {";
"";
"		panic(BufferInvalidByteCountError)";
"";
"	}";
"";
"	b.buf = b.buf[n:b.cap]";
"	b.Refresh()";
"";
"}";
"";
"// TruncateRight truncates the buffer on the right side";
"func (b *Buffer) TruncateRight(n int64) {";
"";
"	if n < 0 {";
"";
"		panic(BufferInvalidByteCountError)";
"";
"	}";
"";
"	b.buf = b.buf[0x00 : b.cap-n]";
"	b.Refresh()";
"";
"}";
"";
"// Grow makes the buffer's capacity bigger by n bytes";
"func (b *Buffer) Grow(n int64) {";
"";
"	if n < 0 {";
"";
"		panic(BufferInvalidByteCountError)";
"";
"	}";
"";
"	if n <= int64(cap(b.buf))-b.cap {";
"";
"		b.buf = b.buf[0 : b.cap+n]";
"		b.Refresh()";
"		return";
"";
"	}";
"	tmp := make([]byte, b.cap+n, (int64(cap(b.buf))+n)*2)";
"	copy(tmp, b.buf)";
"	b.buf = tmp";
"	b.Refresh()";
"";
"}";
""].

(** v3/buffer.generated.go:1601-1655 *)
Definition v3_buffer_16 : list string := [
"// Refresh updates the cached internal statistics of the buffer forcefully";
"func (b *Buffer) Refresh() {";
"";
"	b.cap = int64(len(b.buf))";
"	b.bcap = b.cap * 8";
"";
"}";
"";
"// Reset resets the entire buffer";
"func (b *Buffer) Reset() {";
"";
"	b.buf = b.buf[0:0]";
"	b.off = 0x00";
"	b.boff = 0x00";
"	b.cap = 0";
"	b.bcap = 0";
"";
"}";
"";
"/* value retrieval */";
"";
"// Bytes returns the internal byte slice of the buffer";
"func (b *Buffer) Bytes() []byte {";
"";
"	return b.buf";
"";
"}";
"";
"// ByteCapacity returns the capacity of the buffer";
"func (b *Buffer) ByteCapacity() int64 {";
"";
"	return b.cap";
"";
"}";
"";
"// BitCapacity returns the bit capacity of the buffer";
"func (b *Buffer) BitCapacity() int64 {";
"";
"	return b.bcap";
"";
"}";
"";
"// ByteOffset returns the current offset of the buffer";
"func (b *Buffer) ByteOffset() int64 {";
"";
"	return b.off";
"";
"}";
"";
"// BitOffset returns the current bit offset of the buffer";
"func (b *Buffer) BitOffset() int64 {";
"";
"	return b.boff";
"";
"}"].

(** v3/buffer.generated.go *)
Definition v3_buffer : list string := (v3_buffer_0 ++ v3_buffer_1 ++ v3_buffer_2 ++ v3_buffer_3 ++ v3_buffer_4 ++ v3_buffer_5 ++ v3_buffer_6 ++ v3_buffer_7 ++ v3_buffer_8 ++ v3_buffer_9 ++ v3_buffer_10 ++ v3_buffer_11 ++ v3_buffer_12 ++ v3_buffer_13 ++ v3_buffer_14 ++ v3_buffer_15 ++ v3_buffer_16)%list.

(** v3/minibuf.generated.go:1-100 *)
Definition v3_minibuf_0 : list string := [
"/*";
"";
"crunch - utilities for taking bytes out of things";
"Copyright (c) 2019-2020 superwhiskers <whiskerdev@protonmail.com>";
"";
"This Source Code Form is subject to the terms of the Mozilla Public";
"License, v. 2.0. If a copy of the MPL was not distributed with this";
"file, You can obtain one at https://mozilla.org/MPL/2.0/.";
"";
"*/";
"";
"package v3";
"";
"import ""unsafe""";
"";
"// MiniBuffer implements a fast and low-memory buffer type in go that";
"// handles multiple types of data easily. it lacks the overwrite/read";
"// and underwrite/read checks that Buffer has";
"type MiniBuffer struct {";
"	buf  []byte";
"	off  int64";
"	cap  int64";
"	boff int64";
"	bcap int64";
"}";
"";
"// NewMiniBuffer initilaizes a new MiniBuffer with the provided byte";
"// slice(s) stored inside in the order provided";
"func NewMiniBuffer(out **MiniBuffer, slices ...[]byte) {";
"";
"	*out = &MiniBuffer{";
"		buf:  []byte{},";
"		off:  0x00,";
"		boff: 0x00,";
"	}";
"";
"	switch len(slices) {";
"";
"	case 0:";
"		break";
"";
"	case 1:";
"		(*out).buf = slices[0]";
"";
"	default:";
"		var (";
"			i = int64(0)";
"			n = int64(len(slices))";
"		)";
"		{";
"		append_loop:";
"			(*out).buf = append((*out).buf, slices[i]...)";
"			i++";
"			if i < n {";
"";
"				goto append_loop";
"";
"			}";
"		}";
"";
"	}";
"";
"	(*out).Refresh()";
"";
"}";
"";
"/* bitfield methods */";
"";
"// ReadBit stores the bit located at the specified offset without";
"// modifying the internal offset value in out";
"func (b *MiniBuffer) ReadBit(out *byte, off int64) {";
"";
"	*out = (b.buf[off/8] >> (7 - uint64(off%8))) & 1";
"";
"}";
"";
"// ReadBitNext stores the next bit from the current offset and moves";
"// the offset forward a bit in out";
"func (b *MiniBuffer) ReadBitNext(out *byte) {";
"";
"	b.ReadBit(out, b.boff)";
"	b.SeekBit(1, true)";
"";
"}";
"";
"// ReadBits stores the next n bits from the specified offset without";
"// modifying the internal offset value in out";
"func (b *MiniBuffer) ReadBits(out *uint64, off, n int64) {";
"";
"	var (";
"		bout byte";
"";
"		i = int64(0)";
"	)";
"	{";
"	read_loop:";
"		b.ReadBit(&bout, off+i)";
"		*out = (*out << uint64(1)) | uint64(bout)";
"		i++";
"		if i < n {"].

(** v3/minibuf.generated.go:101-200 *)
Definition v3_minibuf_1 : list string := [
"";
"			goto read_loop";
"";
"		}";
"	}";
"";
"}";
"";
"// ReadBitsNext stores the next n bits from the current offset and";
"// moves the offset forward the amount of bits read in out";
"func (b *MiniBuffer) ReadBitsNext(out *uint64, n int64) {";
"";
"	b.ReadBits(out, b.boff, n)";
"	b.SeekBit(n, true)";
"";
"}";
"";
"// SetBit sets the bit located at the specified offset without";
"// modifying the internal offset value";
"func (b *MiniBuffer) SetBit(off int64) {";
"";
"	b.buf[off/8] |= (1 << uint(7-(off%8)))";
"";
"}";
"";
"// SetBitNext sets the next bit from the current offset and moves the";
"// offset forward a bit";
"func (b *MiniBuffer) SetBitNext() {";
"";
"	b.SetBit(b.boff)";
"	b.SeekBit(1, true)";
"";
"}";
"";
"// ClearBit clears the bit located at the specified offset without";
"// modifying the internal offset value";
"func (b *MiniBuffer) ClearBit(off int64) {";
"";
"	b.buf[off/8] &= ^(1 << uint(7-(off%8)))";
"";
"}";
"";
"// ClearBitNext clears the next bit from the current offset and moves";
"// the offset forward a bit";
"func (b *MiniBuffer) ClearBitNext() {";
"";
"	b.ClearBit(b.boff)";
"	b.SeekBit(1, true)";
"";
"}";
"";
"// SetBits sets the next n bits from the specified offset without";
"// modifying the internal offset value";
"func (b *MiniBuffer) SetBits(off int64, data uint64, n int64) {";
"";
"	i := int64(0)";
"";
"	{";
"	write_loop:";
"		if byte((data>>uint64(n-i-1))&1) == 0 {";
"";
"			b.ClearBit(off + i)";
"";
"		} else {";
"";
"			b.SetBit(off + i)";
"";
"		}";
"		i++";
"		if i < n {";
"";
"			goto write_loop";
"";
"		}";
"	}";
"";
"}";
"";
"// SetBitsNext sets the next n bits from the current offset and moves";
"// the offset forward the amount of bits set";
"func (b *MiniBuffer) SetBitsNext(data uint64, n int64) {";
"";
"	b.SetBits(b.boff, data, n)";
"	b.SeekBit(n, true)";
"";
"}";
"";
"// FlipBit flips the bit located at the specified offset without";
"// modifying the internal offset value";
"func (b *MiniBuffer) FlipBit(off int64) {";
"";
"	b.buf[off/8] ^= (1 << uint(7-(off%8)))";
"";
"}";
"";
"// FlipBitNext flips the next bit from the current offset and moves";
"// the offset forward a bit";
"func (b *MiniBuffer) FlipBitNext() {";
"";
"	b.FlipBit(b.boff)"].

(** v3/minibuf.generated.go:201-300 *)
Definition v3_minibuf_2 : list string := [
"	b.SeekBit(1, true)";
"";
"}";
"";
"// ClearAllBits sets all of the buffer's bits to 0";
"func (b *MiniBuffer) ClearAllBits() {";
"";
"	var (";
"		i = int64(0)";
"		n = int64(len(b.buf))";
"	)";
"	{";
"	clear_loop:";
"		b.buf[i] = 0";
"		i++";
"		if i < n {";
"";
"			goto clear_loop";
"";
"		}";
"	}";
"";
"}";
"";
"// SetAllBits sets all of the buffer's bits to 1";
"func (b *MiniBuffer) SetAllBits() {";
"";
"	var (";
"		i = int64(0)";
"		n = int64(len(b.buf))";
"	)";
"	{";
"	set_loop:";
"		b.buf[i] = 0xFF";
"		i++";
"		if i < n {";
"";
"			goto set_loop";
"";
"		}";
"	}";
"";
"}";
"";
"// FlipAllBits flips all of the buffer's bits";
"func (b *MiniBuffer) FlipAllBits() {";
"";
"	var (";
"		i = int64(0)";
"		n = int64(len(b.buf))";
"	)";
"	{";
"	flip_loop:";
"		b.buf[i] = ^b.buf[i]";
"		i++";
"		if i < n {";
"";
"			goto flip_loop";
"";
"		}";
"";
"	}";
"";
"}";
"";
"// SeekBit seeks to bit position off of the the buffer relative to";
"// the current position or exact";
"func (b *MiniBuffer) SeekBit(off int64, relative bool) {";
"";
"	if relative {";
"";
"		b.boff += off";
"";
"	} else {";
"";
"		b.boff = off";
"";
"	}";
"";
"}";
"";
"// AfterBit stores the amount of bits located after the current bit";
"// position or the specified one in out";
"func (b *MiniBuffer) AfterBit(out *int64, off ...int64) {";
"";
"	if len(off) == 0 {";
"";
"		*out = b.bcap - b.boff - 1";
"		return";
"";
"	}";
"	*out = b.bcap - off[0] - 1";
"";
"}";
"";
"// AlignBit aligns the bit offset to the byte offset";
"func (b *MiniBuffer) AlignBit() {";
"";
"	b.boff = b.off * 8";
""].

(** v3/minibuf.generated.go:301-400 *)
Definition v3_minibuf_3 : list string := [
"}";
"";
"/* byte buffer methods */";
"";
"// WriteBytes writes bytes to the buffer at the specified offset";
"// without modifying the internal offset value";
"func (b *MiniBuffer) WriteBytes(off int64, data []byte) {";
"";
"	copy(b.buf[off:], data)";
"";
"}";
"";
"// WriteBytesNext writes bytes to the buffer at the current offset";
"// and moves the offset forward the amount of bytes written";
"func (b *MiniBuffer) WriteBytesNext(data []byte) {";
"";
"	b.WriteBytes(b.off, data)";
"	b.SeekByte(int64(len(data)), true)";
"";
"}";
"";
"// WriteU16LE writes a slice of uint16s to the buffer at the";
"// specified offset in little-endian without modifying the internal";
"// offset value";
"func (b *MiniBuffer) WriteU16LE(off int64, data []uint16) {";
"	i := 0";
"	n := len(data)";
"	{";
"	write_loop:";
"		b.buf[off+int64(i*2)] = byte(data[i])";
"		b.buf[off+int64(1+(i*2))] = byte(data[i] >> 8)";
"		i++";
"		if i < n {";
"			goto write_loop";
"		}";
"	}";
"}";
"";
"// WriteU16LENext writes a slice of uint16s to the buffer at the";
"// current offset in little-endian and moves the offset forward the";
"// amount of bytes written";
"func (b *MiniBuffer) WriteU16LENext(data []uint16) {";
"	b.WriteU16LE(b.off, data)";
"	b.SeekByte(int64(len(data))*2, true)";
"}";
"";
"// WriteU16BE writes a slice of uint16s to the buffer at the";
"// specified offset in big-endian without modifying the internal";
"// offset value";
"func (b *MiniBuffer) WriteU16BE(off int64, data []uint16) {";
"	i := 0";
"	n := len(data)";
"	{";
"	write_loop:";
"		b.buf[off+int64(i*2)] = byte(data[i] >> 8)";
"		b.buf[off+int64(1+(i*2))] = byte(data[i])";
"		i++";
"		if i < n {";
"			goto write_loop";
"		}";
"	}";
"}";
"";
"// WriteU16BENext writes a slice of uint16s to the buffer at the";
"// current offset in big-endian and moves the offset forward the";
"// amount of bytes written";
"func (b *MiniBuffer) WriteU16BENext(data []uint16) {";
"	b.WriteU16BE(b.off, data)";
"	b.SeekByte(int64(len(data))*2, true)";
"}";
"";
"// WriteU32LE writes a slice of uint32s to the buffer at the";
"// specified offset in little-endian without modifying the internal";
"// offset value";
"func (b *MiniBuffer) WriteU32LE(off int64, data []uint32) {";
"	i := 0";
"	n := len(data)";
"	{";
"	write_loop:";
"		b.buf[off+int64(i*4)] = byte(data[i])";
"		b.buf[off+int64(1+(i*4))] = byte(data[i] >> 8)";
"		b.buf[off+int64(2+(i*4))] = byte(data[i] >> 16)";
"		b.buf[off+int64(3+(i*4))] = byte(data[i] >> 24)";
"		i++";
"		if i < n {";
"			goto write_loop";
"		}";
"	}";
"}";
"";
"// WriteU32LENext writes a slice of uint32s to the buffer at the";
"// current offset in little-endian and moves the offset forward the";
"// amount of bytes written";
"func (b *MiniBuffer) WriteU32LENext(data []uint32) {";
"	b.WriteU32LE(b.off, data)";
"	b.SeekByte(int64(len(data))*4, true)";
"}";
"";
"// WriteU32BE writes a slice of uint32s to the buffer at the";
"// specified offset in big-endian without modifying the internal"].

(** v3/minibuf.generated.go:401-500 *)
Definition v3_minibuf_4 : list string := [
"// offset value";
"func (b *MiniBuffer) WriteU32BE(off int64, data []uint32) {";
"	i := 0";
"	n := len(data)";
"	{";
"	write_loop:";
"		b.buf[off+int64(i*4)] = byte(data[i] >> 24)";
"		b.buf[off+int64(1+(i*4))] = byte(data[i] >> 16)";
"		b.buf[off+int64(2+(i*4))] = byte(data[i] >> 8)";
"		b.buf[off+int64(3+(i*4))] = byte(data[i])";
"		i++";
"		if i < n {";
"			goto write_loop";
"		}";
"	}";
"}";
"";
"// WriteU32BENext writes a slice of uint32s to the buffer at the";
"// current offset in big-endian and moves the offset forward the";
"// amount of bytes written";
"func (b *MiniBuffer) WriteU32BENext(data []uint32) {";
"	b.WriteU32BE(b.off, data)";
"	b.SeekByte(int64(len(data))*4, true)";
"}";
"";
"// WriteU64LE writes a slice of uint64s to the buffer at the";
"// specified offset in little-endian without modifying the internal";
"// offset value";
"func (b *MiniBuffer) WriteU64LE(off int64, data []uint64) {";
"	i := 0";
"	n := len(data)";
"	{";
"	write_loop:";
"		b.buf[off+int64(i*8)] = byte(data[i])";
"		b.buf[off+int64(1+(i*8))] = byte(data[i] >> 8)";
"		b.buf[off+int64(2+(i*8))] = byte(data[i] >> 16)";
"		b.buf[off+int64(3+(i*8))] = byte(data[i] >> 24)";
"		b.buf[off+int64(4+(i*8))] = byte(data[i] >> 32)";
"		b.buf[off+int64(5+(i*8))] = byte(data[i] >> 40)";
"		b.buf[off+int64(6+(i*8))] = byte(data[i] >> 48)";
"		b.buf[off+int64(7+(i*8))] = byte(data[i] >> 56)";
"		i++";
"		if i < n {";
"			goto write_loop";
"		}";
"	}";
"}";
"";
"// WriteU64LENext writes a slice of uint64s to the buffer at the";
"// current offset in little-endian and moves the offset forward the";
"// amount of bytes written";
"func (b *MiniBuffer) WriteU64LENext(data []uint64) {";
"	b.WriteU64LE(b.off, data)";
"	b.SeekByte(int64(len(data))*8, true)";
"}";
"";
"// WriteU64BE writes a slice of uint64s to the buffer at the";
"// specified offset in big-endian without modifying the internal";
"// offset value";
"func (b *MiniBuffer) WriteU64BE(off int64, data []uint64) {";
"	i := 0";
"	n := len(data)";
"	{";
"	write_loop:";
"		b.buf[off+int64(i*8)] = byte(data[i] >> 56)";
"		b.buf[off+int64(1+(i*8))] = byte(data[i] >> 48)";
"		b.buf[off+int64(2+(i*8))] = byte(data[i] >> 40)";
"		b.buf[off+int64(3+(i*8))] = byte(data[i] >> 32)";
"		b.buf[off+int64(4+(i*8))] = byte(data[i] >> 24)";
"		b.buf[off+int64(5+(i*8))] = byte(data[i] >> 16)";
"		b.buf[off+int64(6+(i*8))] = byte(data[i] >> 8)";
"		b.buf[off+int64(7+(i*8))] = byte(data[i])";
"		i++";
"		if i < n {";
"			goto write_loop";
"		}";
"	}";
"}";
"";
"// WriteU64BENext writes a slice of uint64s to the buffer at the";
"// current offset in big-endian and moves the offset forward the";
"// amount of bytes written";
"func (b *MiniBuffer) WriteU64BENext(data []uint64) {";
"	b.WriteU64BE(b.off, data)";
"	b.SeekByte(int64(len(data))*8, true)";
"}";
"";
"// WriteI16LE writes a slice of int16s to the buffer at the";
"// specified offset in little-endian without modifying the internal";
"// offset value";
"func (b *MiniBuffer) WriteI16LE(off int64, data []int16) {";
"	i := 0";
"	n := len(data)";
"	{";
"	write_loop:";
"		b.buf[off+int64(i*2)] = byte(data[i])";
"		b.buf[off+int64(1+(i*2))] = byte(data[i] >> 8)";
"		i++";
"		if i < n {";
"			goto write_loop"].

(** v3/minibuf.generated.go:501-600 *)
Definition v3_minibuf_5 : list string := [
"		}";
"	}";
"}";
"";
"// WriteI16LENext writes a slice of int16s to the buffer at the";
"// current offset in little-endian and moves the offset forward the";
"// amount of bytes written";
"func (b *MiniBuffer) WriteI16LENext(data []int16) {";
"	b.WriteI16LE(b.off, data)";
"	b.SeekByte(int64(len(data))*2, true)";
"}";
"";
"// WriteI16BE writes a slice of int16s to the buffer at the";
"// specified offset in big-endian without modifying the internal";
"// offset value";
"func (b *MiniBuffer) WriteI16BE(off int64, data []int16) {";
"	i := 0";
"	n := len(data)";
"	{";
"	write_loop:";
"		b.buf[off+int64(i*2)] = byte(data[i] >> 8)";
"		b.buf[off+int64(1+(i*2))] = byte(data[i])";
"		i++";
"		if i < n {";
"			goto write_loop";
"		}";
"	}";
"}";
"";
"// WriteI16BENext writes a slice of int16s to the buffer at the";
"// current offset in big-endian and moves the offset forward the";
"// amount of bytes written";
"func (b *MiniBuffer) WriteI16BENext(data []int16) {";
"	b.WriteI16BE(b.off, data)";
"	b.SeekByte(int64(len(data))*2, true)";
"}";
"";
"// WriteI32LE writes a slice of int32s to the buffer at the";
"// specified offset in little-endian without modifying the internal";
"// offset value";
"func (b *MiniBuffer) WriteI32LE(off int64, data []int32) {";
"	i := 0";
"	n := len(data)";
"	{";
"	write_loop:";
"		b.buf[off+int64(i*4)] = byte(data[i])";
"		b.buf[off+int64(1+(i*4))] = byte(data[i] >> 8)";
"		b.buf[off+int64(2+(i*4))] = byte(data[i] >> 16)";
"		b.buf[off+int64(3+(i*4))] = byte(data[i] >> 24)";
"		i++";
"		if i < n {";
"			goto write_loop";
"		}";
"	}";
"}";
"";
"// WriteI32LENext writes a slice of int32s to the buffer at the";
"// current offset in little-endian and moves the offset forward the";
"// amount of bytes written";
"func (b *MiniBuffer) WriteI32LENext(data []int32) {";
"	b.WriteI32LE(b.off, data)";
"	b.SeekByte(int64(len(data))*4, true)";
"}";
"";
"// WriteI32BE writes a slice of int32s to the buffer at the";
"// specified offset in big-endian without modifying the internal";
"// offset value";
"func (b *MiniBuffer) WriteI32BE(off int64, data []int32) {";
"	i := 0";
"	n := len(data)";
"	{";
"	write_loop:";
"		b.buf[off+int64(i*4)] = byte(data[i] >> 24)";
"		b.buf[off+int64(1+(i*4))] = byte(data[i] >> 16)";
"		b.buf[off+int64(2+(i*4))] = byte(data[i] >> 8)";
"		b.buf[off+int64(3+(i*4))] = byte(data[i])";
"		i++";
"		if i < n {";
"			goto write_loop";
"		}";
"	}";
"}";
"";
"// WriteI32BENext writes a slice of int32s to the buffer at the";
"// current offset in big-endian and moves the offset forward the";
"// amount of bytes written";
"func (b *MiniBuffer) WriteI32BENext(data []int32) {";
"	b.WriteI32BE(b.off, data)";
"	b.SeekByte(int64(len(data))*4, true)";
"}";
"";
"// WriteI64LE writes a slice of int64s to the buffer at the";
"// specified offset in little-endian without modifying the internal";
"// offset value";
"func (b *MiniBuffer) WriteI64LE(off int64, data []int64) {";
"	i := 0";
"	n := len(data)";
"	{";
"	write_loop:";
"		b.buf[off+int64(i*8)] = byte(data[i])"].

(** v3/minibuf.generated.go:601-700 *)
Definition v3_minibuf_6 : list string := [
"		b.buf[off+int64(1+(i*8))] = byte(data[i] >> 8)";
"		b.buf[off+int64(2+(i*8))] = byte(data[i] >> 16)";
"		b.buf[off+int64(3+(i*8))] = byte(data[i] >> 24)";
"		b.buf[off+int64(4+(i*8))] = byte(data[i] >> 32)";
"		b.buf[off+int64(5+(i*8))] = byte(data[i] >> 40)";
"		b.buf[off+int64(6+(i*8))] = byte(data[i] >> 48)";
"		b.buf[off+int64(7+(i*8))] = byte(data[i] >> 56)";
"		i++";
"		if i < n {";
"			goto write_loop";
"		}";
"	}";
"}";
"";
"// WriteI64LENext writes a slice of int64s to the buffer at the";
"// current offset in little-endian and moves the offset forward the";
"// amount of bytes written";
"func (b *MiniBuffer) WriteI64LENext(data []int64) {";
"	b.WriteI64LE(b.off, data)";
"	b.SeekByte(int64(len(data))*8, true)";
"}";
"";
"// WriteI64BE writes a slice of int64s to the buffer at the";
"// specified offset in big-endian without modifying the internal";
"// offset value";
"func (b *MiniBuffer) WriteI64BE(off int64, data []int64) {";
"	i := 0";
"	n := len(data)";
"	{";
"	write_loop:";
"		b.buf[off+int64(i*8)] = byte(data[i] >> 56)";
"		b.buf[off+int64(1+(i*8))] = byte(data[i] >> 48)";
"		b.buf[off+int64(2+(i*8))] = byte(data[i] >> 40)";
"		b.buf[off+int64(3+(i*8))] = byte(data[i] >> 32)";
"		b.buf[off+int64(4+(i*8))] = byte(data[i] >> 24)";
"		b.buf[off+int64(5+(i*8))] = byte(data[i] >> 16)";
"		b.buf[off+int64(6+(i*8))] = byte(data[i] >> 8)";
"		b.buf[off+int64(7+(i*8))] = byte(data[i])";
"		i++";
"		if i < n {";
"			goto write_loop";
"		}";
"	}";
"}";
"";
"// WriteI64BENext writes a slice of int64s to the buffer at the";
"// current offset in big-endian and moves the offset forward the";
"// amount of bytes written";
"func (b *MiniBuffer) WriteI64BENext(data []int64) {";
"	b.WriteI64BE(b.off, data)";
"	b.SeekByte(int64(len(data))*8, true)";
"}";
"";
"// WriteF32LE writes a slice of float32s to the buffer at the";
"// specified offset in little-endian without modifying the internal";
"// offset value";
"func (b *MiniBuffer) WriteF32LE(off int64, data []float32) {";
"	i := 0";
"	n := len(data)";
"	{";
"	write_loop:";
"		b.buf[off+int64(i*4)] = byte(*(*uint32)(unsafe.Pointer(&data[i])))";
"		b.buf[off+int64(1+(i*4))] = byte(*(*uint32)(unsafe.Pointer(&data[i])) >> 8)";
"		b.buf[off+int64(2+(i*4))] = byte(*(*uint32)(unsafe.Pointer(&data[i])) >> 16)";
"		b.buf[off+int64(3+(i*4))] = byte(*(*uint32)(unsafe.Pointer(&data[i])) >> 24)";
"		i++";
"		if i < n {";
"			goto write_loop";
"		}";
"	}";
"}";
"";
"// WriteF32LENext writes a slice of float32s to the buffer at the";
"// current offset in little-endian and moves the offset forward the";
"// amount of bytes written";
"func (b *MiniBuffer) WriteF32LENext(data []float32) {";
"	b.WriteF32LE(b.off, data)";
"	b.SeekByte(int64(len(data))*4, true)";
"}";
"";
"// WriteF32BE writes a slice of float32s to the buffer at the";
"// specified offset in big-endian without modifying the internal";
"// offset value";
"func (b *MiniBuffer) WriteF32BE(off int64, data []float32) {";
"	i := 0";
"	n := len(data)";
"	{";
"	write_loop:";
"		b.buf[off+int64(i*4)] = byte(*(*uint32)(unsafe.Pointer(&data[i])) >> 24)";
"		b.buf[off+int64(1+(i*4))] = byte(*(*uint32)(unsafe.Pointer(&data[i])) >> 16)";
"		b.buf[off+int64(2+(i*4))] = byte(*(*uint32)(unsafe.Pointer(&data[i])) >> 8)";
"		b.buf[off+int64(3+(i*4))] = byte(*(*uint32)(unsafe.Pointer(&data[i])))";
"		i++";
"		if i < n {";
"			goto write_loop";
"		}";
"	}";
"}";
"";
"// WriteF32BENext writes a slice of float32s to the buffer at the"].

(** v3/minibuf.generated.go:701-800 *)
Definition v3_minibuf_7 : list string := [
"// current offset in big-endian and moves the offset forward the";
"// amount of bytes written";
"func (b *MiniBuffer) WriteF32BENext(data []float32) {";
"	b.WriteF32BE(b.off, data)";
"	b.SeekByte(int64(len(data))*4, true)";
"}";
"";
"// WriteF64LE writes a slice of float64s to the buffer at the";
"// specified offset in little-endian without modifying the internal";
"// offset value";
"func (b *MiniBuffer) WriteF64LE(off int64, data []float64) {";
"	i := 0";
"	n := len(data)";
"	{";
"	write_loop:";
"		b.buf[off+int64(i*8)] = byte(*(*uint64)(unsafe.Pointer(&data[i])))";
"		b.buf[off+int64(1+(i*8))] = byte(*(*uint64)(unsafe.Pointer(&data[i])) >> 8)";
"		b.buf[off+int64(2+(i*8))] = byte(*(*uint64)(unsafe.Pointer(&data[i])) >> 16)";
"		b.buf[off+int64(3+(i*8))] = byte(*(*uint64)(unsafe.Pointer(&data[i])) >> 24)";
"		b.buf[off+int64(4+(i*8))] = byte(*(*uint64)(unsafe.Pointer(&data[i])) >> 32)";
"		b.buf[off+int64(5+(i*8))] = byte(*(*uint64)(unsafe.Pointer(&data[i])) >> 40)";
"		b.buf[off+int64(6+(i*8))] = byte(*(*uint64)(unsafe.Pointer(&data[i])) >> 48)";
"		b.buf[off+int64(7+(i*8))] = byte(*(*uint64)(unsafe.Pointer(&data[i])) >> 56)";
"		i++";
"		if i < n {";
"			goto write_loop";
"		}";
"	}";
"}";
"";
"// WriteF64LENext writes a slice of float64s to the buffer at the";
"// current offset in little-endian and moves the offset forward the";
"// amount of bytes written";
"func (b *MiniBuffer) WriteF64LENext(data []float64) {";
"	b.WriteF64LE(b.off, data)";
"	b.SeekByte(int64(len(data))*8, true)";
"}";
"";
"// WriteF64BE writes a slice of float64s to the buffer at the";
"// specified offset in big-endian without modifying the internal";
"// offset value";
"func (b *MiniBuffer) WriteF64BE(off int64, data []float64) {";
"	i := 0";
"	n := len(data)";
"	{";
"	write_loop:";
"		b.buf[off+int64(i*8)] = byte(*(*uint64)(unsafe.Pointer(&data[i])) >> 56)";
"		b.buf[off+int64(1+(i*8))] = byte(*(*uint64)(unsafe.Pointer(&data[i])) >> 48)";
"		b.buf[off+int64(2+(i*8))] = byte(*(*uint64)(unsafe.Pointer(&data[i])) >> 40)";
"		b.buf[off+int64(3+(i*8))] = byte(*(*uint64)(unsafe.Pointer(&data[i])) >> 32)";
"		b.buf[off+int64(4+(i*8))] = byte(*(*uint64)(unsafe.Pointer(&data[i])) >> 24)";
"		b.buf[off+int64(5+(i*8))] = byte(*(*uint64)(unsafe.Pointer(&data[i])) >> 16)";
"		b.buf[off+int64(6+(i*8))] = byte(*(*uint64)(unsafe.Pointer(&data[i])) >> 8)";
"		b.buf[off+int64(7+(i*8))] = byte(*(*uint64)(unsafe.Pointer(&data[i])))";
"		i++";
"		if i < n {";
"			goto write_loop";
"		}";
"	}";
"}";
"";
"// WriteF64BENext writes a slice of float64s to the buffer at the";
"// current offset in big-endian and moves the offset forward the";
"// amount of bytes written";
"func (b *MiniBuffer) WriteF64BENext(data []float64) {";
"	b.WriteF64BE(b.off, data)";
"	b.SeekByte(int64(len(data))*8, true)";
"}";
"";
"// ReadBytes stores the next n bytes from the specified offset";
"// without modifying the internal offset value in out";
"func (b *MiniBuffer) ReadBytes(out *[]byte, off, n int64) {";
"";
"	*out = b.buf[off : off+n]";
"";
"}";
"";
"// ReadBytesNext stores the next n bytes from the current offset and";
"// moves the offset forward the amount of bytes read in out";
"func (b *MiniBuffer) ReadBytesNext(out *[]byte, n int64) {";
"";
"	b.ReadBytes(out, b.off, n)";
"	b.SeekByte(n, true)";
"";
"}";
"";
"// ReadU16LE reads a slice of uint16s from the buffer at the";
"// specified offset in little-endian without modifying the internal";
"// offset value";
"func (b *MiniBuffer) ReadU16LE(out *[]uint16, off, n int64) {";
"	i := int64(0)";
"	{";
"	read_loop:";
"		(*out)[i] = uint16(b.buf[off+(i*2)]) | uint16(b.buf[off+(1+(i*2))])<<8";
"		i++";
"		if i < n {";
"			goto read_loop";
"		}";
"	}";
"}"].

(** v3/minibuf.generated.go:801-900 *)
Definition v3_minibuf_8 : list string := [
"";
"// ReadU16LENext reads a slice of uint16s from the buffer at the";
"// current offset in little-endian and moves the offset forward the";
"// amount of bytes written";
"func (b *MiniBuffer) ReadU16LENext(out *[]uint16, n int64) {";
"	b.ReadU16LE(out, b.off, n)";
"	b.SeekByte(n*2, true)";
"}";
"";
"// ReadU16BE reads a slice of uint16s from the buffer at the";
"// specified offset in big-endian without modifying the internal";
"// offset value";
"func (b *MiniBuffer) ReadU16BE(out *[]uint16, off, n int64) {";
"	i := int64(0)";
"	{";
"	read_loop:";
"		(*out)[i] = uint16(b.buf[off+(1+(i*2))]) | uint16(b.buf[off+(i*2)])<<8";
"		i++";
"		if i < n {";
"			goto read_loop";
"		}";
"	}";
"}";
"";
"// ReadU16BENext reads a slice of uint16s from the buffer at the";
"// current offset in big-endian and moves the offset forward the";
"// amount of bytes written";
"func (b *MiniBuffer) ReadU16BENext(out *[]uint16, n int64) {";
"	b.ReadU16BE(out, b.off, n)";
"	b.SeekByte(n*2, true)";
"}";
"";
"// ReadU32LE reads a slice of uint32s from the buffer at the";
"// specified offset in little-endian without modifying the internal";
"// offset value";
"func (b *MiniBuffer) ReadU32LE(out *[]uint32, off, n int64) {";
"	i := int64(0)";
"	{";
"	read_loop:";
"		(*out)[i] = uint32(b.buf[off+(i*4)]) | uint32(b.buf[off+(1+(i*4))])<<8 | uint32(b.buf[off+(2+(i*4))])<<16 | uint32(b.buf[off+(3+(i*4))])<<24";
"		i++";
"		if i < n {";
"			goto read_loop";
"		}";
"	}";
"}";
"";
"// ReadU32LENext reads a slice of uint32s from the buffer at the";
"// current offset in little-endian and moves the offset forward the";
"// amount of bytes written";
"func (b *MiniBuffer) ReadU32LENext(out *[]uint32, n int64) {";
"	b.ReadU32LE(out, b.off, n)";
"	b.SeekByte(n*4, true)";
"}";
"";
"// ReadU32BE reads a slice of uint32s from the buffer at the";
"// specified offset in big-endian without modifying the internal";
"// offset value";
"func (b *MiniBuffer) ReadU32BE(out *[]uint32, off, n int64) {";
"	i := int64(0)";
"	{";
"	read_loop:";
"		(*out)[i] = uint32(b.buf[off+(3+(i*4))]) | uint32(b.buf[off+(2+(i*4))])<<8 | uint32(b.buf[off+(1+(i*4))])<<16 | uint32(b.buf[off+(i*4)])<<24";
"		i++";
"		if i < n {";
"			goto read_loop";
"		}";
"	}";
"}";
"";
"// ReadU32BENext reads a slice of uint32s from the buffer at the";
"// current offset in big-endian and moves the offset forward the";
"// amount of bytes written";
"func (b *MiniBuffer) ReadU32BENext(out *[]uint32, n int64) {";
"	b.ReadU32BE(out, b.off, n)";
"	b.SeekByte(n*4, true)";
"}";
"";
"// ReadU64LE reads a slice of uint64s from the buffer at the";
"// specified offset in little-endian without modifying the internal";
"// offset value";
"func (b *MiniBuffer) ReadU64LE(out *[]uint64, off, n int64) {";
"	i := int64(0)";
"	{";
"	read_loop:";
"		(*out)[i] = uint64(b.buf[off+(i*8)]) | uint64(b.buf[off+(1+(i*8))])<<8 | uint64(b.buf[off+(2+(i*8))])<<16 | uint64(b.buf[off+(3+(i*8))])<<24 | uint64(b.buf[off+(4+(i*8))])<<32 | uint64(b.buf[off+(5+(i*8))])<<40 | uint64(b.buf[off+(6+(i*8))])<<48 | uint64(b.buf[off+(7+(i*8))])<<56";
"		i++";
"		if i < n {";
"			goto read_loop";
"		}";
"	}";
"}";
"";
"// ReadU64LENext reads a slice of uint64s from the buffer at the";
"// current offset in little-endian and moves the offset forward the";
"// amount of bytes written";
"func (b *MiniBuffer) ReadU64LENext(out *[]uint64, n int64) {";
"	b.ReadU64LE(out, b.off, n)";
"	b.SeekByte(n*8, true)";
"}"].

(** v3/minibuf.generated.go:901-1000 *)
Definition v3_minibuf_9 : list string := [
"";
"// ReadU64BE reads a slice of uint64s from the buffer at the";
"// specified offset in big-endian without modifying the internal";
"// offset value";
"func (b *MiniBuffer) ReadU64BE(out *[]uint64, off, n int64) {";
"	i := int64(0)";
"	{";
"	read_loop:";
"		(*out)[i] = uint64(b.buf[off+(7+(i*8))]) | uint64(b.buf[off+(6+(i*8))])<<8 | uint64(b.buf[off+(5+(i*8))])<<16 | uint64(b.buf[off+(4+(i*8))])<<24 | uint64(b.buf[off+(3+(i*8))])<<32 | uint64(b.buf[off+(2+(i*8))])<<40 | uint64(b.buf[off+(1+(i*8))])<<48 | uint64(b.buf[off+(i*8)])<<56";
"		i++";
"		if i < n {";
"			goto read_loop";
"		}";
"	}";
"}";
"";
"// ReadU64BENext reads a slice of uint64s from the buffer at the";
"// current offset in big-endian and moves the offset forward the";
"// amount of bytes written";
"func (b *MiniBuffer) ReadU64BENext(out *[]uint64, n int64) {";
"	b.ReadU64BE(out, b.off, n)";
"	b.SeekByte(n*8, true)";
"}";
"";
"// ReadI16LE reads a slice of int16s from the buffer at the";
"// specified offset in little-endian without modifying the internal";
"// offset value";
"func (b *MiniBuffer) ReadI16LE(out *[]int16, off, n int64) {";
"	i := int64(0)";
"	{";
"	read_loop:";
"		(*out)[i] = int16(b.buf[off+(i*2)]) | int16(b.buf[off+(1+(i*2))])<<8";
"		i++";
"		if i < n {";
"			goto read_loop";
"		}";
"	}";
"}";
"";
"// ReadI16LENext reads a slice of int16s from the buffer at the";
"// current offset in little-endian and moves the offset forward the";
"// amount of bytes written";
"func (b *MiniBuffer) ReadI16LENext(out *[]int16, n int64) {";
"	b.ReadI16LE(out, b.off, n)";
"	b.SeekByte(n*2, true)";
"}";
"";
"// ReadI16BE reads a slice of int16s from the buffer at the";
"// specified offset in big-endian without modifying the internal";
"// offset value";
"func (b *MiniBuffer) ReadI16BE(out *[]int16, off, n int64) {";
"	i := int64(0)";
"	{";
"	read_loop:";
"		(*out)[i] = int16(b.buf[off+(1+(i*2))]) | int16(b.buf[off+(i*2)])<<8";
"		i++";
"		if i < n {";
"			goto read_loop";
"		}";
"	}";
"}";
"";
"// ReadI16BENext reads a slice of int16s from the buffer at the";
"// current offset in big-endian and moves the offset forward the";
"// amount of bytes written";
"func (b *MiniBuffer) ReadI16BENext(out *[]int16, n int64) {";
"	b.ReadI16BE(out, b.off, n)";
"	b.SeekByte(n*2, true)";
"}";
"";
"// ReadI32LE reads a slice of int32s from the buffer at the";
"// specified offset in little-endian without modifying the internal";
"// offset value";
"func (b *MiniBuffer) ReadI32LE(out *[]int32, off, n int64) {";
"	i := int64(0)";
"	{";
"	read_loop:";
"		(*out)[i] = int32(b.buf[off+(i*4)]) | int32(b.buf[off+(1+(i*4))])<<8 | int32(b.buf[off+(2+(i*4))])<<16 | int32(b.buf[off+(3+(i*4))])<<24";
"		i++";
"		if i < n {";
"			goto read_loop";
"		}";
"	}";
"}";
"";
"// ReadI32LENext reads a slice of int32s from the buffer at the";
"// current offset in little-endian and moves the offset forward the";
"// amount of bytes written";
"func (b *MiniBuffer) ReadI32LENext(out *[]int32, n int64) {";
"	b.ReadI32LE(out, b.off, n)";
"	b.SeekByte(n*4, true)";
"}";
"";
"// ReadI32BE reads a slice of int32s from the buffer at the";
"// specified offset in big-endian without modifying the internal";
"// offset value";
"func (b *MiniBuffer) ReadI32BE(out *[]int32, off, n int64) {";
"	i := int64(0)";
"	{";
"	read_loop:"].

(** v3/minibuf.generated.go:1001-1100 *)
Definition v3_minibuf_10 : list string := [
"		(*out)[i] = int32(b.buf[off+(3+(i*4))]) | int32(b.buf[off+(2+(i*4))])<<8 | int32(b.buf[off+(1+(i*4))])<<16 | int32(b.buf[off+(i*4)])<<24";
"		i++";
"		if i < n {";
"			goto read_loop";
"		}";
"	}";
"}";
"";
"// ReadI32BENext reads a slice of int32s from the buffer at the";
"// current offset in big-endian and moves the offset forward the";
"// amount of bytes written";
"func (b *MiniBuffer) ReadI32BENext(out *[]int32, n int64) {";
"	b.ReadI32BE(out, b.off, n)";
"	b.SeekByte(n*4, true)";
"}";
"";
"// ReadI64LE reads a slice of int64s from the buffer at the";
"// specified offset in little-endian without modifying the internal";
"// offset value";
"func (b *MiniBuffer) ReadI64LE(out *[]int64, off, n int64) {";
"	i := int64(0)";
"	{";
"	read_loop:";
"		(*out)[i] = int64(b.buf[off+(i*8)]) | int64(b.buf[off+(1+(i*8))])<<8 | int64(b.buf[off+(2+(i*8))])<<16 | int64(b.buf[off+(3+(i*8))])<<24 | int64(b.buf[off+(4+(i*8))])<<32 | int64(b.buf[off+(5+(i*8))])<<40 | int64(b.buf[off+(6+(i*8))])<<48 | int64(b.buf[off+(7+(i*8))])<<56";
"		i++";
"		if i < n {";
"			goto read_loop";
"		}";
"	}";
"}";
"";
"// ReadI64LENext reads a slice of int64s from the buffer at the";
"// current offset in little-endian and moves the offset forward the";
"// amount of bytes written";
"func (b *MiniBuffer) ReadI64LENext(out *[]int64, n int64) {";
"	b.ReadI64LE(out, b.off, n)";
"	b.SeekByte(n*8, true)";
"}";
"";
"// ReadI64BE reads a slice of int64s from the buffer at the";
"// specified offset in big-endian without modifying the internal";
"// offset value";
"func (b *MiniBuffer) ReadI64BE(out *[]int64, off, n int64) {";
"	i := int64(0)";
"	{";
"	read_loop:";
"		(*out)[i] = int64(b.buf[off+(7+(i*8))]) | int64(b.buf[off+(6+(i*8))])<<8 | int64(b.buf[off+(5+(i*8))])<<16 | int64(b.buf[off+(4+(i*8))])<<24 | int64(b.buf[off+(3+(i*8))])<<32 | int64(b.buf[off+(2+(i*8))])<<40 | int64(b.buf[off+(1+(i*8))])<<48 | int64(b.buf[off+(i*8)])<<56";
"		i++";
"		if i < n {";
"			goto read_loop";
"		}";
"	}";
"}";
"";
"// ReadI64BENext reads a slice of int64s from the buffer at the";
"// current offset in big-endian and moves the offset forward the";
"// amount of bytes written";
"func (b *MiniBuffer) ReadI64BENext(out *[]int64, n int64) {";
"	b.ReadI64BE(out, b.off, n)";
"	b.SeekByte(n*8, true)";
"}";
"";
"// ReadF32LE reads a slice of float32s from the buffer at the";
"// specified offset in little-endian without modifying the internal";
"// offset value";
"func (b *MiniBuffer) ReadF32LE(out *[]float32, off, n int64) {";
"	i := int64(0)";
"	var u uint32";
"	{";
"	read_loop:";
"		u = (uint32(b.buf[off+(i*4)]) | uint32(b.buf[off+(1+(i*4))])<<8 | uint32(b.buf[off+(2+(i*4))])<<16 | uint32(b.buf[off+(3+(i*4))])<<24)";
"		(*out)[i] = *(*float32)(unsafe.Pointer(&u))";
"		i++";
"		if i < n {";
"			goto read_loop";
"		}";
"	}";
"}";
"";
"// ReadF32LENext reads a slice of float32s from the buffer at the";
"// current offset in little-endian and moves the offset forward the";
"// amount of bytes written";
"func (b *MiniBuffer) ReadF32LENext(out *[]float32, n int64) {";
"	b.ReadF32LE(out, b.off, n)";
"	b.SeekByte(n*4, true)";
"}";
"";
"// ReadF32BE reads a slice of float32s from the buffer at the";
"// specified offset in big-endian without modifying the internal";
"// offset value";
"func (b *MiniBuffer) ReadF32BE(out *[]float32, off, n int64) {";
"	i := int64(0)";
"	var u uint32";
"	{";
"	read_loop:";
"		u = (uint32(b.buf[off+(3+(i*4))]) | uint32(b.buf[off+(2+(i*4))])<<8 | uint32(b.buf[off+(1+(i*4))])<<16 | uint32(b.buf[off+(i*4)])<<24)";
"		(*out)[i] = *(*float32)(unsafe.Pointer(&u))";
"		i++";
"		if i < n {";
"			goto read_loop"].

(** v3/minibuf.generated.go:1101-1200 *)
Definition v3_minibuf_11 : list string := [
"		}";
"	}";
"}";
"";
"// ReadF32BENext reads a slice of float32s from the buffer at the";
"// current offset in big-endian and moves the offset forward the";
"// amount of bytes written";
"func (b *MiniBuffer) ReadF32BENext(out *[]float32, n int64) {";
"	b.ReadF32BE(out, b.off, n)";
"	b.SeekByte(n*4, true)";
"}";
"";
"// ReadF64LE reads a slice of float64s from the buffer at the";
"// specified offset in little-endian without modifying the internal";
"// offset value";
"func (b *MiniBuffer) ReadF64LE(out *[]float64, off, n int64) {";
"	i := int64(0)";
"	var u uint64";
"	{";
"	read_loop:";
"		u = (uint64(b.buf[off+(i*8)]) | uint64(b.buf[off+(1+(i*8))])<<8 | uint64(b.buf[off+(2+(i*8))])<<16 | uint64(b.buf[off+(3+(i*8))])<<24 | uint64(b.buf[off+(4+(i*8))])<<32 | uint64(b.buf[off+(5+(i*8))])<<40 | uint64(b.buf[off+(6+(i*8))])<<48 | uint64(b.buf[off+(7+(i*8))])<<56)";
"		(*out)[i] = *(*float64)(unsafe.Pointer(&u))";
"		i++";
"		if i < n {";
"			goto read_loop";
"		}";
"	}";
"}";
"";
"// ReadF64LENext reads a slice of float64s from the buffer at the";
"// current offset in little-endian and moves the offset forward the";
"// amount of bytes written";
"func (b *MiniBuffer) ReadF64LENext(out *[]float64, n int64) {";
"	b.ReadF64LE(out, b.off, n)";
"	b.SeekByte(n*8, true)";
"}";
"";
"// ReadF64BE reads a slice of float64s from the buffer at the";
"// specified offset in big-endian without modifying the internal";
"// offset value";
"func (b *MiniBuffer) ReadF64BE(out *[]float64, off, n int64) {";
"	i := int64(0)";
"	var u uint64";
"	{";
"	read_loop:";
"		u = (uint64(b.buf[off+(7+(i*8))]) | uint64(b.buf[off+(6+(i*8))])<<8 | uint64(b.buf[off+(5+(i*8))])<<16 | uint64(b.buf[off+(4+(i*8))])<<24 | uint64(b.buf[off+(3+(i*8))])<<32 | uint64(b.buf[off+(2+(i*8))])<<40 | uint64(b.buf[off+(1+(i*8))])<<48 | uint64(b.buf[off+(i*8)])<<56)";
"		(*out)[i] = *(*float64)(unsafe.Pointer(&u))";
"		i++";
"		if i < n {";
"			goto read_loop";
"		}";
"	}";
"}";
"";
"// ReadF64BENext reads a slice of float64s from the buffer at the";
"// current offset in big-endian and moves the offset forward the";
"// amount of bytes written";
"func (b *MiniBuffer) ReadF64BENext(out *[]float64, n int64) {";
"	b.ReadF64BE(out, b.off, n)";
"	b.SeekByte(n*8, true)";
"}";
"";
"// SeekByte seeks to position off of the buffer relative to the";
"// current position or exact";
"func (b *MiniBuffer) SeekByte(off int64, relative bool) {";
"";
"	if relative {";
"";
"		b.off += off";
"";
"	} else {";
"";
"		b.off = off";
"";
"	}";
"";
"}";
"";
"// AfterByte stores the amount of bytes located after the current";
"// position or the specified one in out";
"func (b *MiniBuffer) AfterByte(out *int64, off ...int64) {";
"";
"	if len(off) == 0 {";
"";
"		*out = b.cap - b.off - 1";
"		return";
"";
"	}";
"	*out = b.cap - off[0] - 1";
"";
"}";
"";
"// AlignByte aligns the byte offset to the bit offset";
"func (b *MiniBuffer) AlignByte() {";
"";
"	b.off = b.boff / 8";
"";
"}";
"";
"/* generic methods */"].

(** v3/minibuf.generated.go:1201-1290 *)
Definition v3_minibuf_12 : list string := [
"";
"// TruncateLeft truncates the buffer on the left side";
"func (b *MiniBuffer) TruncateLeft(n int64) {";
"";
"	b.buf = b.buf[n:b.cap]";
"	b.Refresh()";
"";
"}";
"";
"// TruncateRight truncates the buffer on the right side";
"func (b *MiniBuffer) TruncateRight(n int64) {";
"";
"	b.buf = b.buf[0x00 : b.cap-n]";
"	b.Refresh()";
"";
"}";
"";
"// Grow makes the buffer's capacity bigger by n bytes";
"func (b *MiniBuffer) Grow(n int64) {";
"";
"	if n <= int64(cap(b.buf))-b.cap {";
"";
"		b.buf = b.buf[0 : b.cap+n]";
"		b.Refresh()";
"		return";
"";
"	}";
"	tmp := make([]byte, b.cap+n, (int64(cap(b.buf))+n)*2)";
"	copy(tmp, b.buf)";
"	b.buf = tmp";
"";
"	b.Refresh()";
"";
"}";
"";
"// Refresh updates the cached internal statistics of the buffer forcefully";
"func (b *MiniBuffer) Refresh() {";
"";
"	b.cap = int64(len(b.buf))";
"	b.bcap = b.cap * 8";
"";
"}";
"";
"// Reset resets the entire buffer";
"func (b *MiniBuffer) Reset() {";
"";
"	b.buf = b.buf[0:0]";
"	b.off = 0x00";
"	b.boff = 0x00";
"	b.cap = 0";
"	b.bcap = 0";
"";
"}";
"";
"/* value retrieval */";
"";
"// Bytes stores the internal byte slice of the buffer in out";
"func (b *MiniBuffer) Bytes(out *[]byte) {";
"";
"	*out = b.buf";
"";
"}";
"";
"// ByteCapacity stores the capacity of the buffer in out";
"func (b *MiniBuffer) ByteCapacity(out *int64) {";
"";
"	*out = b.cap";
"";
"}";
"";
"// BitCapacity stores the bit capacity of the buffer in out";
"func (b *MiniBuffer) BitCapacity(out *int64) {";
"";
"	*out = b.bcap";
"";
"}";
"";
"// ByteOffset stores the current offset of the buffer in out";
"func (b *MiniBuffer) ByteOffset(out *int64) {";
"";
"	*out = b.off";
"";
"}";
"";
"// BitOffset stores the current bit offset of the buffer in out";
"func (b *MiniBuffer) BitOffset(out *int64) {";
"";
"	*out = b.boff";
"";
"}"].

(** v3/minibuf.generated.go *)
Definition v3_minibuf : list string := (v3_minibuf_0 ++ v3_minibuf_1 ++ v3_minibuf_2 ++ v3_minibuf_3 ++ v3_minibuf_4 ++ v3_minibuf_5 ++ v3_minibuf_6 ++ v3_minibuf_7 ++ v3_minibuf_8 ++ v3_minibuf_9 ++ v3_minibuf_10 ++ v3_minibuf_11 ++ v3_minibuf_12)%list.

(** v3/errors.go:1-71 *)
Definition v3_errors_0 : list string := [
"/*";
"";
"crunch - utilities for taking bytes out of things";
"Copyright (c) 2019-2020 superwhiskers <whiskerdev@protonmail.com>";
"";
"This Source Code Form is subject to the terms of the Mozilla Public";
"License, v. 2.0. If a copy of the MPL was not distributed with this";
"file, You can obtain one at https://mozilla.org/MPL/2.0/.";
"";
"*/";
"";
"package v3";
"";
"import ""fmt""";
"";
"// Error implements a custom error type used in crunch";
"type Error struct {";
"	scope string";
"	error string";
"}";
"";
"// Error formats the error held in a Error as a string";
"func (e Error) Error() string {";
"";
"	return fmt.Sprintf(""crunch: %s: %s"", e.scope, e.error)";
"";
"}";
"";
"var (";
"	// BufferOverreadError represents an instance in which a read";
"	// attempted to read past the buffer itself";
"	BufferOverreadError = Error{";
"		scope: ""buffer"",";
"		error: ""read exceeds buffer capacity"",";
"	}";
"";
"	// BufferUnderreadError represents an instance in which a read";
"	// attempted to read before the buffer itself";
"	BufferUnderreadError = Error{";
"		scope: ""buffer"",";
"		error: ""read offset is less than zero"",";
"	}";
"";
"	// BufferOverwriteError represents an instance in which a write";
"	// attempted to write past the buffer itself";
"	BufferOverwriteError = Error{";
"		scope: ""buffer"",";
"		error: ""write offset exceeds buffer capacity"",";
"	}";
"";
"	// BufferUnderwriteError represents an instance in which a write";
"	// attempted to write before the buffer itself";
"	BufferUnderwriteError = Error{";
"		scope: ""buffer"",";
"		error: ""write offset is less than zero"",";
"	}";
"";
"	// BufferInvalidByteCountError represents an instance in which an";
"	// invalid byte count was passed to one of the buffer's methods";
"	BufferInvalidByteCountError = Error{";
"		scope: ""buffer"",";
"		error: ""invalid byte count requested"",";
"	}";
"";
"	// BytesBufNegativeReadError represents an instance in which a";
"	// reader returned a negative count from its Read method";
"	BytesBufNegativeReadError = Error{";
"		scope: ""bytesbuf"",";
"		error: ""reader returned negative count from Read"",";
"	}";
")"].

(** v3/errors.go *)
Definition v3_errors : list string := (v3_errors_0)%list.
