#!/usr/bin/env python3
"""Writes /verif/properties.jsonl (kept as a script so that entries stay readable)."""
import json, os
P = []
def p(title, statement, quantifier, why, anchors):
    P.append(dict(id="C%02d" % (len(P)+1), title=title, statement=statement,
                  quantifier=quantifier, why_tests_cant=why, anchors=anchors))
B="v3/buffer.generated.go"; M="v3/minibuf.generated.go"
B2="v2/buffer.go"; M2="v2/minibuf.go"; B1="v1/buffer.go"; M1="v1/minibuf.go"

p("ReadBit returns exactly the addressed bit",
  "For a v3 Buffer holding bytes l, ReadBit(off) with 0<=off<8*len(l) returns the bit number off of l (most significant bit of byte 0 is bit 0), changes nothing, and for every other off panics with BufferOverreadError (off too large) or BufferUnderreadError (off negative), changing nothing.",
  "every buffer content and length, every int64 offset",
  "the set of (content, offset) pairs is unbounded and the boundary offsets interact with the / and % of negative numbers",
  [B+":ReadBit"])
p("SetBit, ClearBit and FlipBit change exactly one bit",
  "For 0<=off<8*len, SetBit/ClearBit/FlipBit(off) make bit off 1/0/negated; every other bit, the length, both offsets and all memory outside the buffer are unchanged. Out of range offsets panic with BufferOverwriteError / BufferUnderwriteError and change nothing.",
  "every buffer content, every int64 offset, every other bit position",
  "a frame condition over all other bits and all of memory",
  [B+":SetBit", B+":ClearBit", B+":FlipBit"])
p("Algebra of single-bit operations",
  "SetBit and ClearBit are idempotent, the later of two SetBit/ClearBit on one offset wins, FlipBit is an involution, and bit operations at different offsets commute.",
  "every buffer, every pair of in-range offsets, every ordered pair of the three operations",
  "equalities between whole program states over all contents and offset pairs",
  [B+":SetBit", B+":ClearBit", B+":FlipBit"])
p("ReadBits is the big-endian value of the addressed bits",
  "For n>=1 and 0<=off, off+n<=8*len, ReadBits(off,n) returns sum of bit(off+i)*2^(n-1-i) modulo 2^64 (for n<=64 exactly the n-bit number; for n>64 the last 64 bits), and changes nothing.",
  "every content, offset and count",
  "unbounded number of loop iterations; crossing of byte boundaries at every alignment",
  [B+":ReadBits"])
p("SetBits writes exactly the n low bits of data",
  "For n>=1 and an in-range window, SetBits(off,data,n) makes bit off+i equal to bit n-1-i of data for 0<=i<n (zero for positions above 63) and leaves every other bit and all else unchanged.",
  "every content, data, offset and count",
  "unbounded loop, frame condition",
  [B+":SetBits"])
p("SetBits / ReadBits round trip",
  "After SetBits(off,data,n), ReadBits(off,n) returns data mod 2^n (data itself when n>=64); after v:=ReadBits(off,n), SetBits(off,v,n) with n<=64 leaves the buffer unchanged.",
  "every content, data, offset, count",
  "law over all values and alignments",
  [B+":SetBits", B+":ReadBits"])
p("Bit-field writes that overrun: what is left behind",
  "If 0<=off<8*len<off+n, SetBits(off,data,n) panics with BufferOverwriteError after having written exactly the bits that fit (so it is not atomic), and ReadBits panics with BufferOverreadError with nothing changed.",
  "every content, data, offset, count",
  "the intermediate state at the failing iteration, for every iteration it can fail at",
  [B+":SetBits", B+":ReadBits"])
p("Zero-count bit-field calls are not no-ops",
  "It is false that ReadBits(off,0) returns 0 and that SetBits(off,d,0) changes nothing: for every n<=0 ReadBits(off,n) returns the single bit at off and SetBits(off,d,n) clears the bit at off (when off is in range).",
  "every content, offset, data and n<=0",
  "behaviour of a do-while loop for all non-positive counts",
  [B+":ReadBits", B+":SetBits"])
p("ClearAllBits, SetAllBits and FlipAllBits are exact",
  "On a non-empty buffer ClearAllBits/SetAllBits make every byte 0x00/0xFF and FlipAllBits complements every byte (so FlipAllBits twice is the identity), keeping length and offsets; on an empty buffer each of them panics with a Go index error.",
  "every content of every length",
  "unbounded loop over the buffer",
  [B+":ClearAllBits", B+":SetAllBits", B+":FlipAllBits"])
p("WriteBytes stores exactly the bytes, even when the source aliases the buffer",
  "WriteBytes(off,data) with 0<=off and off+len(data)<=cap makes bytes off..off+len(data)-1 equal to what data held before the call, also when data is a slice of the same backing array (for instance a result of ReadBytes or Bytes), and changes no other byte, length or offset.",
  "every content, offset and source slice, aliasing or not",
  "all overlaps between source and destination",
  [B+":WriteBytes", B+":WriteByte"])
p("ReadBytes returns exactly the bytes; write/read round trip",
  "ReadBytes(off,n) in range returns a slice showing bytes off..off+n-1 and changes nothing; after WriteBytes(off,d), ReadBytes(off,len(d)) shows d; ReadByte(off)/WriteByte agree with the one-byte case.",
  "every content, data, offset, count",
  "law over all inputs",
  [B+":ReadBytes", B+":ReadByte", B+":WriteBytes", B+":WriteByte"])
p("Typed writes produce exactly the documented encoding",
  "For each of the 16 formats (U/I/F x 16/32/64 x LE/BE, no F16) and non-empty data that fits, WriteT(off,data) makes the w*len(data) bytes at off the concatenation of the two's complement / IEEE bit pattern encodings in the named byte order, and leaves everything else unchanged.",
  "each format, every data slice of any length, every offset and content",
  "unbounded lengths, 2^64 values per element",
  [B+":WriteU16LE", B+":WriteU16BE", B+":WriteU32LE", B+":WriteU64BE", B+":WriteI16LE", B+":WriteI64BE", B+":WriteF32LE", B+":WriteF64BE"])
p("Typed reads decode exactly the documented encoding",
  "For each of the 16 formats, n>=1 and an in-range window, ReadT(off,n) returns the n values whose encodings are the bytes at off, and changes nothing.",
  "each format, every content, offset and count",
  "unbounded counts, all byte patterns including sign bits",
  [B+":ReadU16LE", B+":ReadI16BE", B+":ReadI64LE", B+":ReadF64BE"])
p("Typed write / read round trip",
  "After a successful WriteT(off,data), ReadT(off,len(data)) returns data; after vs:=ReadT(off,n), WriteT(off,vs) leaves the buffer unchanged.",
  "each of the 16 formats, every data / content / offset / count",
  "law over all values",
  [B+":WriteU16LE", B+":ReadU16LE", B+":WriteF64BE", B+":ReadF64BE"])
p("Cross-format views",
  "Values written with a little-endian writer and read with the big-endian reader of the same width (or the converse) are the byte-reversed values; signed written and unsigned read (or float bits) are equal modulo 2^width.",
  "all widths, all values",
  "law over all values",
  [B+":WriteU32LE", B+":ReadU32BE", B+":WriteI32LE", B+":ReadU32LE"])
p("Floats survive bit-exactly",
  "WriteF32/F64 followed by ReadF32/F64 returns the same IEEE-754 value including signed zeros, infinities, subnormals and NaN payloads; the bytes written are the IEEE-754 interchange encoding of the value.",
  "every binary32/binary64 datum",
  "2^64 values, NaN payloads",
  [B+":WriteF32LE", B+":WriteF64BE", B+":ReadF32LE", B+":ReadF64BE"])
p("Failed writes are atomic",
  "If a WriteBytes, WriteByte or typed write of a v3 Buffer panics for any reason, no byte of memory, no offset and no length has changed (the Next variants included).",
  "every operation of the family, every argument, every content",
  "all failing inputs, including int64 overflow in the bounds check",
  [B+":WriteBytes", B+":WriteU64LE", B+":WriteU64LENext"])
p("Typed and byte operations succeed exactly when in range, and fail with the documented error",
  "With mathematical (non-overflowing) bounds: off+size>cap gives BufferOverwrite/OverreadError, else off<0 gives the Under error, else (size>0) success. If the int64 sum overflows, the call still never succeeds: it panics with a Go runtime error.",
  "every operation, every int64 offset and count including those whose sum or product overflows",
  "overflow corner cases form an enormous set",
  [B+":WriteBytes", B+":ReadBytes", B+":WriteU16LE", B+":ReadU64BE"])
p("Bounds-check overflow reports the wrong error",
  "It is false that every out-of-range access is reported with a crunch error: with off = 2^63-1 the sum wraps, the check passes and a Go runtime error is raised instead; for each byte/typed accessor such inputs exist and (C18) they never succeed.",
  "existence of a witness for each accessor, and for all inputs the alternative is a runtime panic",
  "needs a witness at int64 extremes plus a universal no-success statement",
  [B+":ReadBytes", B+":WriteBytes", B+":ReadU16LE"])
p("Zero-length typed calls panic",
  "For every format, WriteT(off,[]) and ReadT(off,0) with 0<=off<=cap always panic with a Go index error (never succeed), whereas WriteBytes(off,[]) and ReadBytes(off,0) succeed and change nothing.",
  "every format, content and in-range offset",
  "universal over contents and offsets",
  [B+":WriteU16LE", B+":ReadU16LE", B+":WriteBytes"])
p("No memory access outside the buffer",
  "No call of any method, with any arguments and in any state reachable through the API, reads or writes memory outside the backing array of the buffer or of the argument: every outcome is a normal return or a Go panic.",
  "every history of calls with arbitrary arguments",
  "memory safety over all histories",
  [B, M])
p("Next variants are the positional call at the current offset plus an advance",
  "XNext behaves as X at the current offset followed, only if it succeeded, by advancing the corresponding offset by the size; a failing XNext leaves the offset where it was; byte operations never move the bit offset and conversely.",
  "every operation with a Next variant, every state",
  "universal over states including failing ones",
  [B+":ReadBitNext", B+":SetBitsNext", B+":WriteBytesNext", B+":WriteU16LENext", B+":ReadF64BENext"])
p("Serialization by Next calls is lossless",
  "Writing any sequence of heterogeneous records (bytes, any of the 16 formats with any non-empty slice) with the Next writers into a big enough buffer, seeking back and reading with the corresponding Next readers returns the records in order, and the buffer content is the concatenation of the encodings.",
  "every finite sequence of records of every format",
  "induction on the sequence of records",
  [B+":WriteBytesNext", B+":WriteU16LENext", B+":ReadU16LENext", B+":SeekByte"])
p("Bit-stream serialization is lossless",
  "Writing any sequence of (value,width) fields with SetBitsNext, seeking back and reading the same widths with ReadBitsNext returns the values modulo 2^width, for every packing.",
  "every finite sequence of fields with widths 1..64",
  "induction on the sequence; all alignments",
  [B+":SetBitsNext", B+":ReadBitsNext", B+":SeekBit"])
p("Seek, align and after",
  "SeekByte/SeekBit(off,false) set the offset to off; with true they add off (wrapping at 64 bits); neither touches the other offset or the content. AlignBit sets bit offset to 8*byte offset, AlignByte sets byte offset to bit offset/8; AlignByte after AlignBit is the identity on the byte offset when 8*off does not overflow; AlignBit after AlignByte rounds the bit offset down to a byte boundary when non-negative. AfterByte/AfterBit return capacity - offset - 1.",
  "every state and int64 argument",
  "all int64 values incl. overflow and negative rounding",
  [B+":SeekByte", B+":SeekBit", B+":AlignBit", B+":AlignByte", B+":AfterByte", B+":AfterBit"])
p("Reported capacity is always right",
  "After any history of calls, ByteCapacity() = len(Bytes()) and BitCapacity() = 8*len(Bytes()); only Grow, TruncateLeft, TruncateRight and Reset change them.",
  "every finite history of calls, including panicking and recovered calls",
  "invariant over unbounded histories",
  [B+":ByteCapacity", B+":BitCapacity", B+":Refresh"])
p("Grow keeps the content and extends the length",
  "For n>=0 with room for the allocation, Grow(n) makes the length grow by exactly n, keeps all existing bytes at their positions and both offsets; n<0 panics with BufferInvalidByteCountError and changes nothing. When it has to reallocate, the new bytes are zero and previously obtained slices no longer alias the buffer.",
  "every content, spare capacity and n",
  "all capacities and sizes",
  [B+":Grow"])
p("Grow can expose old bytes",
  "It is false that Grow always adds zero bytes: when spare capacity exists the new bytes are whatever the backing array held (for instance bytes removed by TruncateRight or Reset, or the caller's bytes beyond the slice given to NewBuffer). In particular TruncateRight(k) followed by Grow(k) restores the removed bytes.",
  "every content, every k; refutation witness",
  "universal law plus a counterexample",
  [B+":Grow", B+":TruncateRight", B+":Reset"])
p("TruncateLeft / TruncateRight",
  "For 0<=n<=len, TruncateLeft(n) drops exactly the first n bytes and TruncateRight(n) the last n; the remaining bytes, memory and the offsets are unchanged; n<0 panics with BufferInvalidByteCountError, n>len with a Go slice error, and then nothing changes.",
  "every content and n",
  "all contents and all int64 n",
  [B+":TruncateLeft", B+":TruncateRight"])
p("Reset empties the buffer",
  "Reset makes length, capacity figures and both offsets zero; the memory is kept (not cleared) and remains available to Grow.",
  "every state",
  "universal over states",
  [B+":Reset"])
p("NewBuffer: zero, one and several slices",
  "NewBuffer() is empty; NewBuffer(x) has content x and shares memory with x; NewBuffer(x1,...,xk) with k>=2 has content x1++...++xk in memory of its own, so later writes through the buffer change none of the xi and conversely. Offsets start at 0.",
  "every list of slices, aliasing each other or not, and every allocator growth policy",
  "unbounded number of slices; aliasing",
  [B+":NewBuffer", M+":NewMiniBuffer"])
p("Bytes and ReadBytes alias the buffer",
  "The slice returned by Bytes()/ReadBytes(off,n) shows later in-place writes to that region and writes through it show in the buffer, until a Grow reallocates.",
  "every content, region and subsequent write",
  "aliasing law over all writes",
  [B+":Bytes", B+":ReadBytes"])
p("Isolation from other memory",
  "No method of a v3 Buffer changes any byte that is not in the backing array region [start, start+cap) of its slice: any slice disjoint from it keeps its content through any history of calls.",
  "every history, every disjoint slice",
  "frame property over histories",
  [B])
p("Every history behaves as the abstract buffer",
  "Any sequence of public v3 Buffer calls, with panics recovered between calls, gives exactly the results of a simple abstract machine whose state is (content, spare bytes, byte offset, bit offset).",
  "every finite history over all methods and arguments",
  "refinement over unbounded histories",
  [B])
p("MiniBuffer equals Buffer whenever Buffer succeeds",
  "For every operation and state, if the v3 Buffer call returns normally then the MiniBuffer call with the same arguments returns the same value (through its out pointer, starting from zeroed out of the right size) and leaves the same state. Consequently dropping checks is safe for callers that stay in range.",
  "every operation, argument and state in which Buffer succeeds",
  "equivalence over all inputs",
  [M, B])
p("MiniBuffer stays memory-safe",
  "No MiniBuffer call on any reachable state accesses memory outside its backing array (capacity), even though it performs no checks of its own.",
  "every history of MiniBuffer calls",
  "memory safety over all histories",
  [M])
p("MiniBuffer WriteBytes truncates silently",
  "MiniBuffer.WriteBytes(off,data) with 0<=off<=len writes exactly the prefix of data that fits and reports nothing, and WriteBytesNext still advances by len(data); hence a WriteBytesNext that does not fit leaves an offset beyond the buffer.",
  "every content, offset and data",
  "universal; silent loss",
  [M+":WriteBytes", M+":WriteBytesNext"])
p("MiniBuffer typed writes are not atomic",
  "When a MiniBuffer typed write does not fit (0<=off<=len), it panics with a Go index error and leaves exactly the prefix of the encoding that fits in the buffer.",
  "each format, every data, offset, content",
  "state at the failing iteration, for all iterations",
  [M+":WriteU16LE", M+":WriteF64BE"])
p("MiniBuffer ReadBits accumulates into the output variable",
  "MiniBuffer.ReadBits(&out,off,n) in range leaves out = (old out * 2^n + value) mod 2^64, so it returns the field only when out was 0 (or n>=64).",
  "every old value, content, offset, count",
  "law over all values",
  [M+":ReadBits", M2+":ReadBits"])
p("MiniBuffer and negative or out-of-length positions",
  "Bit operations at offsets -7..-1 silently do nothing (reads give 0) and at any other out-of-range offset panic with a Go index error; ReadBytes may return bytes beyond the length but never beyond the capacity; Grow(-k) shrinks and TruncateRight(-k) grows into spare capacity.",
  "every content and offset",
  "quotient truncation at negative offsets for all contents",
  [M+":ReadBit", M+":SetBit", M+":ReadBytes", M+":Grow", M+":TruncateRight"])
p("v2 Buffer agrees with v3 Buffer",
  "For every operation both versions have (unsigned formats, bytes, bits, seek, align, after, refresh), except byte writes that are empty or whose source starts less than its own length before the destination, a v2 Buffer call by a single goroutine returns the same value or panics with the same crunch error and leaves the same memory and offsets as v3; where v3 stops with a Go runtime panic v2 does too. Grow ends with the same length and offsets, and with the same content exactly when the spare bytes v3 exposes are zero.",
  "every shared operation, argument and state",
  "equivalence of two implementations over all inputs",
  [B2, B])
p("v2/v1 overlapping self-write smears",
  "v1 and v2 WriteBytes copy forward byte by byte: with a source that overlaps the destination from the left the result is the periodic repetition of the source prefix rather than the source; it is false that they store what data held before the call. For non-overlapping sources they do.",
  "every content and overlap distance",
  "all overlaps",
  [B2+":write", B1+":write", M2+":write", M1+":write"])
p("v1/v2: a panicking write leaves the mutex locked",
  "A v1 or v2 call that panics leaves the mutex locked exactly when it is a byte or integer write or Grow and the panic is a Go runtime error (empty data, an offset whose range check overflows, a negative or too large Grow); every other panic, and every return, leaves it unlocked. After such a panic is recovered no v2 method that takes the mutex returns any more: it blocks for ever, or panics in its range check.",
  "every state and argument; every later locking call",
  "liveness: no later call ever returns",
  [B2+":write", B2+":grow", B1+":write", B1+":grow"])
p("v2 single-bit calls are linearizable",
  "Any number of goroutines concurrently issuing any number of ReadBit/SetBit/FlipBit (and whole-buffer bit calls) on one v2 Buffer, under any scheduling, produce results and a final content equal to those of some sequential order of the calls consistent with program order and real time; no flip is lost.",
  "every number of goroutines, every program of calls, every schedule",
  "all interleavings",
  [B2+":readbit", B2+":setbit", B2+":flipbit"])
p("v2 byte and integer calls are linearizable while the capacity is stable",
  "The same for WriteByte/WriteBytes/ReadUxx/WriteUxx positional calls, seeking, aligning and queries with any arguments, as long as no call changes the capacity (Grow, Reset) and the source of WriteBytes is not the buffer's own memory: no integer is ever torn. ReadByte belongs to the same class when each write is one byte. It is false of ReadBytes, which returns a view of the buffer that can show half of a concurrent WriteBytes.",
  "every number of goroutines, every program of calls, every schedule",
  "all interleavings",
  [B2+":write", B2+":writeU64LE", B2+":readU64LE"])
p("v2 Next calls are not atomic",
  "It is false that concurrent WriteByteNext calls on a v2 Buffer each get their own position: there is a schedule of two such calls in which both write at the same offset and one byte is lost although the offset advances by 2.",
  "existence of a schedule",
  "a race window tests cannot reliably hit",
  [B2+":WriteByteNext", B2+":seek"])
p("v2 check-then-act race",
  "It is false that an in-range v2 call cannot fail with a Go runtime error: a Reset between the bounds check and the locked section makes ReadByte and WriteByte panic with one, and WriteByte then leaves the mutex locked, so that later calls that lock never return. It is false that ReadBits and SetBits are atomic: a concurrent ReadBits can return a mixture of old and new bits.",
  "existence of schedules",
  "a race window tests cannot reliably hit",
  [B2+":read", B2+":write", B2+":Reset", B2+":readbits"])
p("v1 ReadComplex under-checks its range",
  "v1 ReadComplex(off,n,size,endian) checks n bytes but decodes n*size bytes: it is false that it panics with BufferOverreadError whenever off+n*size>cap (it may return stale bytes beyond the length, or panic with a Go slice error); when n*size bytes are in range it decodes them exactly.",
  "every content, offset, count, size, endianness; witness",
  "boundary over all states with spare capacity",
  [B1+":readComplex", M1+":readComplex"])
p("v1 WriteComplex / ReadComplex round trip",
  "In range and for size 1,2,4,8 and either byte order, v1 ReadComplex(off,len(data),size,e) after WriteComplex(off,data,size,e) returns data; an invalid size panics with BufferInvalidIntegerSizeError and a mismatching data type with a Go type assertion error, changing nothing.",
  "every data, size, endianness, offset",
  "law over all values",
  [B1+":writeComplex", B1+":readComplex"])
p("v1/v2 SetBit value discipline",
  "v1/v2 SetBit(off,data) stores data when data is 0 or 1, and panics with BufferInvalidBitError (content unchanged, mutex released) for every other byte value; SetBits of n bits writes the n low bits of data.",
  "every content, offset, value",
  "universal over values and states",
  [B2+":setbit", B1+":setbit", B2+":setbits"])
p("The code generator emits the committed functions",
  "For every valid argument combination of the generation tool used in v3 the generated function body has exactly the semantics of the committed function, and for every valid argument the generated Write/Read pair satisfies the encoding and round-trip properties for that format.",
  "every valid generator argument; all inputs to the generated functions",
  "meta-level: all programs the generator can emit",
  ["generation/complex.go:GenerateComplex", B])
p("The generator leaves stale bytes in its output file",
  "It is false that after running the generator the output file equals the generated text: when the file already existed and was longer the old tail remains; it holds when the old file is not longer.",
  "every old file content and new text",
  "universal over file contents",
  ["generation/main.go"])
p("Errors are distinguishable and correctly formatted",
  "The exported error values of each version are pairwise distinct, their Error() strings are pairwise distinct and are 'crunch: ' + scope + ': ' + message; and every call raises only the errors documented for its kind (a read never raises a write error, a seek never a bit error, ...) or a Go runtime error.",
  "every pair of exported errors",
  "none of the unit tests compares the values pairwise",
  ["v3/errors.go:Error", "v2/errors.go", "v1/errors.go"])
p("Bit view and byte view of one buffer agree",
  "Reading 8k bits at bit offset 8*off is the big-endian number of the k bytes at byte offset off: ReadBits(8*off,16/32/64) = ReadU16/32/64BE(off,1), and SetBits of 8k bits equals the corresponding BE write.",
  "every content, offset and value",
  "relates two independent implementations over all values",
  [B+":ReadBits", B+":ReadU16BE", B+":SetBits", B+":WriteU64BE"])
p("Disjoint writes commute and do not interfere",
  "Two writes (byte, typed or bit-field) to disjoint windows commute, and a read of a window disjoint from a write is unaffected by it.",
  "every pair of operations with disjoint windows",
  "pairs of operations over all states",
  [B])
p("The documented examples behave as documented",
  "The programs in examples/ (hello world, signed integers, floating point) print what they are meant to, whatever the runtime did before: 'hello, world'; the eight bytes of -42 and 69 in little endian, then [-42 69]; the 32 bytes of the four floats in big endian, then [69 -21 -42.42 3.621]. This holds for the text of the programs, whatever garbage or growth policy the runtime has.",
  "every runtime growth policy / heap",
  "depends on allocator choices",
  ["examples/helloworld", "examples/signed-integers", "examples/floating-point"])
p("MiniBuffer behaves as a simple abstract buffer on every input",
  "Any history of MiniBuffer calls with any arguments (in or out of range, with any contents of the out variables, panics recovered) is observed exactly as the same history of an abstract machine that has only bytes, spare bytes and two offsets; every value, panic, partially written out variable and partially written byte is predicted by it.",
  "every history of calls, stores through aliases and allocations, all arguments",
  "histories and out-of-range arguments are unbounded",
  [M])
p("v1/v2 Grow appends zeros",
  "v1/v2 Grow(n) appends n zero bytes and keeps both offsets whatever the spare capacity of the backing array holds; with enough spare capacity it clears exactly those bytes of the caller's array, otherwise it moves to a new array and leaves all existing memory alone.",
  "every content, spare capacity, growth policy and count",
  "depends on aliasing and on the allocator",
  [B1+":grow", B2+":grow"])
p("v2 Reset detaches the buffer from its old memory",
  "v2 Reset empties the buffer, zeroes both offsets, moves it to a new empty array with no spare capacity and leaves all existing memory as it was.",
  "every state",
  "aliasing over all states",
  [B2+":reset"])
p("v1/v2 histories are safe and block only after a poisoned write",
  "Any history of v1 or v2 calls by one goroutine after the constructor, with recovered panics, stores by the caller through any slice and allocations, runs without memory faults; a call blocks only after an earlier write or Grow was stopped by a Go runtime panic; without one the buffer stays consistent and unlocked.",
  "every history of calls, arguments, stores and allocations",
  "histories are unbounded",
  [B1, B2])
p("v1 Buffer agrees with v2 Buffer",
  "For bit counts of at least one, whole-buffer bit calls on a buffer that is not empty and integer reads that fit, every v1 call has the result, panic and visible effect of the v2 call (WriteComplex and ReadComplex being the typed accessors of v2); v1 ReadBits and SetBits of fewer than one bit, and whole-buffer bit calls on an empty buffer, do nothing.",
  "every shared operation, argument and state",
  "relates two implementations over all inputs",
  [B1, B2])
p("v2 calls from many goroutines all return",
  "No schedule of v2 calls runs for ever. With positional bit, byte and integer calls, seeks and queries (no Next call, Grow or Reset) that write at least one byte at offsets whose end fits an int, the mutex is always released, some goroutine can always go on, and from every point of every schedule all calls can return.",
  "every number of goroutines, every program of calls, every schedule",
  "all interleavings",
  [B2+":write", B2+":setbit", B2+":seek"])
p("The generator is repeatable and touches only its outputs",
  "What the generator writes does not depend on the order in which Go walks its map of sources; a file that is not the output of a source is left alone; and when no source name starts with two underscores a second run changes nothing (with one it can).",
  "every directory content, every iteration order",
  "map iteration order is random; directories are unbounded",
  ["generation/main.go", "generation/complex.go:GenerateComplex"])
p("The models are what the Go text means",
  "For every function and method of the v1, v2 and v3 Buffer and MiniBuffer files: the text of the file, parsed and interpreted as Go (typed and untyped integers with wrap-around, slices, labels and goto, for and range, switch, defer, variadic, interface and pointer parameters, type assertions, panics), makes the call do exactly the memory, field and mutex accesses of its model, in the same order and with the same values, and end with the same result or panic.",
  "every function, all arguments, all states and all answers of memory",
  "an equivalence between two programs over all inputs",
  [B, M, B2, M2, "v1/buffer.go", "v1/minibuf.go", "v1/crunch.go", "v3/errors.go", "v2/errors.go", "v2/utils.go", "v1/errors.go", "v1/utils.go"])
p("Every history of the v3 Buffer text is the abstract buffer's",
  "Run as Go text, NewBuffer(slices...) gives a buffer with the bytes of the slices and offsets 0, or panics if they do not fit in memory; any sequence of API calls, with recovered panics and with writes and allocations by the caller in between, shows the caller the answers of an abstract buffer (a byte string, spare bytes and two offsets); every call returns or panics, in one way only.",
  "every history, all arguments, all memory layouts",
  "histories are unbounded",
  [B])
p("Every history of the v3 MiniBuffer text is the abstract MiniBuffer's",
  "The same for the MiniBuffer text and the abstract MiniBuffer (unchecked accesses, results through out pointers), including what is left in the out variable when a call panics.",
  "every history, all arguments, all memory layouts, all initial values of the out variables",
  "histories are unbounded",
  [M])
p("Goroutines that run the v2 text",
  "When goroutines run the text of v2/buffer.go, interleaved at single memory, field and mutex accesses: the histories and the memory contents that can be observed are exactly those of the models; calls that are one critical section are linearizable; no FlipBit is lost; an integer written whole is never read torn; all such calls can return. Two WriteByteNext can lose a byte, and a write that loses a race with Reset panics and leaves the mutex locked for ever.",
  "every number of goroutines, every program of calls, every state, every schedule",
  "all interleavings of the real code",
  [B2])
p("v1 and v2 histories are an abstract machine's",
  "For one goroutine, a v1 or v2 Buffer is a byte string with spare bytes, two offsets and a flag that says whether it is dead: any sequence of calls after NewBuffer, with recovered panics and with writes and allocations by the caller in between, shows the caller exactly what this machine answers, up to the call that never returns. A buffer dies only by a byte or integer write or a Grow that raises a runtime error; a dead buffer never changes again; memory that is not behind the buffer is never touched.",
  "both versions, every history, all arguments, all memory layouts",
  "histories are unbounded",
  [B1, B2])
p("Every history of the v1 and v2 Buffer text is the abstract machine's",
  "The same for the text of v1/buffer.go and v2/buffer.go, parsed and run as Go; every call returns, panics or blocks, in one way only, and none blocks on a buffer that is not dead; NewBuffer returns a buffer, or panics if the bytes do not fit in memory.",
  "both versions, every history, all arguments, all memory layouts",
  "histories are unbounded",
  [B1, B2])
p("v1 and v2 MiniBuffer histories are the abstract MiniBuffer's",
  "A v1 or v2 MiniBuffer is a byte string with spare bytes and two offsets: any sequence of calls after NewMiniBuffer, with recovered panics and with writes and allocations by the caller in between, shows the caller exactly what this abstract MiniBuffer answers, including what ReadBits and the v2 integer reads leave in the variable behind the out pointer when they panic. Every call returns or panics; a write that overruns the buffer leaves the bytes that fit; memory that is not behind the MiniBuffer is never touched.",
  "both versions, every history, all arguments, all memory layouts, all initial values of the out variables",
  "histories are unbounded",
  ["v1/minibuf.go", M2])
p("Every history of the v1 and v2 MiniBuffer text is the abstract MiniBuffer's",
  "The same for the text of v1/minibuf.go and v2/minibuf.go, parsed and run as Go; every call returns or panics, in one way only; NewMiniBuffer gives a MiniBuffer, or panics if the bytes do not fit in memory.",
  "both versions, every history, all arguments, all memory layouts, all initial values of the out variables",
  "histories are unbounded",
  ["v1/minibuf.go", M2])
p("Which v1 and v2 calls race",
  "Goroutines share one v1 or v2 Buffer. If no call of one goroutine writes a part of the buffer (its bytes, its slice, a capacity, an offset) that a call of another reads without the mutex, then no execution has a data race in the sense of the Go memory model. So positional reads and writes of bits, bytes and (in v2) integers never race, also while one goroutine uses Next calls, Seek and Offset; nor do calls that only read. Every other pair of methods races for some arguments and some schedule: two Next calls on one offset, ReadByte with any write, v1 ReadComplex with any write, Capacity or any bounds check with Refresh, Grow or Reset.",
  "both versions, every number of goroutines, every program of calls, every state, every schedule",
  "a race detector sees only the schedules that happen",
  [B1, B2])
p("Races of goroutines that run the v1 and v2 text",
  "When goroutines run the text of v1/buffer.go or v2/buffer.go, interleaved at single memory, field and mutex accesses: calls that are compatible in the sense of C72 never race, in particular positional calls beside one user of the offsets; every two methods that are not compatible race for some arguments and some schedule.",
  "both versions, every number of goroutines, every program of calls, every state, every schedule",
  "a race detector sees only the schedules that happen",
  [B1, B2])
p("Which v3 calls race",
  "Goroutines share one v3 Buffer, which has no mutex. If no call of one goroutine writes a part of the buffer (a byte, the slice, a capacity, an offset) that a call of another reads or writes, then no execution has a data race in the sense of the Go memory model. So goroutines that only read do not race, nor do goroutines whose positional calls keep to disjoint ranges of bytes, nor one goroutine that reads along the byte offset, one that reads along the bit offset and any number that read at positions of their own. Two methods whose calls at the same place are in conflict do race. The same holds of the Go text.",
  "every number of goroutines, every program of calls, every state, every schedule",
  "all interleavings",
  [B])
p("Goroutines that keep to different parts of a v3 Buffer",
  "Goroutines share one v3 Buffer and none writes a part of it (a byte, a capacity, an offset) that another writes, reads or gets back in a returned slice; nobody truncates, grows or resets it. Then every call answers as if its goroutine were alone with the buffer, in every schedule; nobody ever waits and all calls return; in the end each goroutine has left its parts as if alone, all other parts are as before, and answers, bytes, spare bytes and offsets do not depend on the schedule. So it is for goroutines whose positional calls keep to disjoint ranges of bytes, for goroutines that only read, and for one reader per offset. The same holds of the Go text. Without the condition it is false: two WriteByteNext calls can lose a byte.",
  "every number of goroutines, every program of such calls, every state, every schedule",
  "all interleavings",
  [B])
p("Goroutines and one v1 Buffer",
  "Goroutines share one v1 Buffer. Calls that are one critical section (ReadBit, SetBit, FlipBit, the whole-buffer bit calls, WriteByte, WriteBytes from memory outside the buffer, WriteComplex, Seek, SeekBit, AlignBit, AlignByte, Refresh and the queries) are linearizable, although WriteComplex first builds the bytes in temporary slices outside the lock: each call takes effect at one moment between its call and its return. So no flip of a bit is lost, and a place where goroutines write integers holds one of them (or the old one) whenever no call is in progress. ReadByte too is linearizable when writes are of single bytes. ReadComplex is not: it decodes after the lock is released and can return an integer nobody wrote. WriteByteNext is not: a byte can be lost. Some goroutine can always go on, and all calls can return, unless a write ended by a Go runtime error kept the mutex, which non-empty writes at offsets that do not overflow never do. The same holds of the Go text.",
  "every number of goroutines, every program of such calls, every state, every schedule",
  "all interleavings",
  [B1])
p("The memory a v3 buffer takes",
  "Of all v3 Buffer and MiniBuffer methods only Grow makes a new backing array, and only when the spare capacity is less than what is asked for; the array then has twice the old capacity plus twice the bytes asked for. No other call allocates bytes, also when it panics, except that WriteByte makes its argument into an array of one byte. Over any history of calls, with panics recovered and with any truncation, reset and growth in any order, the arrays made by Grow have together at most twice the bytes the buffer began with plus six times the bytes asked for. If nothing is cut off at the left, k such arrays mean that the capacity has doubled k times; with TruncateLeft that is not so.",
  "every history of calls and caller stores, every argument, every initial buffer",
  "histories are unbounded; an allocation benchmark measures one history",
  [B, M])
p("The generator's text generates what the rules of magic comments say",
  "The Go text of generation/complex.go, parsed and run: GenerateComplex, called with any map from file names to contents, returns that map with every file's contents replaced line by line as C51 says (a line that is a valid magic comment by the code jennifer prints for it or by a remark if jennifer refuses, an invalid magic comment by its error remark, any other line by itself) and no error; nothing else changes. If what jennifer prints reads back as the tokens it was given, the results for the two templates of v3 read as the committed files, token for token.",
  "every map of files with any contents, every order in which Go walks maps, every printer",
  "inputs and map orders are unbounded",
  ["generation/complex.go: GenerateComplex", "v3/_buffer.go", "v3/_minibuf.go"])
p("A run of the generator, whatever fails",
  "The Go text of generation/main.go and complex.go, parsed and run from init and main on: the program always ends. If the directory cannot be resolved, opened or looked at, or is none, or the flag is not complex, no file changes. Otherwise every entry that is no directory, is called _*.go and can be opened gets its output: what is generated from the text read of it, written over the old output from the start (as much of it as was written before an error), unless the output file cannot be opened. This holds for every source independently of what fails for the others and of all map orders. No other file changes. If nothing fails, the files are those of C52 and C63, and from the two templates of v3 the committed files come out, token for token. A source that could not be read to its end is not left out: the part read is used.",
  "every directory, command line, order of map walks and set of failing system calls",
  "combinations of failures and map orders are unbounded",
  ["generation/main.go: main, init", "generation/complex.go: GenerateComplex"])
p("Programs with many buffers",
  "A program makes any number of Buffers and MiniBuffers of v1, v2 and v3, calls their methods in any order, passes slices of one to another and writes bytes itself. As long as it does not make a buffer of one slice whose memory is behind another buffer, no two buffers ever share memory, whatever grows or is truncated, and each buffer answers and ends as if it were alone: only its own calls, the bytes passed to them and the program's own writes to its bytes matter. This is so until a call on a v1 or v2 Buffer never returns (C43), which ends the program. If buffers are made of the same memory, a call on one leaves the length, capacity, offsets and mutex of the others alone, changes none of their bytes that are not behind it, and every byte that is behind both stays the same through both.",
  "every number and mix of buffers, every history of calls, stores and allocations, every growth policy of append",
  "histories over several buffers are unbounded in number and length",
  [B, M, B1])
p("One wire format for all versions",
  "The Buffers and MiniBuffers of v1, v2 and v3 agree about data: numbers written by any of the six types in a format it has (the six unsigned integer formats; v3 also the signed ones and floats) leave the same bytes, and wherever those bytes are then found, at any offset of any buffer of any of the types that has the format, a typed read there delivers the numbers. A field of 1 to 64 bits written by any type reads the same through any other, wherever its bits are. So numbers written with one version, taken out with ReadBytes, kept by the program, stored with WriteBytes in a buffer of another version and read there are the numbers written.",
  "every pair of the six types, every common format, every list of values of the format, every content, every offset in range, positional and Next calls",
  "pairs of types, values, contents and offsets are unbounded; the code of the versions is different",
  [B, M, B2, M2, B1, M1])
p("Goroutines sharing a v3 MiniBuffer",
  "A v3 MiniBuffer has no lock. Goroutines that share one and each store results in variables of their own do not race, whatever the schedule, if their calls are compatible: no call reads or writes the slice header, an offset field or a byte of the buffer that a call of another goroutine writes. So any number of goroutines may use calls that only look (typed reads, bit reads, ReadBytes, Bytes, the offsets), and goroutines that keep their positional calls to disjoint byte ranges do not race, writes included. Bit offsets from -7 to -1 count as byte 0. For every two methods whose calls at the first byte conflict there is a schedule in which these calls race; two reads that store in the same variable race.",
  "every number of goroutines, every list of valid calls of each, every interleaving of their loads and stores",
  "the race detector sees the races of the schedules that happened",
  [M])
p("Exactly when goroutines sharing a v3 buffer race",
  "Goroutines share a v3 Buffer or MiniBuffer (results in variables of their own) and make any lists of calls that take their places from their arguments: reads and writes of bits, bytes and numbers at an offset, the methods that change all bits, AfterBit and AfterByte, and the methods that return a field or the slice. All the calls are such that they return rather than panic. Then the goroutines are free of data races in every schedule if and only if no two calls of different goroutines touch a common byte that one of them writes. The bytes are those of the arguments: off/8 to (off+n-1)/8 for n bits, off to off+n*size-1 for n numbers, all bytes for the methods that change all bits. So for every two conflicting calls, anywhere in the lists, with any arguments, there is an execution with a race.",
  "every number of goroutines, every list of such calls with any arguments, every buffer, every interleaving of their loads and stores",
  "arguments and lists of calls are unbounded; that no schedule races, and that some schedule does, are both out of reach of running the code",
  [B, M])
p("Goroutines with a buffer of their own",
  "Goroutines each use one buffer of any version, a Buffer or a MiniBuffer; the buffers may lie in one array as long as no two of them have a byte in common, counting the bytes up to the capacity of the slice, and the goroutines may pass slices of bytes that nobody changes to their methods. Then, whatever the schedule and whatever grows, each goroutine gets the answers and panics it would get alone, in their order; when it has finished, its buffer, its bytes and its results are as they would be alone; no goroutine touches a byte that another one writes; bytes that no goroutine has stay as they are; and no goroutine ever waits, unless it waits for a mutex that a panic in an earlier call of its own left locked, as it would alone. No schedule goes on for ever. If only the bytes up to the length are apart, this is false: a v2 Grow then overwrites the neighbour.",
  "every number and mix of goroutines and buffers, every list of calls, every placement in memory, every interleaving of their loads and stores, every growth policy of append",
  "schedules, histories and placements are unbounded",
  [B, M, B2, M2, B1, M1])
p("The work of a call",
  "A call of any method of any version, in any state and with any arguments, whether it returns or panics, makes at most 20 accesses to memory plus 10 for each bit or byte it names (the number of bits of a bit method, the bytes of a write or of a typed read; a count below 1 is 1), however large the buffer is. ReadBytes names none: it copies nothing. Only the three methods on all bits depend on the length of the buffer, and Grow on the array it makes. Growing a v3 buffer bit by bit costs no more, up to a constant, than growing it at once: any calls in a row make at most 20 accesses each, 12 for each bit or byte named, where Grow names only the bytes asked for, and 4 for each byte the buffer had. The same is true of v1 and v2, with other constants, if append enlarges an array by a quarter at least and to three times what is needed at most (up to a constant), as Go's runtime does, far from the memory limit; with a policy that gives exactly what is needed it is false, and m calls of Grow(1) make at least m(m+1)/2 accesses. The memory that the calls take, temporary arrays of v1 and v2 included, is bounded alike. Making a buffer of at most one slice takes a constant number of accesses; of more, under such a policy, a number linear in the slices and their bytes, and with an exact policy at least m(m+1)/2 for m slices of one byte. All this holds of the Go text.",
  "every version and type, every state, every call with any arguments, every list of calls, every growth policy of append",
  "a benchmark measures a few sizes; the bound is for all sizes and histories",
  [B, M, B2, M2, B1, M1])
p("Goroutines sharing a v1 or v2 MiniBuffer",
  "The MiniBuffers of v1 and v2 have no lock either. Goroutines that share one and each store results in variables of their own do not race, whatever the schedule and however append grows arrays, if no call reads or writes the slice header, an offset field or a byte of the buffer that a call of another goroutine writes. A positional call reaches the bytes its arguments name and no others; a v2 call that names no bits still looks at one, a v1 call does not. So any number of goroutines may use calls that only look, and goroutines that keep their positional calls to disjoint byte ranges do not race, writes included. For every two methods whose calls at the first byte conflict there is a schedule in which these calls race; two reads of bits that store in the same variable race. All this holds of the Go text.",
  "both versions, every number of goroutines, every list of valid calls of each, every interleaving of their loads and stores, every growth policy of append",
  "the race detector sees the races of the schedules that happened",
  [M2, M1])
p("Goroutines that keep to different parts of a MiniBuffer",
  "Goroutines share one MiniBuffer, of v1, v2 or v3, each call storing its results in a variable of its own, and none writes a part of the buffer (a byte, a capacity, an offset) that another writes, reads or gets back in a returned slice; nobody truncates, grows or resets it. Then, although there is no lock, every call answers as if its goroutine were alone with the buffer, in every schedule; all calls can return and none ever waits; in the end each goroutine has left its parts as if alone, all other parts are as before, and answers, bytes, spare bytes and offsets do not depend on the schedule. So it is for goroutines whose positional calls keep to disjoint ranges of bytes and for goroutines that only read. The same holds of the Go text. Without the condition it is false: two goroutines that each set a bit of one byte can lose one of the bits.",
  "all three versions, every number of goroutines, every list of such calls, every state, every schedule, every growth policy of append",
  "all interleavings",
  [M, M2, M1])
p("Exactly when goroutines sharing a v1 or v2 MiniBuffer race",
  "Goroutines share a v1 or v2 MiniBuffer (results in variables of their own) and make any lists of calls that take their places from their arguments: reads and writes of bits, bytes and integers at an offset, the methods that change all bits, After and AfterBit, and the methods that return a field or the slice. All the calls return rather than panic, integer reads end before the end of the buffer, and a buffer of which all bits are changed is not empty. Then the goroutines are free of data races in every schedule if and only if no two calls of different goroutines touch a common byte that one of them writes. The bytes are those of the arguments, as for v3; a v1 call that names no bits or integers touches none, while a v2 call touches those of one. So for every two conflicting calls, anywhere in the lists, with any arguments, there is an execution with a race. The same holds of the Go text.",
  "both versions, every number of goroutines, every list of such calls with any arguments, every buffer, every interleaving of their loads and stores",
  "arguments and lists of calls are unbounded; that no schedule races, and that some schedule does, are both out of reach of running the code",
  [M2, M1])
p("Goroutines on different parts of a buffer, without any order between their accesses",
  "C75 and C87 remain true when memory has no global order of accesses. Goroutines share one v3 Buffer, or one MiniBuffer of v1, v2 or v3, and none writes a part of the buffer that another writes, reads or gets back. Each goroutine sees its own writes at once, but what it sees at the places where another goroutine is at liberty to write (the parts its calls write, the arrays it allocates) may change at any moment and in any way, to values nobody ever wrote. Then every call still answers as if its goroutine were alone with the buffer; all calls can return and none ever waits; and once the goroutines have been waited for, the buffer is in order, each goroutine has left its parts as if alone, and all other parts are as before. No goroutine ever writes where it is not at liberty to, not even the value that is there, or reads where another one is, and no two are at liberty to write at one place. Executions with a global order are a special case. If two goroutines do share a byte, a read may answer a value that nobody wrote.",
  "the v3 Buffer and all three MiniBuffers, every number of goroutines, every list of such calls, every state, every schedule, every order in which writes become visible, every growth policy of append",
  "what hardware and compilers do to the order of accesses cannot be enumerated by running the code on one machine",
  [B, M, M2, M1])
with open(os.path.join(os.path.dirname(__file__), "..", "properties.jsonl"), "w") as f:
    for x in P: f.write(json.dumps(x) + "\n")
print(len(P))
