#!/usr/bin/env python3
"""Writes seeded/mutants.json: the wrong programs tried by tools/mutate.py."""
import json, os
M = []
def m(id, file, d, old, new, claim, *expect):
    M.append(dict(id=id, file=file, **({"def": d} if d else {}), old=old, new=new, claim=claim, expect=list(expect)))
def also(file, d, old, new):
    """The same change in another file, so that the Go text and its transcription still agree."""
    M[-1].setdefault("also", []).append(dict(file=file, old=old, new=new, **({"def": d} if d else {})))
B, T, MI = "V3Buffer.v", "V3BufferTyped.v", "V3Mini.v"
m("m01", B, "ReadBit", "off >? (bcap -! 1)", "off >? bcap", "ReadBit one past the end must raise the overread error", "C01", "C18", "C34")
m("m02", B, "ReadBit", "7 - uconv 64 (rem off 8)", "uconv 64 (rem off 8)", "bit 0 is the most significant bit of byte 0", "C01", "C04", "C54")
m("m03", B, "SetBit", "off <? 0) BufferUnderwriteError", "off <? 0) BufferOverwriteError", "a negative offset raises the underwrite error", "C02", "C34")
m("m04", B, "SetBit", "Z.lor v", "Z.lxor v", "SetBit of a bit that is already set leaves it set", "C02", "C03", "C05")
m("m05", B, "ClearBit", "not8 (ushl 8 1 (uconv 64 (7 -! rem off 8)))", "ushl 8 1 (uconv 64 (7 -! rem off 8))", "ClearBit keeps the other bits", "C02", "C03", "C05")
m("m06", B, "FlipBit", "7 -! rem off 8", "rem off 8", "FlipBit flips the addressed bit", "C02", "C03")
m("m07", B, "SetBits", "n -! i -! 1", "i", "SetBits writes the most significant of the n bits first", "C05", "C06", "C24")
m("m08", B, "ReadBits", "off +! i", "off", "ReadBits reads n different bits", "C04", "C06", "C24")
m("m09", B, "ReadBitsNext", "SeekBit n true", "SeekBit 1 true", "ReadBitsNext advances by n", "C22", "C24", "C34")
m("m10", B, "SetBitNext", "SeekBit 1 true", "SeekByte 1 true", "SetBitNext advances the bit offset", "C22", "C34")
m("m11", B, "FlipAllBits", "not8 v", "Z.lxor v 127", "FlipAllBits flips every bit", "C09", "C34")
m("m12", B, "SetAllBits", "goto_loop (s_len s)", "goto_loop (s_len s - 1)", "SetAllBits reaches the last byte", "C09", "C34")
m("m13", B, "AfterBit", "o <- get FBoff ;; Ret (c -! o -! 1)", "o <- get FBoff ;; Ret (c -! o)", "AfterBit() is capacity - offset - 1", "C25", "C34")
m("m14", B, "AlignBit", "o *! 8", "o", "AlignBit puts the bit offset at the byte offset", "C25", "C34")
m("m15", B, "WriteBytes", "off +! s_len data >? cap", "off +! s_len data >? (cap +! 1)", "a write one byte too long raises the overwrite error and changes nothing", "C17", "C18", "C34")
m("m16", B, "WriteBytes", "reslice s off (s_len s)", "reslice s 0 (s_len s)", "WriteBytes writes at the given offset", "C10", "C11")
m("m17", B, "WriteByteNext", "SeekByte 1 true", "SeekByte 1 false", "WriteByteNext advances relative to the offset", "C22", "C23", "C34")
m("m18", B, "ReadBytes", "reslice s off (off +! n)", "reslice s off n", "ReadBytes returns the n bytes at off", "C11", "C32")
m("m19", B, "ReadBytes", "BufferOverreadError", "BufferOverwriteError", "reading too much raises the overread error", "C18", "C34")
m("m20", B, "TruncateLeft", "set_buf s' ;;\n  Refresh", "set_buf s'", "the capacity is refreshed after TruncateLeft", "C26", "C29", "C34")
m("m21", B, "TruncateRight", "reslice s 0 (cap -! n)", "reslice s 0 n", "TruncateRight drops the last n bytes", "C29", "C34")
m("m22", B, "Grow", "copy tmp s ;;\n    set_buf tmp", "set_buf tmp", "Grow keeps the content", "C27", "C34")
m("m23", B, "Grow", "n <=? s_cap s -! cap", "n <=? s_cap s", "Grow allocates when the spare room is too small", "C27", "C34")
m("m24", B, "Grow", "make_bytes (cap +! n)", "make_bytes ((s_cap s +! n) *! 2)", "Grow extends the length by n exactly", "C27", "C34")
m("m25", B, "Reset", "set FBoff 0 ;; ", "", "Reset moves the bit offset back to 0", "C30", "C34")
m("m26", B, "Reset", "reslice s 0 0", "reslice s 0 (s_len s)", "Reset empties the buffer", "C30", "C34")
m("m27", B, "NewBuffer", "| [s] => set_buf s", "| [s] => b <- get_buf ;; r <- append pol b s ;; set_buf r", "NewBuffer with one slice aliases it", "C31")
m("m28", B, "Refresh", "c *! 8", "c", "the bit capacity is 8 times the byte capacity", "C26", "C31", "C34")
m("m29", T, "WriteU32LE", "byte (shr 32 d 16)", "byte (shr 32 d 8)", "WriteU32LE stores the little-endian encoding", "C12", "C14", "C15")
m("m30", T, "WriteU64BE", "off +! zlen data *! 8 >? cap", "off +! zlen data *! 4 >? cap", "a typed write that does not fit changes nothing", "C17", "C18")
m("m31", T, "ReadI32BE", "sshl 32 (sconv 32 x3) 24", "ushl 32 (sconv 32 x3) 24", "a negative int32 is read back negative", "C13", "C14")
m("m32", T, "ReadI32BENext", "n *! 4", "n *! 2", "ReadI32BENext advances by 4 per element", "C22", "C23")
m("m33", T, "WriteU16BENext", "zlen data *! 2", "zlen data", "WriteU16BENext advances by 2 per element", "C22", "C23")
m("m34", T, "WriteU16LE", "i *! 2", "i", "consecutive elements are 2 bytes apart", "C12", "C14")
m("m35", MI, "WriteBytes", "reslice s off (s_len s)", "reslice s off (s_cap s)", "MiniBuffer WriteBytes never writes past the length", "C35", "C36", "C37", "C57")
m("m36", MI, "ReadBits", "ushl 64 (hd 0 out) 1", "ushl 64 0 1", "MiniBuffer ReadBits accumulates into the output variable", "C35", "C39", "C57")
m("m37", MI, "AlignByte", "quo o 8", "o", "MiniBuffer AlignByte equals Buffer AlignByte", "C35", "C57")
m("m38", MI, "Grow", "cap +! n", "cap +! n +! 1", "MiniBuffer Grow equals Buffer Grow", "C35", "C57")
m("m39", "V2Buffer.v", "setbit", "data =? 1", "negb (data =? 0)", "v2 SetBit raises the invalid bit error for data other than 0 and 1", "C50", "C41")
m("m40", "V2Buffer.v", "write", "lock ;;\n  goto_loop (s_len data) (fun i _ =>\n    x <- slice_get data i ;;\n    buf_set (off +! i) x) tt ;;\n  unlock", "locked (goto_loop (s_len data) (fun i _ =>\n    x <- slice_get data i ;;\n    buf_set (off +! i) x) tt)", "a v2 write that panics inside leaves the mutex locked", "C43")
m("m41", "V2Buffer.v", "grow", "unlock ;;\n  refresh", "unlock", "v2 Grow refreshes the capacity", "C41", "C58", "C60")
m("m42", "V2Buffer.v", "flipbit", "locked (", "id (", "v2 FlipBit takes the lock", "C43")
m("m43", "V1Buffer.v", "readComplex", "data <- read off n", "data <- read off (n *! (if size =? Unsigned16 then 2 else 1))", "v1 ReadComplex checks n bytes only", "C48", "C49")
m("m44", "V1Buffer.v", "put32", "LE => [byte v; byte (shr 32 v 8)", "LE => [byte v; byte (shr 32 v 16)", "v1 WriteComplex stores the encoding", "C49")
m("m45", "V1Buffer.v", "read", "BufferUnderreadError", "BufferUnderwriteError", "v1 read at a negative offset raises the underread error", "C61")
V2, V1, M1, M2, T2, MT2 = "V2Buffer.v", "V1Buffer.v", "V1Mini.v", "V2Mini.v", "V2BufferTyped.v", "V2MiniTyped.v"
m("m46", V2, "readbit", "locked (", "id (", "v2 ReadBit holds the mutex while it reads, so it does not race with bit writes", "C72", "C73")
m("m47", V2, "flipbit", "locked (\n    v <- buf_get (quo off 8) ;;\n    buf_set (quo off 8) (Z.lxor v (bit_mask off)))", "v <- locked (buf_get (quo off 8)) ;;\n  locked (buf_set (quo off 8) (Z.lxor v (bit_mask off)))", "no FlipBit of a goroutine is lost", "C44", "C67")
m("m48", V2, "write", "lock ;;\n  goto_loop (s_len data) (fun i _ =>\n    x <- slice_get data i ;;\n    buf_set (off +! i) x) tt ;;\n  unlock", "lock ;;\n  unlock ;;\n  goto_loop (s_len data) (fun i _ =>\n    x <- slice_get data i ;;\n    buf_set (off +! i) x) tt", "v2 WriteBytes is one step for the other goroutines", "C44", "C67", "C72")
m("m49", V2, "grow", "set_buf s' ;;\n  unlock", "unlock ;;\n  set_buf s'", "v2 Grow stores the new slice under the mutex", "C45", "C72")
m("m50", V2, "seek", "locked (", "id (", "two relative Seek calls of two goroutines add up", "C45")
m("m51", V2, "reset", "set FCap 0 ;; set FBcap 0", "set FCap 0", "v2 Reset sets the bit capacity to 0", "C68", "C69")
m("m52", V2, "setbits", "n -! i -! 1", "n -! i", "v2 SetBits writes the low n bits", "C41", "C68")
m("m53", V2, "readbits", "goto_loop n", "for_loop n", "v2 ReadBits reads the first bit also for n < 1", "C68", "C69")
m("m54", V2, "ReadByteNext", "seek 1 true", "seek 1 false", "v2 ReadByteNext advances the offset by one", "C41", "C68")
m("m55", V2, "refresh", "c *! 8", "c", "v2 Refresh sets the bit capacity to 8 times the length", "C60", "C68")
m("m56", T2, "readU32BE", "x1 <- buf_get (off +! (2 +! (i *! 4)))", "x1 <- buf_get (off +! (1 +! (i *! 4)))", "v2 ReadU32BE decodes big-endian", "C41", "C68")
m("m57", T2, "ReadU64LENext", "n *! 8", "n *! 4", "v2 ReadU64LENext advances by 8 per element", "C41", "C68")
m("m58", T2, "readU16LE", "locked (", "id (", "v2 ReadU16LE holds the mutex, so it sees no half of a write", "C44", "C72")
m("m59", V1, "setbits", "for_loop n", "goto_loop n", "v1 SetBits with n = 0 changes nothing", "C61", "C68")
m("m60", V1, "grow", "make_bytes n n", "make_bytes 0 n", "v1 Grow extends the buffer by n zero bytes", "C60", "C68")
m("m61", V1, "ReadComplexNext", "n *! size", "n", "v1 ReadComplexNext advances by n * size", "C68", "C69")
m("m62", V1, "WriteComplexNext", "l <- as_u32 x ;; seek (zlen l *! size) true", "l <- as_u32 x ;; seek (zlen l) true", "v1 WriteComplexNext advances by the bytes written", "C68")
m("m63", V1, "complex_bytes", "[0; 1; 2; 3] (PutUint32 e)", "[0; 1; 2] (PutUint32 e)", "v1 WriteComplex stores all four bytes", "C49", "C68")
m("m64", V1, "flipbit", "locked (", "id (", "v1 FlipBit holds the mutex, so bit writes do not race", "C72", "C73")
m("m65", V1, "read", "off +! n >? cap", "off +! n >=? cap", "v1 reads may end at the capacity", "C61", "C68")
m("m66", M1, "readbits", "ushl 64 (hd 0 out) 1", "ushl 64 0 1", "v1 MiniBuffer ReadBits accumulates into the output variable", "C70", "C71")
m("m67", M1, "grow", "set_buf s' ;;\n  refresh", "set_buf s'", "v1 MiniBuffer Grow refreshes the capacity", "C70")
m("m68", M1, "write", "off +! i", "off", "v1 MiniBuffer WriteBytes stores consecutive bytes", "C70", "C71")
m("m69", M2, "reset", "set FOff 0 ;; ", "", "v2 MiniBuffer Reset moves the offset back to 0", "C70", "C71")
m("m70", M2, "setbit", "data =? 1", "negb (data =? 0)", "v2 MiniBuffer SetBit raises the invalid bit error for data other than 0 and 1", "C70")
m("m71", MT2, "readU32BE", "x3 <- buf_get (off +! (i *! 4))", "x3 <- buf_get (off +! (3 +! (i *! 4)))", "v2 MiniBuffer ReadU32BE decodes big-endian", "C70", "C71")
m("m72", M2, "seekbit", "x +! off", "off", "v2 MiniBuffer relative SeekBit adds to the offset", "C70")
m("m73", B, "ReadBit", "v <- buf_get (quo off 8) ;;", "set FBoff off ;;\n  v <- buf_get (quo off 8) ;;", "a positional v3 read writes nothing, so readers do not race", "C74", "C75")
m("m74", B, "AlignByte", "set FOff (quo o 8)", "set FOff (quo o 8) ;; set FBoff (quo o 8 *! 8)", "v3 AlignByte leaves the bit offset alone, so a bit reader may go on beside it", "C25", "C74")
m("m75", B, "FlipBit", "v <- buf_get (quo off 8) ;;", "w <- buf_get 0 ;;\n  v <- buf_get (quo off 8) ;;", "a v3 bit write reads its own byte only", "C74", "C75")
m("m76", "Gen.v", "is_word", "between \"A\" \"z\"", "between \"a\" \"z\"", "a magic comment with capitals in its arguments is found", "C51", "C63")
m("m77", "Gen.v", "overwrite", "| EmptyString, _ => old", "| EmptyString, _ => EmptyString", "the generator does not cut off a longer old file", "C52")
m("m78", "Gen.v", "write_byte", "if (sh =? 0)%Z then [] else", "if (sh =? 8)%Z then [] else", "a generated writer shifts each byte into place", "C51", "C63")
m("m79", "Gen.v", "checks", "Op \">\"", "Op \">=\"", "the generated bounds check allows the last byte", "C51", "C63")
m("m80", "Gen.v", "out_name", "trim_prefix \"_\" name", "name", "_x.go becomes x.generated.go", "C52", "C51")
m("m81", "Examples.v", "helloworld", "V3Buffer.Grow 12", "V3Buffer.Grow 11", "the hello world example prints its text", "C56")
m("m82", "Errors.v", "BufferOverreadError", "read exceeds buffer capacity", "read exceeds capacity", "the text of the overread error", "C53")
m("m83", "Errors.v", "error_string", "\"crunch: \"", "\"crunch:\"", "the form of an error text", "C53")
S = "SrcGen.v"
m("m84", S, None, '== "".go"" && !fileInfo', '== "".txt"" && !fileInfo', "a source is called _*.go", "C79")
m("m85", S, None, '&& !fileInfo.IsDir()', '&& fileInfo.IsDir()', "a directory called _x.go is no source", "C79")
m("m86", S, None, 'strings.HasPrefix(fileInfo.Name(), ""_"")', 'strings.HasPrefix(fileInfo.Name(), ""__"")', "a source is called _*.go", "C79")
m("m87", S, None, 'os.O_RDWR|os.O_CREATE', 'os.O_RDWR|os.O_CREATE|os.O_TRUNC', "the old output is written over, not cut off", "C79")
m("m88", S, None, 'strings.TrimPrefix(name, ""_"")', 'name', "_x.go becomes x.generated.go", "C79")
m("m89", S, None, 'case ""complex"":', 'case ""Complex"":', "the flag must be complex", "C79")
m("m90", S, None, '""directory"", "".""', '""directory"", ""..""', "without a flag the directory is the current one", "C79")
m("m91", S, None, 'fmt.Printf(""! unable to open source file. (%v)\\n"", err)";\n"				continue', 'fmt.Printf(""! unable to open source file. (%v)\\n"", err)";\n"				return', "a source that cannot be opened does not stop the others", "C79")
m("m92", S, None, 'contents of generated file. (%v)\\n"", err)";\n"			continue', 'contents of generated file. (%v)\\n"", err)";\n"			return', "a failing write does not stop the other outputs", "C79")
m("m93", S, None, 'unable to read file contents. (%v)\\n"", err)";\n"				continue', 'unable to read file contents. (%v)\\n"", err)";\n"				return', "a failing read does not stop the program", "C79")
m("m94", S, None, 'arguments[0] != ""MiniBuffer""', 'arguments[0] != ""Minibuffer""', "MiniBuffer is a valid first argument", "C78")
m("m95", S, None, 'arguments[3] != ""16"" && ', '', "16 is a valid size", "C78")
m("m96", S, None, 'return []byte(fmt.Sprint(""// invalid argument provided in position four:"", arguments[4]))', 'return comment', "an invalid last argument is replaced by a remark", "C78")
m("m97", S, None, 'intBits / 8', 'intBits / 4', "a 16 bit number has two bytes", "C78")
m("m98", S, None, '(intBytes - i - 1) * 8', '(intBytes - i) * 8', "the shifts of a big-endian read", "C78")
m("m99", S, None, 'for i := 1; i < intBytes; i++ {', 'for i := 1; i <= intBytes; i++ {', "a little-endian read reads as many bytes as the number has", "C78")
m("m100", S, None, 'outputBuffer.Write([]byte(""\\n\\n""))', 'outputBuffer.Write([]byte(""\\n""))', "an empty line between the two functions", "C78")
m("m101", S, None, '([0-9]{1,}) ([A-z]{1,})$', '([0-9]{1,}) ([A-z]{1,})', "text after the arguments makes a line no magic comment", "C78")
m("m102", S, None, 'jen.Id(""b"").Dot(""off""), jen.Id(""data""))', 'jen.Id(""b"").Dot(""boff""), jen.Id(""data""))', "the Next writers use the byte offset", "C78")
m("m103", S, None, '""BE"": ""big-endian""', '""BE"": ""little-endian""', "the comment of a method names its byte order", "C78")
m("m104", S, None, 'return []byte(""// render failure"")', 'return []byte{}', "a refused rendering leaves a remark", "C78")
m("m105", V1, "write", "  lock ;;\n  goto_loop (s_len data) (fun i _ =>\n    x <- slice_get data i ;;\n    buf_set (off +! i) x) tt ;;\n  unlock.", "  goto_loop (s_len data) (fun i _ =>\n    x <- slice_get data i ;;\n    buf_set (off +! i) x) tt.", "v1 writes hold the mutex", "C72", "C76")
m("m106", V1, "flipallbits", "locked (", "id (", "v1 FlipAllBits holds the mutex", "C76")
m("m107", V1, "put_loop", "w i ks", "w 0 ks", "v1 WriteComplex stores every element at its own place", "C49", "C68", "C76")
m("m108", V1, "readbit", "locked (", "id (", "v1 ReadBit holds the mutex", "C72", "C76")
m("m109", B, "Grow", "(s_cap s +! n) *! 2", "(s_cap s +! n) *! 3", "a new array has twice the capacity", "C27", "C77")
m("m110", B, "Grow", "n <=? s_cap s -! cap", "n <? s_cap s -! cap", "growth into the spare bytes takes no memory", "C27", "C77")
m("m111", B, "WriteBytes", "dst <- reslice s off (s_len s) ;;", "t <- make_bytes 1 1 ;;\n  dst <- reslice s off (s_len s) ;;", "WriteBytes takes no memory", "C77")
m("m112", "V2Buffer.v", "setbits", "n -! i -! 1", "i", "v2 writes the most significant of the n bits first, as v1 and v3 do", "C81")
also("SrcV2.v", "v2_buffer_1", "byte((data>>uint64(n-i-1))&1)", "byte((data>>uint64(i))&1)")
m("m113", "V2Buffer.v", "readbits", "readbit (off +! i)", "readbit (off +! n -! i -! 1)", "v2 reads the most significant of the n bits first", "C81")
also("SrcV2.v", "v2_buffer_0", "b.readbit(off+i))", "b.readbit(off+n-i-1))")
m("m114", "V3MiniTyped.v", "WriteU16LE", "1 +! (i *! 2)", "2 +! (i *! 2)", "a typed write touches the bytes of its numbers", "C81", "C82", "C83")
also("SrcV3.v", "v3_minibuf_3", "b.buf[off+int64(1+(i*2))] = byte(data[i] >> 8)", "b.buf[off+int64(2+(i*2))] = byte(data[i] >> 8)")
m("m115", B, "WriteBytes", "  dst <- reslice s off (s_len s) ;;\n  copy dst data", "  copy s data", "WriteBytes writes at its offset", "C74", "C80", "C81", "C83")
also("SrcV3.v", "v3_buffer_3", "copy(b.buf[off:], data)", "copy(b.buf, data)")
m("m116", B, "ClearAllBits", "buf_set i 0", "buf_set 0 0", "ClearAllBits touches every byte", "C83")
also("SrcV3.v", "v3_buffer_2", "b.buf[i] = 0", "b.buf[0] = 0")
m("m117", B, "NewBuffer", "goto_loop (zlen slices) (fun i _ =>\n            b <- get_buf ;;\n            s <- append pol b (nth (Z.to_nat i) slices b) ;;", "set_buf (nth 0 slices e) ;; goto_loop (zlen slices -! 1) (fun i _ =>\n            b <- get_buf ;;\n            s <- append pol b (nth (Z.to_nat (i +! 1)) slices b) ;;", "a buffer made of several slices has memory of its own", "C80")
also("SrcV3.v", "v3_buffer_0", 'default:";', 'default:";\n"		buf.buf = slices[0]";')
also("SrcV3.v", "v3_buffer_0", "n = int64(len(slices))", "n = int64(len(slices)) - 1")
also("SrcV3.v", "v3_buffer_0", "append(buf.buf, slices[i]...)", "append(buf.buf, slices[i+1]...)")
m("m118", MI, "ReadBit", "v <- buf_get (quo off 8) ;;", "v <- buf_get (quo off 8) ;;\n  buf_set (quo off 8) v ;;", "reading a bit writes nothing", "C82", "C83")
m("m119", MI, "AlignBit", "set FBoff (o *! 8)", "set FBoff (o *! 8) ;; set FOff o", "AlignBit writes the bit offset only", "C82")
m("m120", MI, "SetBits", "goto_loop n (", "goto_loop (n +! 1) (", "SetBits changes n bits", "C82", "C83")
m("m121", B, "ReadBits", "ReadBit (off +! i)", "ReadBit (off +! (i +! 1))", "ReadBits starts at its offset", "C81", "C83")
m("m122", B, "FlipAllBits", "goto_loop (s_len s)", "goto_loop (s_len s -! 1)", "FlipAllBits touches the last byte", "C83")
m("m123", B, "WriteByte", "lit_bytes [data]", "lit_bytes [data; 0]", "WriteByte writes one byte", "C74", "C83")
m("m124", MI, "ReadBytes", "s <- get_buf ;;", "v <- buf_get off ;;\n  s <- get_buf ;;", "ReadBytes looks at no byte", "C82", "C83")
m("m125", B, "ReadBytes", "  s <- get_buf ;;\n", "  s <- get_buf ;;\n  copy s s ;;\n", "ReadBytes copies nothing", "C85")
m("m126", B, "Grow", "(s_cap s +! n) *! 2", "(s_cap s +! n)", "growing bit by bit costs no more than growing at once", "C27", "C77", "C85")
m("m127", "V2Buffer.v", "read", "    s <- get_buf ;;\n", "    s <- get_buf ;;\n    copy s s ;;\n", "v2 ReadBytes copies nothing", "C84", "C85")
m("m128", "V2Buffer.v", "seek", "locked (", "bind lock (fun _ => ", "v2 Seek gives the mutex back", "C84")
m("m129", "V2Mini.v", "grow", "  refresh.", "  set FOff 0 ;;\n  refresh.", "v2 MiniBuffer Grow leaves the offsets as they are", "C71")
m("m130", B, "SetBits", "goto_loop n (", "goto_loop (n *! 8) (", "SetBits does the work of its bits", "C85")
m("m131", "V1Buffer.v", "readbits", "for_loop n (", "c <- get FBcap ;; for_loop c (", "v1 ReadBits does not walk the whole buffer", "C85")
m("m132", M1, "setbit", "buf_set (quo off 8) (Z.lor", "buf_set (quo (off +! 1) 8) (Z.lor", "a v1 MiniBuffer SetBit writes the byte of its bit", "C86")
m("m133", M2, "refresh", "set FBcap (c *! 8)", "set FBcap (c *! 8) ;; set FOff 0", "v2 MiniBuffer Refresh leaves the offsets alone", "C86")
m("m134", M1, "read", "  s <- get_buf ;;", "  x <- buf_get off ;;\n  s <- get_buf ;;", "v1 MiniBuffer ReadBytes looks at no byte", "C86")
m("m135", M2, "readbits", "goto_loop n (", "goto_loop (n +! 1) (", "v2 MiniBuffer ReadBits looks at n bits", "C86")
m("m136", M2, "alignbyte", "set FOff (quo o 8)", "set FOff (quo o 8) ;; set FBoff (quo o 8 *! 8)", "v2 MiniBuffer AlignByte writes the byte offset only", "C86")
m("m137", M2, "seek", "else set FOff off", "else Ret tt", "an absolute Seek of a v2 MiniBuffer conflicts with Offset", "C86")
m("m138", M1, "clearallbits", "buf_set i 0", "Ret tt", "ClearAllBits of a v1 MiniBuffer conflicts with reads", "C86")
m("m139", M1, "after", "| None => c <- get FCap ;; o <- get FOff ;; Ret (c -! o -! 1)", "| None => c <- get FCap ;; o <- get FBoff ;; Ret (c -! quo o 8 -! 1)", "v1 MiniBuffer After looks at the byte offset, not the bit offset", "C86")
m("m140", M1, "write", "  goto_loop (s_len data)", "  o <- get FOff ;; set FOff off ;; set FOff o ;;\n  goto_loop (s_len data)", "a positional v1 MiniBuffer write leaves the offset alone at every moment", "C86", "C87")
m("m141", MI, "WriteBytes", "  dst <- reslice", "  copy s s ;;\n  dst <- reslice", "a v3 MiniBuffer write touches only the bytes it names", "C82", "C87")
m("m142", M2, "flipbit", "(Z.lxor v (bit_mask off))", "(Z.lxor v (bit_mask off)) ;; refresh", "v2 MiniBuffer FlipBit writes one byte and nothing else", "C86", "C87")
m("m143", M2, "flipallbits", "goto_loop (s_len s)", "goto_loop (s_len s -! 1)", "v2 MiniBuffer FlipAllBits touches the last byte", "C88")
m("m144", M1, "writeComplex", "  write off data", "  d <- reslice data 0 (s_len data -! 1) ;;\n  write off d", "v1 MiniBuffer WriteComplex writes all bytes of its integers", "C88")
m("m145", M1, "setbits", "setbit (off +! i)", "setbit off", "v1 MiniBuffer SetBits touches the bytes of all its bits", "C88")
m("m146", M1, "readbits", "for_loop n (", "goto_loop n (", "a v1 MiniBuffer ReadBits of no bits looks at none", "C86", "C88")
m("m147", MI, "FlipBit", "v <- buf_get (quo off 8) ;;", "s <- get_buf ;;\n  set_buf s ;;\n  v <- buf_get (quo off 8) ;;", "a v3 MiniBuffer FlipBit does not store the slice header, not even the same one", "C82", "C89")
m("m148", B, "WriteBytes", "  copy dst data", "  copy s s ;;\n  copy dst data", "a v3 Buffer write does not write back the bytes it does not change", "C74", "C75", "C89")
m("m149", M2, "readbit", "  v <- buf_get", "  c <- get FBcap ;;\n  set FBcap c ;;\n  v <- buf_get", "a v2 MiniBuffer ReadBit does not store the capacity, not even the same one", "C86", "C89")
m("m150", M1, "write", "  goto_loop (s_len data)", "  y <- buf_get 0 ;;\n  goto_loop (s_len data)", "a v1 MiniBuffer write does not look at the bytes of others", "C86", "C89")
m("m151", "GoEval.v", "den", "| O => OutOfFuel", "| O => Ret ([], Next)", "a call that the bound cuts short has no outcome", "C64", "C65")
m("m152", "V2Buffer.v", "flipbit", "locked (", "id (", "a v2 FlipBit, text and all, loses no flip of another goroutine", "C67", "C73")
m("m153", M2, "NewMiniBuffer", "            set_buf s) tt", "            copy s s ;;\n            set_buf s) tt", "making a v2 MiniBuffer of many slices copies each byte a bounded number of times", "C85")
m("m154", M2, "NewMiniBuffer", "   | [s] => set_buf s\n", "", "making a v2 MiniBuffer of one slice copies nothing", "C85", "C31")
also("SrcV2.v", "v2_buffer_1", '"	b.Lock()";\n"	defer b.Unlock()";\n"";\n"	b.buf[off/8] ^=', '"	b.buf[off/8] ^=')
json.dump(M, open(os.path.join(os.path.dirname(os.path.dirname(os.path.abspath(__file__))), "seeded", "mutants.json"), "w"), indent=1)
