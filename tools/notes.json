{
 "C07": {
  "note": "Atomicity of SetBits is false of the code; C07_SetBits_atomic_refuted gives the witness and C07_SetBits_overrun what happens instead."
 },
 "C08": {
  "note": "C08_zero_count_noop_refuted refutes the reading one would expect."
 },
 "C19": {
  "note": "A refutation: for every byte and typed accessor there is an out-of-range offset reported by a Go runtime error."
 },
 "C28": {
  "note": "A refutation: Grow can expose bytes that TruncateRight had removed."
 },
 "C42": {
  "note": "The naive reading is refuted by C42_refuted_stores_the_source; the other two theorems say what is stored instead."
 },
 "C48": {
  "note": "The naive reading is refuted by C48_refuted_overread_is_reported; the other theorems give the exact behaviour."
 },
 "C45": {
  "note": "Proved for the single-section calls; C45_ReadBytes_refuted shows that ReadBytes is not one of them."
 },
 "C46": {
  "note": "A refutation, for every buffer with room at its offset; C46_sequential_contrast is what the two calls do one after the other."
 },
 "C47": {
  "note": "A refutation: schedules are constructed for every state, offset and value."
 },
 "C51": {
  "note": "C51_committed_files and C51_functions: the generated functions are the committed ones, token for token. C51_generated_code_runs, C51_writer and C51_reader: they are what a call runs, and they encode and decode. The Next variants are calls of C65 and C66. C51_float16_accepted_refuted is the exception."
 },
 "C52": {
  "note": "C52_refuted refutes the expected reading; C52_output_file says exactly what is in the file."
 },
 "C64": {
  "note": "same_accesses is equality of access trees, so it also holds under interleaving. Where the model itself gives up nothing is claimed: C64_bounds_never_reached shows that its loop bounds are never reached, and C21, C36 and C60 that reachable states have no memory faults. Props_Bound.v: raising the bound of the interpreter never changes an outcome, and at every bound a call has the outcome of the model or is cut short."
 },
 "C65": {
  "note": "The statement mentions the Go text, the memory and the abstract buffer of Abs.v, not the models. One run at any bound at which it ends determines the outcome (Props_Bound.v)."
 },
 "C66": {
  "note": "The statement mentions the Go text, the memory and the abstract MiniBuffer of MiniAbs.v, not the models. An out pointer that points into the buffer itself is not covered."
 },
 "C67": {
  "note": "running is the interpreter applied to the parsed text. The last two theorems are the negative results of C46 and C47, for the text. Sequential consistency is assumed: see DESIGN.md. The theorems ending in _any_bound (Props_Bound.v) hold at every bound of the interpreter, not only at large ones."
 },
 "C68": {
  "note": "The machine is Abs2.v. C68_histories_refine is about both versions; C68_death and C68_dead_is_frozen say when and how a buffer stops working."
 },
 "C69": {
  "note": "The histories are relations over the interpreter applied to the parsed text (old_program), with no model in them."
 },
 "C70": {
  "note": "The abstract MiniBuffer is MiniAbs2.v. An out pointer that points into the buffer itself is not covered, nor what a panicking v1 ReadComplex leaves there. v1 integers are those whose size argument matches the data, as in C61."
 },
 "C71": {
  "note": "The histories are relations over the interpreter applied to the parsed text (old_mini_program), with no model in them. The same limits as C70."
 },
 "C72": {
  "note": "The table of what each call reads without the mutex and what it writes is RaceSpec.v; happens-before and races are Race.v. Slices that a call returned are used by the caller outside the model. The C45 class contains calls that race (Refresh, Offset), so C45 is about sequentially consistent executions only; the C44 class does not race."
 },
 "C73": {
  "note": "text_call is the interpreter applied to the parsed text; one bound on nesting and loop rounds serves every schedule, as in C67. The theorems ending in _any_bound (Props_Bound.v) hold at every bound of the interpreter, not only at large ones."
 },
 "C74": {
  "note": "The table of what each call reads and writes is RaceSpec3.v. Slice arguments must not share memory with the buffer; slices that a call returned are used by the caller outside the model. In the theorem that conflicting calls race, one little-endian and one big-endian number type stand for all sixteen. The theorems ending in _any_bound (Props_Bound.v) hold at every bound of the interpreter, not only at large ones."
 },
 "C75": {
  "note": "The condition is 'independent' in AloneSpec.v, over the table of RaceSpec3.v; 'alone' is the abstract buffer of C34, run on the goroutine's calls only, and C75_others_left_out says the same with a run of one goroutine in its place. Slice arguments must not share memory with the buffer. What the caller later does with a returned slice is outside the model. The theorems ending in _any_bound (Props_Bound.v) hold at every bound of the interpreter, not only at large ones."
 },
 "C76": {
  "note": "Proved for the models (Props_ConcV1.v) and for the text of v1/buffer.go (Props_FrontConcV1.v). The sequential object is ConcSpec1.v. Not in the linearizable class: ReadBits, SetBits, ReadBytes and ReadComplex (not one section, or a view), the Next calls, Grow; Bytes returns a view. WriteComplex is with slices of the right type; a wrong type or size panics before the buffer is touched. The theorems ending in _any_bound (Props_Bound.v) hold at every bound of the interpreter, not only at large ones."
 },
 "C77": {
  "note": "Stated about the Go text of both v3 types (Props_Alloc.v); the counting is AllocSpec.v. Arrays of bytes only: the slice a typed read makes for its result is a value of the model and is not counted, and the garbage collector is not modelled (an array counts for ever). NewBuffer itself is left out: what its append calls allocate is up to the Go runtime (C85_new_memory bounds it under a sensible growth policy)."
 },
 "C78": {
  "note": "About the parsed text. Jennifer's printer is a parameter of the world; C78_committed_files assumes that what it prints reads back as the tokens it was given."
 },
 "C79": {
  "note": "About the parsed text. System calls fail as a parameter of the world says. The messages printed are not modelled. C79_unread_left_out_refuted is a finding: a source whose read fails is generated from what was read."
 },
 "C80": {
  "note": "About the parsed text of all six types (Many.v). One goroutine. Two buffers whose memory is made to overlap on purpose are covered by C80_shared, one call at a time; C80_alone_refuted shows that independence fails for them."
 },
 "C81": {
  "note": "About the parsed text of all six types (Many.v, Wire.v). v1's integers are those of WriteComplex and ReadComplex with the sizes 2, 4 and 8 and both byte orders."
 },
 "C82": {
  "note": "MiniBuffer methods report through a pointer; a goroutine's results go into a variable of its own (C82_own_variable says what that means, C82_one_variable_races what happens otherwise). C82_text_race_free and C82_text_conflicting_calls_race are about the parsed text. Slices passed to calls lie outside the buffer's memory. The converse is shown on one shared buffer for each pair of conflicting kinds of call (typical arguments); C83 has it for all arguments of positional calls. The theorems ending in _any_bound (Props_Bound.v) hold at every bound of the interpreter, not only at large ones."
 },
 "C83": {
  "note": "C83_text_exact and C83_text_mini_exact are about the parsed text. Slices passed to WriteBytes lie outside the buffer's memory, and for the MiniBuffer, which drops what does not fit, they fit. Calls that move the buffer or an offset (Next, Seek, Align, Truncate, Grow, Refresh, Reset) touch bytes that depend on the schedule and are left to C74 and C82."
 },
 "C84": {
  "note": "The steps are single accesses to memory, as in Conc.v. Byte-level ownership: a byte belongs to one goroutine or to nobody. C84_spare_capacity_matters is the counterexample for buffers that are apart only up to their lengths. The C84_text_ theorems say the same of the parsed text. The theorems ending in _any_bound (Props_IsolateBound.v) hold at every bound of the interpreter."
 },
 "C85": {
  "note": "An access is one read or write of a field, a byte or a result variable, a lock operation, or one byte of an array made or copied (WorkSpec.v). Arithmetic on local values is not counted. The amortised theorems for v1 and v2 suppose a sensible growth policy (WorkSpec.v), met by C85_growslice_sensible; C85_exact_policy_refuted shows that some such supposition is needed. C85_text_linear_any_bound holds at every bound of the interpreter. The constructors are covered too: C85_new_shares is a constant for at most one slice, whatever the policy; C85_new_linear and C85_new_memory suppose a sensible policy, because append may copy what is there (C85_new_exact_policy_refuted shows that it is needed); C85_text_new_linear is about the Go text at every bound. C85_program_linear adds up a constructor and any calls that follow, C85_text_program_linear the same of the text."
 },
 "C86": {
  "note": "RaceMiniSpec2.v is the table of what each call reads and writes. Slice arguments are not in the memory of the buffer itself. The text theorems are about v1/minibuf.go and v2/minibuf.go as parsed. The theorems ending in _any_bound (Props_Bound.v) hold at every bound of the interpreter, not only at large ones."
 },
 "C87": {
  "note": "The condition is independent_mini / independent_old in AloneMiniSpec.v, over the tables of RaceMiniSpec.v and RaceMiniSpec2.v. 'Alone' is the abstract MiniBuffer of C66 and C70, run on the goroutine's calls only; C87_others_left_out and C87_old_others_left_out say the same with a run of one goroutine in its place. Slice arguments must not share memory with the buffer. What the caller later does with a returned slice is outside the model. The theorems ending in _any_bound (Props_Bound.v) hold at every bound of the interpreter, not only at large ones."
 },
 "C88": {
  "note": "The converse of C86 for calls at fixed places. placed_old and on_bytes are in ExactSpec2.v: v1's integer read may go on in the memory behind the buffer, which is no byte of the table of RaceMiniSpec2.v, and v1's methods on all bits do nothing on an empty buffer. Slice arguments are not in the memory of the buffer itself."
 },
 "C89": {
  "note": "The memory of this property is WeakSpec.v: each goroutine has a view of its own, and news may change it arbitrarily wherever another goroutine is at liberty to write. New arrays appear in all views at once, with one number. C89_joins: the memory after waiting always exists. C89_text_*: the same for goroutines that run the parsed Go text, at every bound on the nesting of calls and loop rounds; C89_text_complete: every execution of the model is one of the text at every bound that is large enough (how large may depend on the execution)."
 }
}
