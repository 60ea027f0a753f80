{
 "claims": [
  {
   "property": "C01",
   "status": "proved",
   "theorems": [
    "C01_ReadBit"
   ],
   "note": ""
  },
  {
   "property": "C02",
   "status": "proved",
   "theorems": [
    "C02_single_bit_writes"
   ],
   "note": ""
  },
  {
   "property": "C03",
   "status": "proved",
   "theorems": [
    "C03_last_write_wins",
    "C03_flip_involution",
    "C03_different_bits_commute"
   ],
   "note": ""
  },
  {
   "property": "C04",
   "status": "proved",
   "theorems": [
    "C04_ReadBits"
   ],
   "note": ""
  },
  {
   "property": "C05",
   "status": "proved",
   "theorems": [
    "C05_SetBits"
   ],
   "note": ""
  },
  {
   "property": "C06",
   "status": "proved",
   "theorems": [
    "C06_SetBits_ReadBits",
    "C06_wide_fields",
    "C06_ReadBits_SetBits"
   ],
   "note": ""
  },
  {
   "property": "C07",
   "status": "proved",
   "theorems": [
    "C07_SetBits_overrun",
    "C07_ReadBits_overrun",
    "C07_SetBits_atomic_refuted"
   ],
   "note": "Atomicity of SetBits is false of the code; C07_SetBits_atomic_refuted gives the witness and C07_SetBits_overrun what happens instead."
  },
  {
   "property": "C08",
   "status": "proved",
   "theorems": [
    "C08_nonpositive_counts",
    "C08_zero_count_noop_refuted"
   ],
   "note": "C08_zero_count_noop_refuted refutes the reading one would expect."
  },
  {
   "property": "C09",
   "status": "proved",
   "theorems": [
    "C09_all_bits",
    "C09_flip_all_involution",
    "C09_empty"
   ],
   "note": ""
  },
  {
   "property": "C10",
   "status": "proved",
   "theorems": [
    "C10_WriteBytes"
   ],
   "note": ""
  },
  {
   "property": "C11",
   "status": "proved",
   "theorems": [
    "C11_ReadBytes",
    "C11_WriteBytes_ReadBytes",
    "C11_ReadByte_WriteByte"
   ],
   "note": ""
  },
  {
   "property": "C12",
   "status": "proved",
   "theorems": [
    "C12_typed_write"
   ],
   "note": ""
  },
  {
   "property": "C13",
   "status": "proved",
   "theorems": [
    "C13_typed_read",
    "C13_encoding_injective"
   ],
   "note": ""
  },
  {
   "property": "C14",
   "status": "proved",
   "theorems": [
    "C14_write_read",
    "C14_read_write"
   ],
   "note": ""
  },
  {
   "property": "C15",
   "status": "proved",
   "theorems": [
    "C15_byte_order",
    "C15_byte_reverse_digits",
    "C15_signed_as_unsigned",
    "C15_unsigned_as_signed"
   ],
   "note": ""
  },
  {
   "property": "C16",
   "status": "proved",
   "theorems": [
    "C16_F32_write_read",
    "C16_F64_write_read",
    "C16_F32_read_write",
    "C16_F64_read_write",
    "C16_F32_fields",
    "C16_F64_fields",
    "C16_little_endian"
   ],
   "note": ""
  },
  {
   "property": "C17",
   "status": "proved",
   "theorems": [
    "C17_failed_writes_change_nothing",
    "C17_same_state_observations"
   ],
   "note": ""
  },
  {
   "property": "C18",
   "status": "proved",
   "theorems": [
    "C18_success_iff_in_range",
    "C18_error_values",
    "C18_reads_change_nothing"
   ],
   "note": ""
  },
  {
   "property": "C19",
   "status": "proved",
   "theorems": [
    "C19_crunch_error_refuted"
   ],
   "note": "A refutation: for every byte and typed accessor there is an out-of-range offset reported by a Go runtime error."
  },
  {
   "property": "C20",
   "status": "proved",
   "theorems": [
    "C20_empty_typed_calls_panic",
    "C20_empty_byte_calls_succeed"
   ],
   "note": ""
  },
  {
   "property": "C21",
   "status": "proved",
   "theorems": [
    "C21_call_is_safe",
    "C21_histories_are_safe"
   ],
   "note": ""
  },
  {
   "property": "C22",
   "status": "proved",
   "theorems": [
    "C22_next_success",
    "C22_next_failure"
   ],
   "note": ""
  },
  {
   "property": "C23",
   "status": "proved",
   "theorems": [
    "C23_records"
   ],
   "note": ""
  },
  {
   "property": "C24",
   "status": "proved",
   "theorems": [
    "C24_fields"
   ],
   "note": ""
  },
  {
   "property": "C25",
   "status": "proved",
   "theorems": [
    "C25_seek",
    "C25_seek_frame",
    "C25_align",
    "C25_after"
   ],
   "note": ""
  },
  {
   "property": "C26",
   "status": "proved",
   "theorems": [
    "C26_capacity_right",
    "C26_who_changes_length"
   ],
   "note": ""
  },
  {
   "property": "C27",
   "status": "proved",
   "theorems": [
    "C27_Grow",
    "C27_Grow_negative",
    "C27_Grow_too_large"
   ],
   "note": ""
  },
  {
   "property": "C28",
   "status": "proved",
   "theorems": [
    "C28_Truncate_Grow_restores",
    "C28_Grow_zeroes_refuted",
    "C28_Reset_Grow"
   ],
   "note": "A refutation: Grow can expose bytes that TruncateRight had removed."
  },
  {
   "property": "C29",
   "status": "proved",
   "theorems": [
    "C29_Truncate",
    "C29_Truncate_errors"
   ],
   "note": ""
  },
  {
   "property": "C30",
   "status": "proved",
   "theorems": [
    "C30_Reset"
   ],
   "note": ""
  },
  {
   "property": "C31",
   "status": "proved",
   "theorems": [
    "C31_NewBuffer",
    "C31_NewBuffer_succeeds",
    "C31_one_slice_shared",
    "C31_several_slices_private",
    "C31_several_slices_unreachable"
   ],
   "note": ""
  },
  {
   "property": "C32",
   "status": "proved",
   "theorems": [
    "C32_read_slices_alias",
    "C32_positional_calls_in_place",
    "C32_who_reallocates",
    "C32_stores_show"
   ],
   "note": ""
  },
  {
   "property": "C33",
   "status": "proved",
   "theorems": [
    "C33_isolation"
   ],
   "note": ""
  },
  {
   "property": "C34",
   "status": "proved",
   "theorems": [
    "C34_histories_refine"
   ],
   "note": ""
  },
  {
   "property": "C35",
   "status": "proved",
   "theorems": [
    "C35_same_as_Buffer",
    "C35_same_constructor"
   ],
   "note": ""
  },
  {
   "property": "C36",
   "status": "proved",
   "theorems": [
    "C36_call_is_safe",
    "C36_histories_are_safe",
    "C36_isolation"
   ],
   "note": ""
  },
  {
   "property": "C37",
   "status": "proved",
   "theorems": [
    "C37_WriteBytes_prefix",
    "C37_WriteBytesNext_advances"
   ],
   "note": ""
  },
  {
   "property": "C38",
   "status": "proved",
   "theorems": [
    "C38_typed_write_prefix",
    "C38_typed_next_keeps_offset"
   ],
   "note": ""
  },
  {
   "property": "C39",
   "status": "proved",
   "theorems": [
    "C39_ReadBits_accumulates",
    "C39_when_it_is_the_field",
    "C39_fresh_or_wide"
   ],
   "note": ""
  },
  {
   "property": "C40",
   "status": "proved",
   "theorems": [
    "C40_phantom_bits",
    "C40_out_of_range_bits",
    "C40_ReadBytes",
    "C40_Grow_negative",
    "C40_TruncateRight_negative"
   ],
   "note": ""
  },
  {
   "property": "C41",
   "status": "proved",
   "theorems": [
    "C41_v2_calls_agree_with_v3",
    "C41_every_other_method_has_a_v3_call",
    "C41_Grow"
   ],
   "note": ""
  },
  {
   "property": "C42",
   "status": "proved",
   "theorems": [
    "C42_overlap_repeats_the_source",
    "C42_no_overlap_stores_the_source",
    "C42_refuted_stores_the_source"
   ],
   "note": "The naive reading is refuted by C42_refuted_stores_the_source; the other two theorems say what is stored instead."
  },
  {
   "property": "C43",
   "status": "proved",
   "theorems": [
    "C43_which_panics_keep_the_mutex",
    "C43_v1_which_panics_keep_the_mutex",
    "C43_empty_write_locks",
    "C43_negative_Grow_locks",
    "C43_later_calls_never_return"
   ],
   "note": ""
  },
  {
   "property": "C44",
   "status": "proved",
   "theorems": [
    "C44_bits_linearizable",
    "C44_no_flip_lost"
   ],
   "note": ""
  },
  {
   "property": "C45",
   "status": "proved",
   "theorems": [
    "C45_linearizable",
    "C45_single_byte_linearizable",
    "C45_not_torn",
    "C45_ReadBytes_refuted"
   ],
   "note": "Proved for the single-section calls; C45_ReadBytes_refuted shows that ReadBytes is not one of them."
  },
  {
   "property": "C46",
   "status": "proved",
   "theorems": [
    "C46_WriteByteNext_lost_update",
    "C46_sequential_contrast"
   ],
   "note": "A refutation, for every buffer with room at its offset; C46_sequential_contrast is what the two calls do one after the other."
  },
  {
   "property": "C47",
   "status": "proved",
   "theorems": [
    "C47_ReadByte_runtime_error",
    "C47_WriteByte_deadlock",
    "C47_ReadBits_SetBits_refuted"
   ],
   "note": "A refutation: schedules are constructed for every state, offset and value."
  },
  {
   "property": "C48",
   "status": "proved",
   "theorems": [
    "C48_in_range_decodes",
    "C48_check_is_for_n_bytes",
    "C48_past_the_end",
    "C48_refuted_overread_is_reported"
   ],
   "note": "The naive reading is refuted by C48_refuted_overread_is_reported; the other theorems give the exact behaviour."
  },
  {
   "property": "C49",
   "status": "proved",
   "theorems": [
    "C49_round_trip",
    "C49_round_trip_bytes",
    "C49_invalid_size",
    "C49_wrong_type"
   ],
   "note": ""
  },
  {
   "property": "C50",
   "status": "proved",
   "theorems": [
    "C50_SetBit",
    "C50_SetBits"
   ],
   "note": ""
  },
  {
   "property": "C51",
   "status": "proved",
   "theorems": [
    "C51_committed_files",
    "C51_functions",
    "C51_float16_accepted_refuted",
    "C51_line_by_line",
    "C51_generated_code_runs",
    "C51_writer",
    "C51_reader",
    "C51_formats"
   ],
   "note": "C51_committed_files and C51_functions: the generated functions are the committed ones, token for token. C51_generated_code_runs, C51_writer and C51_reader: they are what a call runs, and they encode and decode. The Next variants are calls of C65 and C66. C51_float16_accepted_refuted is the exception."
  },
  {
   "property": "C52",
   "status": "proved",
   "theorems": [
    "C52_output_file",
    "C52_refuted"
   ],
   "note": "C52_refuted refutes the expected reading; C52_output_file says exactly what is in the file."
  },
  {
   "property": "C53",
   "status": "proved",
   "theorems": [
    "C53_distinct",
    "C53_text",
    "C53_v3_raises",
    "C53_mini_raises",
    "C53_v2_raises",
    "C53_v1_raises",
    "C53_v1_complex"
   ],
   "note": ""
  },
  {
   "property": "C54",
   "status": "proved",
   "theorems": [
    "C54_ReadBits_is_big_endian_read",
    "C54_SetBits_is_big_endian_write"
   ],
   "note": ""
  },
  {
   "property": "C55",
   "status": "proved",
   "theorems": [
    "C55_disjoint_writes_commute",
    "C55_disjoint_read"
   ],
   "note": ""
  },
  {
   "property": "C56",
   "status": "proved",
   "theorems": [
    "C56_session",
    "C56_helloworld",
    "C56_signed_integers",
    "C56_floating_point",
    "C56_the_floats",
    "C56_text_helloworld",
    "C56_text_signed_integers",
    "C56_text_floating_point"
   ],
   "note": ""
  },
  {
   "property": "C57",
   "status": "proved",
   "theorems": [
    "C57_histories_refine"
   ],
   "note": ""
  },
  {
   "property": "C58",
   "status": "proved",
   "theorems": [
    "C58_Grow_appends_zeros"
   ],
   "note": ""
  },
  {
   "property": "C59",
   "status": "proved",
   "theorems": [
    "C59_Reset_detaches"
   ],
   "note": ""
  },
  {
   "property": "C60",
   "status": "proved",
   "theorems": [
    "C60_v2_histories",
    "C60_v1_histories"
   ],
   "note": ""
  },
  {
   "property": "C61",
   "status": "proved",
   "theorems": [
    "C61_v1_calls_agree_with_v2",
    "C61_v1_empty_bit_calls",
    "C61_v1_empty_buffer"
   ],
   "note": ""
  },
  {
   "property": "C62",
   "status": "proved",
   "theorems": [
    "C62_no_infinite_schedule",
    "C62_deadlock_free",
    "C62_mutex_never_lost",
    "C62_all_calls_can_return"
   ],
   "note": ""
  },
  {
   "property": "C63",
   "status": "proved",
   "theorems": [
    "C63_order",
    "C63_only_outputs",
    "C63_again",
    "C63_again_refuted"
   ],
   "note": ""
  },
  {
   "property": "C64",
   "status": "proved",
   "theorems": [
    "C64_v3_Buffer",
    "C64_v3_MiniBuffer",
    "C64_v2_Buffer",
    "C64_v2_MiniBuffer",
    "C64_v1_Buffer",
    "C64_v1_MiniBuffer",
    "C64_v1_byte_orders",
    "C64_bounds_never_reached",
    "C64_bound_irrelevant",
    "C64_one_outcome",
    "C64_never_differs"
   ],
   "note": "same_accesses is equality of access trees, so it also holds under interleaving. Where the model itself gives up nothing is claimed: C64_bounds_never_reached shows that its loop bounds are never reached, and C21, C36 and C60 that reachable states have no memory faults. Props_Bound.v: raising the bound of the interpreter never changes an outcome, and at every bound a call has the outcome of the model or is cut short."
  },
  {
   "property": "C65",
   "status": "proved",
   "theorems": [
    "C65_histories",
    "C65_every_call_ends",
    "C65_NewBuffer",
    "C65_one_bound_suffices"
   ],
   "note": "The statement mentions the Go text, the memory and the abstract buffer of Abs.v, not the models. One run at any bound at which it ends determines the outcome (Props_Bound.v)."
  },
  {
   "property": "C66",
   "status": "proved",
   "theorems": [
    "C66_histories",
    "C66_every_call_ends",
    "C66_NewMiniBuffer"
   ],
   "note": "The statement mentions the Go text, the memory and the abstract MiniBuffer of MiniAbs.v, not the models. An out pointer that points into the buffer itself is not covered."
  },
  {
   "property": "C67",
   "status": "proved",
   "theorems": [
    "C67_same_executions",
    "C67_bits_linearizable",
    "C67_linearizable",
    "C67_no_flip_lost",
    "C67_not_torn",
    "C67_all_calls_can_return",
    "C67_WriteByteNext_lost_update",
    "C67_WriteByte_deadlock",
    "C67_bits_linearizable_any_bound",
    "C67_linearizable_any_bound",
    "C67_no_flip_lost_any_bound",
    "C67_not_torn_any_bound"
   ],
   "note": "running is the interpreter applied to the parsed text. The last two theorems are the negative results of C46 and C47, for the text. Sequential consistency is assumed: see DESIGN.md. The theorems ending in _any_bound (Props_Bound.v) hold at every bound of the interpreter, not only at large ones."
  },
  {
   "property": "C68",
   "status": "proved",
   "theorems": [
    "C68_histories_refine",
    "C68_isolation",
    "C68_death",
    "C68_dead_is_frozen"
   ],
   "note": "The machine is Abs2.v. C68_histories_refine is about both versions; C68_death and C68_dead_is_frozen say when and how a buffer stops working."
  },
  {
   "property": "C69",
   "status": "proved",
   "theorems": [
    "C69_histories",
    "C69_every_call_ends_or_blocks",
    "C69_NewBuffer"
   ],
   "note": "The histories are relations over the interpreter applied to the parsed text (old_program), with no model in them."
  },
  {
   "property": "C70",
   "status": "proved",
   "theorems": [
    "C70_histories_refine",
    "C70_isolation",
    "C70_NewMiniBuffer"
   ],
   "note": "The abstract MiniBuffer is MiniAbs2.v. An out pointer that points into the buffer itself is not covered, nor what a panicking v1 ReadComplex leaves there. v1 integers are those whose size argument matches the data, as in C61."
  },
  {
   "property": "C71",
   "status": "proved",
   "theorems": [
    "C71_histories",
    "C71_every_call_ends",
    "C71_NewMiniBuffer"
   ],
   "note": "The histories are relations over the interpreter applied to the parsed text (old_mini_program), with no model in them. The same limits as C70."
  },
  {
   "property": "C72",
   "status": "proved",
   "theorems": [
    "C72_v2_race_free",
    "C72_v1_race_free",
    "C72_v2_common_uses",
    "C72_v1_common_uses",
    "C72_bit_calls",
    "C72_v2_conflicting_calls_race",
    "C72_v1_conflicting_calls_race"
   ],
   "note": "The table of what each call reads without the mutex and what it writes is RaceSpec.v; happens-before and races are Race.v. Slices that a call returned are used by the caller outside the model. The C45 class contains calls that race (Refresh, Offset), so C45 is about sequentially consistent executions only; the C44 class does not race."
  },
  {
   "property": "C73",
   "status": "proved",
   "theorems": [
    "C73_race_free",
    "C73_common_uses",
    "C73_conflicting_calls_race",
    "C73_race_free_any_bound"
   ],
   "note": "text_call is the interpreter applied to the parsed text; one bound on nesting and loop rounds serves every schedule, as in C67. The theorems ending in _any_bound (Props_Bound.v) hold at every bound of the interpreter, not only at large ones."
  },
  {
   "property": "C74",
   "status": "proved",
   "theorems": [
    "C74_race_free",
    "C74_readers",
    "C74_disjoint_ranges",
    "C74_one_reader_per_offset",
    "C74_conflicting_calls_race",
    "C74_text_race_free",
    "C74_text_conflicting_calls_race",
    "C74_text_race_free_any_bound"
   ],
   "note": "The table of what each call reads and writes is RaceSpec3.v. Slice arguments must not share memory with the buffer; slices that a call returned are used by the caller outside the model. In the theorem that conflicting calls race, one little-endian and one big-endian number type stand for all sixteen. The theorems ending in _any_bound (Props_Bound.v) hold at every bound of the interpreter, not only at large ones."
  },
  {
   "property": "C75",
   "status": "proved",
   "theorems": [
    "C75_answers",
    "C75_finished",
    "C75_others_left_out",
    "C75_buffer",
    "C75_buffer_between_calls",
    "C75_schedule_does_not_matter",
    "C75_never_waits",
    "C75_all_return",
    "C75_disjoint_ranges",
    "C75_one_reader_per_offset",
    "C75_readers",
    "C75_text",
    "C75_independence_needed",
    "C75_text_any_bound"
   ],
   "note": "The condition is 'independent' in AloneSpec.v, over the table of RaceSpec3.v; 'alone' is the abstract buffer of C34, run on the goroutine's calls only, and C75_others_left_out says the same with a run of one goroutine in its place. Slice arguments must not share memory with the buffer. What the caller later does with a returned slice is outside the model. The theorems ending in _any_bound (Props_Bound.v) hold at every bound of the interpreter, not only at large ones."
  },
  {
   "property": "C76",
   "status": "proved",
   "theorems": [
    "C76_linearizable",
    "C76_single_byte_linearizable",
    "C76_bits_linearizable",
    "C76_no_flip_lost",
    "C76_writes_whole",
    "C76_ReadComplex_refuted",
    "C76_deadlock_free",
    "C76_mutex_never_lost",
    "C76_all_calls_can_return",
    "C76_WriteByteNext_lost_update",
    "C76_text_same_executions",
    "C76_text_linearizable",
    "C76_text_no_flip_lost",
    "C76_text_writes_whole",
    "C76_text_all_calls_can_return",
    "C76_text_ReadComplex_torn",
    "C76_text_linearizable_any_bound",
    "C76_text_no_flip_lost_any_bound",
    "C76_text_writes_whole_any_bound"
   ],
   "note": "Proved for the models (Props_ConcV1.v) and for the text of v1/buffer.go (Props_FrontConcV1.v). The sequential object is ConcSpec1.v. Not in the linearizable class: ReadBits, SetBits, ReadBytes and ReadComplex (not one section, or a view), the Next calls, Grow; Bytes returns a view. WriteComplex is with slices of the right type; a wrong type or size panics before the buffer is touched. The theorems ending in _any_bound (Props_Bound.v) hold at every bound of the interpreter, not only at large ones."
  },
  {
   "property": "C77",
   "status": "proved",
   "theorems": [
    "C77_each_call",
    "C77_total",
    "C77_doubling",
    "C77_doubling_cut_refuted",
    "C77_mini_each_call",
    "C77_mini_total",
    "C77_mini_doubling"
   ],
   "note": "Stated about the Go text of both v3 types (Props_Alloc.v); the counting is AllocSpec.v. Arrays of bytes only: the slice a typed read makes for its result is a value of the model and is not counted, and the garbage collector is not modelled (an array counts for ever). NewBuffer itself is left out: what its append calls allocate is up to the Go runtime (C85_new_memory bounds it under a sensible growth policy)."
  },
  {
   "property": "C78",
   "status": "proved",
   "theorems": [
    "C78_generate_complex",
    "C78_committed_files"
   ],
   "note": "About the parsed text. Jennifer's printer is a parameter of the world; C78_committed_files assumes that what it prints reads back as the tokens it was given."
  },
  {
   "property": "C79",
   "status": "proved",
   "theorems": [
    "C79_run",
    "C79_each_file",
    "C79_no_failure",
    "C79_committed",
    "C79_unread_left_out_refuted"
   ],
   "note": "About the parsed text. System calls fail as a parameter of the world says. The messages printed are not modelled. C79_unread_left_out_refuted is a finding: a source whose read fails is generated from what was read."
  },
  {
   "property": "C80",
   "status": "proved",
   "theorems": [
    "C80_histories",
    "C80_histories_from",
    "C80_every_event_ends",
    "C80_alone",
    "C80_shared",
    "C80_alone_refuted"
   ],
   "note": "About the parsed text of all six types (Many.v). One goroutine. Two buffers whose memory is made to overlap on purpose are covered by C80_shared, one call at a time; C80_alone_refuted shows that independence fails for them."
  },
  {
   "property": "C81",
   "status": "proved",
   "theorems": [
    "C81_numbers",
    "C81_bits",
    "C81_message",
    "C81_w_wf"
   ],
   "note": "About the parsed text of all six types (Many.v, Wire.v). v1's integers are those of WriteComplex and ReadComplex with the sizes 2, 4 and 8 and both byte orders."
  },
  {
   "property": "C82",
   "status": "proved",
   "theorems": [
    "C82_own_variable",
    "C82_race_free",
    "C82_readers",
    "C82_disjoint_ranges",
    "C82_conflicting_calls_race",
    "C82_one_variable_races",
    "C82_text_race_free",
    "C82_text_conflicting_calls_race",
    "C82_text_race_free_any_bound"
   ],
   "note": "MiniBuffer methods report through a pointer; a goroutine's results go into a variable of its own (C82_own_variable says what that means, C82_one_variable_races what happens otherwise). C82_text_race_free and C82_text_conflicting_calls_race are about the parsed text. Slices passed to calls lie outside the buffer's memory. The converse is shown on one shared buffer for each pair of conflicting kinds of call (typical arguments); C83 has it for all arguments of positional calls. The theorems ending in _any_bound (Props_Bound.v) hold at every bound of the interpreter, not only at large ones."
  },
  {
   "property": "C83",
   "status": "proved",
   "theorems": [
    "C83_conflict_races",
    "C83_exact",
    "C83_mini_conflict_races",
    "C83_mini_exact",
    "C83_text_exact",
    "C83_text_mini_exact"
   ],
   "note": "C83_text_exact and C83_text_mini_exact are about the parsed text. Slices passed to WriteBytes lie outside the buffer's memory, and for the MiniBuffer, which drops what does not fit, they fit. Calls that move the buffer or an offset (Next, Seek, Align, Truncate, Grow, Refresh, Reset) touch bytes that depend on the schedule and are left to C74 and C82."
  },
  {
   "property": "C84",
   "status": "proved",
   "theorems": [
    "C84_same_answers",
    "C84_same_end",
    "C84_no_conflict",
    "C84_nobodys_bytes",
    "C84_nobody_waits_for_another",
    "C84_ends",
    "C84_spare_capacity_matters",
    "C84_text_same_answers",
    "C84_text_same_end",
    "C84_text_no_conflict",
    "C84_text_nobodys_bytes",
    "C84_text_nobody_waits_for_another",
    "C84_text_ends",
    "C84_text_no_conflict_any_bound",
    "C84_text_nobodys_bytes_any_bound",
    "C84_text_ends_any_bound",
    "C84_text_same_answers_any_bound",
    "C84_text_same_end_any_bound"
   ],
   "note": "The steps are single accesses to memory, as in Conc.v. Byte-level ownership: a byte belongs to one goroutine or to nobody. C84_spare_capacity_matters is the counterexample for buffers that are apart only up to their lengths. The C84_text_ theorems say the same of the parsed text. The theorems ending in _any_bound (Props_IsolateBound.v) hold at every bound of the interpreter."
  },
  {
   "property": "C85",
   "status": "proved",
   "theorems": [
    "C85_linear",
    "C85_text_linear",
    "C85_amortised",
    "C85_text_amortised",
    "C85_amortised_old",
    "C85_text_amortised_old",
    "C85_exact_policy_refuted",
    "C85_memory",
    "C85_text_linear_any_bound",
    "C85_new_shares",
    "C85_new_linear",
    "C85_new_memory",
    "C85_text_new_linear",
    "C85_program_linear",
    "C85_text_program_linear",
    "C85_new_exact_policy_refuted",
    "C85_text_new_exact_policy_refuted"
   ],
   "note": "An access is one read or write of a field, a byte or a result variable, a lock operation, or one byte of an array made or copied (WorkSpec.v). Arithmetic on local values is not counted. The amortised theorems for v1 and v2 suppose a sensible growth policy (WorkSpec.v), met by C85_growslice_sensible; C85_exact_policy_refuted shows that some such supposition is needed. C85_text_linear_any_bound holds at every bound of the interpreter. The constructors are covered too: C85_new_shares is a constant for at most one slice, whatever the policy; C85_new_linear and C85_new_memory suppose a sensible policy, because append may copy what is there (C85_new_exact_policy_refuted shows that it is needed); C85_text_new_linear is about the Go text at every bound. C85_program_linear adds up a constructor and any calls that follow, C85_text_program_linear the same of the text."
  },
  {
   "property": "C86",
   "status": "proved",
   "theorems": [
    "C86_own_variable",
    "C86_race_free",
    "C86_readers",
    "C86_disjoint_ranges",
    "C86_conflicting_calls_race",
    "C86_one_variable_races",
    "C86_text_race_free",
    "C86_text_conflicting_calls_race",
    "C86_text_race_free_any_bound"
   ],
   "note": "RaceMiniSpec2.v is the table of what each call reads and writes. Slice arguments are not in the memory of the buffer itself. The text theorems are about v1/minibuf.go and v2/minibuf.go as parsed. The theorems ending in _any_bound (Props_Bound.v) hold at every bound of the interpreter, not only at large ones."
  },
  {
   "property": "C87",
   "status": "proved",
   "theorems": [
    "C87_answers",
    "C87_finished",
    "C87_others_left_out",
    "C87_buffer_between_calls",
    "C87_buffer",
    "C87_schedule_does_not_matter",
    "C87_never_waits",
    "C87_all_return",
    "C87_disjoint_ranges",
    "C87_readers",
    "C87_text",
    "C87_old_answers",
    "C87_old_finished",
    "C87_old_others_left_out",
    "C87_old_buffer_between_calls",
    "C87_old_buffer",
    "C87_old_schedule_does_not_matter",
    "C87_old_never_waits",
    "C87_old_all_return",
    "C87_old_disjoint_ranges",
    "C87_old_readers",
    "C87_old_text",
    "C87_independence_needed",
    "C87_old_independence_needed",
    "C87_text_any_bound",
    "C87_old_text_any_bound"
   ],
   "note": "The condition is independent_mini / independent_old in AloneMiniSpec.v, over the tables of RaceMiniSpec.v and RaceMiniSpec2.v. 'Alone' is the abstract MiniBuffer of C66 and C70, run on the goroutine's calls only; C87_others_left_out and C87_old_others_left_out say the same with a run of one goroutine in its place. Slice arguments must not share memory with the buffer. What the caller later does with a returned slice is outside the model. The theorems ending in _any_bound (Props_Bound.v) hold at every bound of the interpreter, not only at large ones."
  },
  {
   "property": "C88",
   "status": "proved",
   "theorems": [
    "C88_conflict_races",
    "C88_exact",
    "C88_text_exact"
   ],
   "note": "The converse of C86 for calls at fixed places. placed_old and on_bytes are in ExactSpec2.v: v1's integer read may go on in the memory behind the buffer, which is no byte of the table of RaceMiniSpec2.v, and v1's methods on all bits do nothing on an empty buffer. Slice arguments are not in the memory of the buffer itself."
  },
  {
   "property": "C89",
   "status": "proved",
   "theorems": [
    "C89_answers",
    "C89_finished",
    "C89_memory",
    "C89_joins",
    "C89_never_waits",
    "C89_all_return",
    "C89_stays_inside",
    "C89_writes_inside",
    "C89_reads_apart",
    "C89_one_writer",
    "C89_interleavings",
    "C89_mini_answers",
    "C89_mini_finished",
    "C89_mini_memory",
    "C89_mini_joins",
    "C89_mini_never_waits",
    "C89_mini_all_return",
    "C89_mini_stays_inside",
    "C89_mini_writes_inside",
    "C89_mini_reads_apart",
    "C89_mini_one_writer",
    "C89_mini_interleavings",
    "C89_old_answers",
    "C89_old_finished",
    "C89_old_memory",
    "C89_old_joins",
    "C89_old_never_waits",
    "C89_old_all_return",
    "C89_old_stays_inside",
    "C89_old_writes_inside",
    "C89_old_reads_apart",
    "C89_old_one_writer",
    "C89_old_interleavings",
    "C89_independence_needed",
    "C89_text_answers",
    "C89_text_finished",
    "C89_text_memory",
    "C89_text_joins",
    "C89_text_stays_inside",
    "C89_text_writes_inside",
    "C89_text_reads_apart",
    "C89_text_complete",
    "C89_mini_text_answers",
    "C89_mini_text_finished",
    "C89_mini_text_memory",
    "C89_mini_text_joins",
    "C89_mini_text_stays_inside",
    "C89_mini_text_writes_inside",
    "C89_mini_text_reads_apart",
    "C89_mini_text_complete",
    "C89_old_text_answers",
    "C89_old_text_finished",
    "C89_old_text_memory",
    "C89_old_text_joins",
    "C89_old_text_stays_inside",
    "C89_old_text_writes_inside",
    "C89_old_text_reads_apart",
    "C89_old_text_complete"
   ],
   "note": "The memory of this property is WeakSpec.v: each goroutine has a view of its own, and news may change it arbitrarily wherever another goroutine is at liberty to write. New arrays appear in all views at once, with one number. C89_joins: the memory after waiting always exists. C89_text_*: the same for goroutines that run the parsed Go text, at every bound on the nesting of calls and loop rounds; C89_text_complete: every execution of the model is one of the text at every bound that is large enough (how large may depend on the execution)."
  }
 ]
}