{
 "claims": [
  {
   "property": "C01",
   "status": "proved",
   "theorems": [
    "C01_round_trip",
    "C01_write_then_read",
    "C01_round_trip_copied"
   ],
   "note": "Every writer/reader implementation and CPU; also for a copy of the stream placed anywhere. Sizes below 2^52 elements / 2^55 bytes (validW, validB)."
  },
  {
   "property": "C02",
   "status": "proved",
   "theorems": [
    "C02_delta_round_trip",
    "C02_write_then_read",
    "C02_delta_round_trip_copied"
   ],
   "note": "As C01 with a starting value; no sortedness assumed."
  },
  {
   "property": "C03",
   "status": "proved",
   "theorems": [
    "C03_written_bytes"
   ],
   "note": ""
  },
  {
   "property": "C04",
   "status": "proved",
   "theorems": [
    "C04_delta_is_differences",
    "C04_delta_bytes"
   ],
   "note": ""
  },
  {
   "property": "C05",
   "status": "proved",
   "theorems": [
    "C05_implementation_independent",
    "C05_implementation_independent_delta"
   ],
   "note": "Contents, length, capacity, and also the spare bytes up to the capacity (C09_spare_capacity_is_zero)."
  },
  {
   "property": "C06",
   "status": "proved",
   "theorems": [
    "C06_scalar_reader",
    "C06_scalar_delta_reader"
   ],
   "note": ""
  },
  {
   "property": "C07",
   "status": "proved",
   "theorems": [
    "C07_fast_reader",
    "C07_fast_delta_reader",
    "C07_only_the_stream_matters"
   ],
   "note": "The room the fast readers need is min 3 bytes past the stream (exact: overread); the content of that room is irrelevant."
  },
  {
   "property": "C08",
   "status": "proved",
   "theorems": [
    "C08_size",
    "C08_size_delta"
   ],
   "note": ""
  },
  {
   "property": "C09",
   "status": "proved",
   "theorems": [
    "C09_total_and_frame",
    "C09_total_and_frame_delta",
    "C09_spare_capacity_is_zero",
    "C09_spare_capacity_is_zero_delta"
   ],
   "note": ""
  },
  {
   "property": "C10",
   "status": "proved",
   "theorems": [
    "C10_frame",
    "C10_frame_delta",
    "C10_read"
   ],
   "note": ""
  },
  {
   "property": "C11",
   "status": "proved",
   "theorems": [
    "C11_memory_safety",
    "C11_memory_safety_delta"
   ],
   "note": ""
  },
  {
   "property": "C12",
   "status": "partial",
   "theorems": [
    "C12_refuted",
    "C12_refuted_fault",
    "C12_at_most_three_bytes_partial",
    "C12_at_most_three_bytes_delta_partial",
    "C12_inside_partial",
    "C12_inside_delta_partial"
   ],
   "note": "False as stated: C12_refuted and C12_refuted_fault exhibit reads past the stream (one with a fault). Proved instead: at most 3 bytes, none if 4 divides the count, the count is at most 16, or three more bytes lie in the slice. C43 determines exactly when and how far."
  },
  {
   "property": "C13",
   "status": "proved",
   "theorems": [
    "C13_ReadAllScalar",
    "C13_ReadAllDeltaScalar",
    "C13_encoders",
    "C13_decoders",
    "C13_GetUint32"
   ],
   "note": ""
  },
  {
   "property": "C14",
   "status": "partial",
   "theorems": [
    "C14_scalar",
    "C14_scalar_delta",
    "C14_fast_refuted",
    "C14_fast_partial",
    "C14_fast_delta_partial",
    "C14_fast_slack_partial",
    "C14_fast_slack_delta_partial"
   ],
   "note": "Proved for the scalar readers; false as stated for the fast readers (C14_fast_refuted: a memory fault instead of a panic). Proved for the fast readers and the dispatcher: with an incomplete stream they never return normally, never diverge or execute an illegal instruction; they panic or fault, touching at most 32 bytes behind the stream, and they panic if the allocations extend that far."
  },
  {
   "property": "C15",
   "status": "proved",
   "theorems": [
    "C15_Put8Scalar",
    "C15_Put8DeltaScalar",
    "C15_put8",
    "C15_implementation_independent"
   ],
   "note": ""
  },
  {
   "property": "C16",
   "status": "proved",
   "theorems": [
    "C16_Get8Scalar",
    "C16_Get8DeltaScalar",
    "C16_get8"
   ],
   "note": ""
  },
  {
   "property": "C17",
   "status": "proved",
   "theorems": [
    "C17_get8_inverts",
    "C17_round_trip"
   ],
   "note": ""
  },
  {
   "property": "C18",
   "status": "partial",
   "theorems": [
    "C18_refuted",
    "C18_refuted_neighbour",
    "C18_refuted_fault",
    "C18_refuted_short_input",
    "C18_same_partial"
   ],
   "note": "False as stated, three witnesses: other bytes inside out, bytes outside out, fault. Proved: same result and memories equal except for the padding, given room in the allocation. Exact behaviour: C44."
  },
  {
   "property": "C19",
   "status": "partial",
   "theorems": [
    "C19_refuted",
    "C19_refuted_reads_outside",
    "C19_same_partial",
    "C19_inside_partial"
   ],
   "note": "False as stated: fault at the end of an allocation, reads outside in. Proved: same result and memory given 16 readable bytes at each half; nothing outside in is read if it has 32 bytes. Exact behaviour: C44."
  },
  {
   "property": "C20",
   "status": "proved",
   "theorems": [
    "C20_Put",
    "C20_PutDelta",
    "C20_Get",
    "C20_GetDelta",
    "C20_Get_inverts",
    "C20_GetDelta_inverts",
    "C20_round_trip",
    "C20_delta_round_trip"
   ],
   "note": ""
  },
  {
   "property": "C21",
   "status": "proved",
   "theorems": [
    "C21_Put4",
    "C21_Put4Delta",
    "C21_Get4",
    "C21_Get4Delta",
    "C21_Get4_inverts",
    "C21_Get4Delta_inverts",
    "C21_round_trip",
    "C21_delta_round_trip"
   ],
   "note": ""
  },
  {
   "property": "C22",
   "status": "proved",
   "theorems": [
    "C22_one",
    "C22_two",
    "C22_group"
   ],
   "note": ""
  },
  {
   "property": "C23",
   "status": "proved",
   "theorems": [
    "C23_generated",
    "C23_sizes",
    "C23_lengths",
    "C23_encode_masks",
    "C23_decode_masks",
    "C23_masks_inverse"
   ],
   "note": "Tables equal the output of the model of the generator program; meaning of every shuffle mask on every register content."
  },
  {
   "property": "C24",
   "status": "proved",
   "theorems": [
    "C24_same_code",
    "C24_control"
   ],
   "note": "About the executed instruction sequence, for every register, frame and CPU state."
  },
  {
   "property": "C25",
   "status": "proved",
   "theorems": [
    "C25_code",
    "C25_differences",
    "C25_prefix_sums"
   ],
   "note": "About the executed instruction sequences."
  },
  {
   "property": "C26",
   "status": "proved",
   "theorems": [
    "C26_writers",
    "C26_readers",
    "C26_encoders",
    "C26_decoders",
    "C26_direct_calls",
    "C26_modes"
   ],
   "note": "An unsupported instruction is a separate outcome (Illegal) of the machine model; never reached through the dispatching functions on any CPU; the directly callable Fast functions reach it on CPUs without the features (C26_direct_calls)."
  },
  {
   "property": "C27",
   "status": "partial",
   "theorems": [
    "C27_refuted",
    "C27_broken_partial",
    "C27_encode_partial",
    "C27_amd64_partial",
    "C27_repaired_partial",
    "C27_scalar_partial"
   ],
   "note": "False as stated: for every GOARCH other than amd64 the decode, reader and writer packages do not compile (C27_refuted); C27_broken_partial lists the four broken uses exactly. Proved: shared, encode and util compile for every target, everything for amd64, and three repaired files suffice. The model covers file selection, declarations and uses with their types, not the bodies of functions; C50 covers those."
  },
  {
   "property": "C28",
   "status": "partial",
   "theorems": [
    "C28_delta_partial",
    "C28_in_place",
    "C28_write",
    "C28_in_place_refuted",
    "C28_same_allocation",
    "C28_overlap_wrong"
   ],
   "note": "Proved for out in another allocation, before in (overlapping allowed) or after it, including the panic for a short out and WriteAll of the result = WriteAllDelta(in, 0). The in-place part of the claim is false (C28_in_place_refuted); C28_in_place gives what is computed instead. C28_same_allocation: the exact result for every overlap; C28_overlap_wrong: where it is not the differences."
  },
  {
   "property": "C29",
   "status": "proved",
   "theorems": [
    "C29_put",
    "C29_round_trip"
   ],
   "note": "Plain and differential pair together (prev : option). Both versions of binary.Uvarint (Go before and since 1.15.1)."
  },
  {
   "property": "C30",
   "status": "proved",
   "theorems": [
    "C30_decides",
    "C30_terminates"
   ],
   "note": "Returns exactly on sequences of complete encodings of at most len(out) numbers, panics on everything else; all accesses inside data and out. Both versions of binary.Uvarint."
  },
  {
   "property": "C31",
   "status": "partial",
   "theorems": [
    "C31_refuted",
    "C31_class_partial",
    "C31_gen",
    "C31_covers",
    "C31_uniform",
    "C31_misses"
   ],
   "note": "False as stated: the bounds passed to randUint32Range are inclusive, so classes 1 to 3 also yield the smallest number of the next class (C31_refuted). C31_class_partial: that is the only exception. C31_uniform, C31_misses: exactly how often each number and the exception are drawn. The random source is an argument."
  },
  {
   "property": "C32",
   "status": "proved",
   "theorems": [
    "C32_results",
    "C32_frame",
    "C32_progress",
    "C32_no_races"
   ],
   "note": "Any number of calls, every interleaving of single byte/uint32 accesses (sequentially consistent memory). C32_no_races shows that no two calls touch the same location with one of them storing, which is what the Go memory model needs to promise sequential consistency."
  },
  {
   "property": "C33",
   "status": "proved",
   "theorems": [
    "C33_minimal",
    "C33_injective",
    "C33_injective_delta"
   ],
   "note": "Injectivity holds across all lengths."
  },
  {
   "property": "C34",
   "status": "proved",
   "theorems": [
    "C34_group",
    "C34_last_group",
    "C34_pair"
   ],
   "note": "Also for the last, shorter group, for two groups with Get8uint32 and for copies of the stream."
  },
  {
   "property": "C35",
   "status": "proved",
   "theorems": [
    "C35_encode",
    "C35_same_as_stream",
    "C35_decode",
    "C35_decode_stream"
   ],
   "note": "A different implementation may be used for each batch; decoding is proved for arbitrary controls."
  },
  {
   "property": "C36",
   "status": "partial",
   "theorems": [
    "C36_scalar_refuted",
    "C36_fast_refuted",
    "C36_scalar_partial",
    "C36_scalar_delta_partial",
    "C36_fast_partial",
    "C36_fast_delta_partial",
    "C36_normal_return"
   ],
   "note": "False as stated: the scalar readers reslice out up to its capacity and then write past len(out) (C36_scalar_refuted); the fast readers write past the capacity before panicking (C36_fast_refuted). Proved: the scalar readers panic unless 16 divides the count and the capacity suffices, and never touch anything past the capacity; the fast readers never return normally and never touch anything past max(cap(out), len(out)+8); no reader returns normally if count > cap(out)."
  },
  {
   "property": "C37",
   "status": "partial",
   "theorems": [
    "C37_same_partial",
    "C37_same_delta_partial",
    "C37_refuted",
    "C37_negative_scalar",
    "C37_negative_scalar_delta",
    "C37_negative_fast",
    "C37_smallest_fast",
    "C37_largest_fast",
    "C37_all_counts_partial",
    "C37_all_counts_delta_partial"
   ],
   "note": "False for negative counts that are no multiple of 4 (C37_refuted) and for the six smallest integers, where the fast readers panic (C37_smallest_fast). Proved: what each reader does on every int count; they agree for counts >= 0 on complete arguments, and on all counts under the side conditions of C37_all_counts_partial and C37_all_counts_delta_partial."
  },
  {
   "property": "C38",
   "status": "proved",
   "theorems": [
    "C38_prefix",
    "C38_prefix_delta"
   ],
   "note": ""
  },
  {
   "property": "C39",
   "status": "partial",
   "theorems": [
    "C39_no_race_partial",
    "C39_gap_partial",
    "C39_refuted"
   ],
   "note": "False as stated: C39_refuted gives a race between ReadAllFast and Put8uint32Scalar on disjoint slices, because the SIMD reader reads up to 3 bytes past its stream. Proved: no race when the reader's reach is disjoint from the stored part; a gap of 3 bytes is enough, and the scalar readers need none."
  },
  {
   "property": "C40",
   "status": "proved",
   "theorems": [
    "C40_put8",
    "C40_put8_delta",
    "C40_get8",
    "C40_get8_delta",
    "C40_frames",
    "C40_requires"
   ],
   "note": "The generators are modelled with avo's parameter placement; avo's register allocation is not modelled, its result is validated by a proved liveness check."
  },
  {
   "property": "C41",
   "status": "proved",
   "theorems": [
    "C41_sorted_delta_not_longer"
   ],
   "note": ""
  },
  {
   "property": "C42",
   "status": "proved",
   "theorems": [
    "C42_concatenation"
   ],
   "note": "Plain and differential together (prev : option)."
  },
  {
   "property": "C43",
   "status": "proved",
   "theorems": [
    "C43_reach",
    "C43_reach_delta",
    "C43_returns_iff",
    "C43_returns_iff_delta",
    "C43_inside_iff",
    "C43_inside_iff_delta"
   ],
   "note": "C43_reach(_delta): both cases with all accesses; C43_returns_iff(_delta) and C43_inside_iff(_delta) are the equivalences. g is last8 in C_Exact.v."
  },
  {
   "property": "C44",
   "status": "proved",
   "theorems": [
    "C44_put8",
    "C44_get8"
   ],
   "note": "Both cases in one statement per direction, for every memory; the true counterpart of C18/C19. bytes_on/words_on are the contents from the start of a slice to the end of its allocation."
  },
  {
   "property": "C45",
   "status": "proved",
   "theorems": [
    "C45_read",
    "C45_read_delta",
    "C45_write",
    "C45_write_delta",
    "C45_eight"
   ],
   "note": "No hypotheses on slices and memory (readers, Put8/Get8); writers: 0 <= len(in) <= 2^60. A 16-byte load of bytes counts as 16, of numbers as 4; table look-ups and the zeroing of the allocation are not counted."
  },
  {
   "property": "C46",
   "status": "proved",
   "theorems": [
    "C46_put_group",
    "C46_put_some",
    "C46_get_group",
    "C46_get4_atomic",
    "C46_get_some",
    "C46_read_no_control",
    "C46_read"
   ],
   "note": "exact final memory of every panicking run of the portable functions, with the number of stored elements given by small counting functions (the minimum of the two for a reader with a truncated stream and a short out)."
  },
  {
   "property": "C47",
   "status": "proved",
   "theorems": [
    "C47_update",
    "C47_report",
    "C47_again",
    "C47_ends",
    "C47_long_line",
    "C47_earlier_block",
    "C47_any_readme_refuted"
   ],
   "note": "operating system errors are outside the model; input lines are below 64 KiB and free of carriage returns at their ends (C47_long_line covers longer ones). C47_any_readme_refuted shows that the condition on earlier code blocks is needed."
  },
  {
   "property": "C48",
   "status": "proved",
   "theorems": [
    "C48_instructions",
    "C48_constants",
    "C48_declarations",
    "C48_requires",
    "C48_tables"
   ],
   "note": "the files are embedded byte for byte (SourceText.v, written by tools/embed.py); GoSyntax.v and AsmText.v read them inside Rocq."
  },
  {
   "property": "C49",
   "status": "proved",
   "theorems": [
    "C49_shared",
    "C49_encode",
    "C49_decode",
    "C49_writer",
    "C49_reader",
    "C49_util",
    "C49_round_trip",
    "C49_delta_round_trip"
   ],
   "note": "GoInterp.v gives the meaning of the parsed text; each model function is proved to have the same runs as its text (GoRefine.v: same accesses; Total.v: no loop of the model runs out of fuel). math/bits and encoding/binary are given by their models."
  },
  {
   "property": "C50",
   "status": "proved",
   "theorems": [
    "C50_files",
    "C50_targets",
    "C50_repaired"
   ],
   "note": "A type checker for the parsed text, written from the language specification (GoTypes.v), is run on the files selected for each target; C50_files: the declarations and file selection of Build.v (C27) are those of the text. pkg/shared/asm.go (the code generator's helpers, which use avo) is not in the text; other modules are given by signatures."
  },
  {
   "property": "C51",
   "status": "proved",
   "theorems": [
    "C51_encode",
    "C51_decode",
    "C51_writer",
    "C51_writer_too_long",
    "C51_reader",
    "C51_util",
    "C51_reader_last_counts"
   ],
   "note": "The interpreter of the Go text takes the width of int as a parameter; the text run with w bits is related to the 64-bit model. The targets concerned use the portable files, of which pkg/shared, pkg/encode and pkg/util compile as they are and the rest after the repair of C50. encoding/binary's own counters stay below 16 and are kept as modelled."
  },
  {
   "property": "C52",
   "status": "proved",
   "theorems": [
    "C52_gentables",
    "C52_tables",
    "C52_assembly",
    "C52_descriptions",
    "C52_registers",
    "C52_routines"
   ],
   "note": "The generator programs are executed as text by GenInterp.v. go/format is a parameter; its result is compared with tables.go up to blanks. avo is not part of the repository: its allocator and printer are modelled in GenPrint.v as far as used, and the model reproduces both files."
  },
  {
   "property": "C53",
   "status": "proved",
   "theorems": [
    "C53_write",
    "C53_write_delta",
    "C53_put8",
    "C53_put4",
    "C53_put4_delta",
    "C53_put",
    "C53_put_delta",
    "C53_read",
    "C53_read_delta",
    "C53_get8",
    "C53_get4",
    "C53_get4_delta",
    "C53_get",
    "C53_get_delta"
   ],
   "note": "A relational logic (Lockstep.v): two programs do the same accesses if the values they read are related.  For readers the stream must hold its control bytes."
  },
  {
   "property": "C54",
   "status": "proved",
   "theorems": [
    "C54_tests_pass",
    "C54_all_tests"
   ],
   "note": "TestInterp.v executes the tests; calls of library functions are executed by the interpreter of C49.  C54_all_tests: the list of tests is complete."
  },
  {
   "property": "C55",
   "status": "proved",
   "theorems": [
    "C55_text_is_model",
    "C55_one_ending",
    "C55_dry_run",
    "C55_early_failure",
    "C55_success",
    "C55_old_or_cut",
    "C55_failure_keeps_readme_refuted"
   ],
   "note": "C55_failure_keeps_readme_refuted: a write that fails behind os.Create loses the README."
  },
  {
   "property": "C56",
   "status": "proved",
   "theorems": [
    "C56_benchmarks_run",
    "C56_every_N",
    "C56_all_benchmarks"
   ],
   "note": "C56_all_benchmarks: the list is all the benchmarks there are."
  },
  {
   "property": "C57",
   "status": "proved",
   "theorems": [
    "C57_min",
    "C57_pack",
    "C57_signed_needed",
    "C57_signed_3",
    "C57_signed_3_msb",
    "C57_signed_4_refuted",
    "C57_signed_4",
    "C57_signed_4_unsigned",
    "C57_signed_12",
    "C57_add",
    "C57_bits",
    "C57_saturation",
    "C57_vector",
    "C57_cost",
    "C57_cost_2_20",
    "C57_program",
    "C57_program_decodes",
    "C57_vbyte"
   ],
   "note": "C57_signed_4_refuted is the sentence of README.md:386; C57_signed_4 says what holds."
  },
  {
   "property": "C58",
   "status": "proved",
   "theorems": [
    "C58_data",
    "C58_data_delta",
    "C58_control",
    "C58_control_delta",
    "C58_control_spreads",
    "C58_beyond"
   ],
   "note": "C58_control_spreads: without the same size the damage of a control byte can reach every later number."
  },
  {
   "property": "C59",
   "status": "proved",
   "theorems": [
    "C59_rewrite",
    "C59_written",
    "C59_unique"
   ],
   "note": "C59_unique: a list of numbers has one canonical stream."
  },
  {
   "property": "C60",
   "status": "proved",
   "theorems": [
    "C60_check",
    "C60_detects",
    "C60_outside",
    "C60_sees_all_changes_refuted",
    "C60_make",
    "C60_generated",
    "C60_target_exists",
    "C60_repository",
    "C60_update",
    "C60_benchmarks",
    "C60_test_failure_stops_refuted",
    "C60_blank_refuted"
   ],
   "note": "Refuted: that the check sees every change (contents of untracked files; nothing at all outside a repository, C60_outside, or if a file is called `generate`, C60_target_exists), that a failing `go test` stops update_bench.sh, that SBYTE_HOME may contain blanks."
  },
  {
   "property": "C61",
   "status": "proved",
   "theorems": [
    "C61_replace",
    "C61_replace_delta",
    "C61_start",
    "C61_append",
    "C61_order",
    "C61_monotone",
    "C61_writes",
    "C61_order_delta_refuted"
   ],
   "note": "Refuted: that the size of a delta stream does not depend on the order (C61_order_delta_refuted)."
  },
  {
   "property": "C62",
   "status": "proved",
   "theorems": [
    "C62_grammar",
    "C62_line",
    "C62_tokens",
    "C62_repository",
    "C62_grouping"
   ],
   "note": "Soundness of the parser against a separately stated grammar; the converse (every derivable text is accepted) and the uniqueness of the tree are not claimed."
  },
  {
   "property": "C63",
   "status": "proved",
   "theorems": [
    "C63_simulation",
    "C63_put8",
    "C63_get8"
   ],
   "note": "Input and output that overlap are treated in C64 (a []uint32 and a []byte do not overlap without package unsafe). Flags, the upper halves of the vector registers and the encoding of the instructions are not modelled."
  },
  {
   "property": "C64",
   "status": "proved",
   "theorems": [
    "C64_get8",
    "C64_put8"
   ],
   "note": "For the encoders the result slot must not lie in the tables (it is stored to before they are read). Memory after a fault is not described."
  },
  {
   "property": "C65",
   "status": "proved",
   "theorems": [
    "C65_any_order",
    "C65_executes",
    "C65_round_trip",
    "C65_delta_round_trip"
   ],
   "note": "A choice is made at every memory access, also inside calls, which is more than the specification allows. Where left-to-right order panics, another order is not shown to panic rather than fault: the model has a fault for slices without memory and for ill-typed text, and an operand that left-to-right order does not reach may have one. The index of an assignment out[i] = f(x) is checked after f(x) in every order; package initialisation goes from left to right."
  },
  {
   "property": "C66",
   "status": "proved",
   "theorems": [
    "C66_read_back",
    "C66_means",
    "C66_text_decides"
   ],
   "note": "The printer is the model of avo in GenPrint.v (the files of the repository are what it prints, C52), the reader that of the Go assembler in AsmText.v. Both know the instructions the repository uses. C66_means needs, as C52_registers does, that registers are written before they are read."
  },
  {
   "property": "C67",
   "status": "proved",
   "theorems": [
    "C67_too_small",
    "C67_too_large"
   ],
   "note": "With more bytes after the stream a count that is too large can go unnoticed (C67_example)."
  },
  {
   "property": "C68",
   "status": "proved",
   "theorems": [
    "C68_off",
    "C68_harmless"
   ],
   "note": "The call must have the room any call reading this stream needs (C43)."
  }
 ]
}