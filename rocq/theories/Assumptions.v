(** * What the theorems rest on (written by tools/manifest.py)
    The output is: Closed under the global context.  It covers every theorem named here. *)
From Verif Require Import C_Writer C_Reader C_ReaderFast C_Exact C_RoundTrip C_Prims C_Group8 C_Cpu C_Simd C_Compose C_Util C_Conc C_Build C_Avo C_Stream C_Exact8 C_Work C_Panic C_Bench C_Source C_Text C_Types C_Int C_Gen C_Trace C_Tests C_BenchText C_Benchmarks C_Readme C_Damage C_Canon C_Scripts C_Edit C_Grammar C_Lexical C_GoFiles C_Flat C_FlatExact C_Order C_Printed C_Count C_Misread.
Definition property_theorems :=
  (@C01_round_trip,
   @C01_write_then_read,
   @C01_round_trip_copied,
   @C02_delta_round_trip,
   @C02_write_then_read,
   @C02_delta_round_trip_copied,
   @C03_written_bytes,
   @C04_delta_is_differences,
   @C04_delta_bytes,
   @C05_implementation_independent,
   @C05_implementation_independent_delta,
   @C06_scalar_reader,
   @C06_scalar_delta_reader,
   @C07_fast_reader,
   @C07_fast_delta_reader,
   @C07_only_the_stream_matters,
   @C08_size,
   @C08_size_delta,
   @C09_total_and_frame,
   @C09_total_and_frame_delta,
   @C09_spare_capacity_is_zero,
   @C09_spare_capacity_is_zero_delta,
   @C10_frame,
   @C10_frame_delta,
   @C10_read,
   @C11_memory_safety,
   @C11_memory_safety_delta,
   @C12_refuted,
   @C12_refuted_fault,
   @C12_at_most_three_bytes_partial,
   @C12_at_most_three_bytes_delta_partial,
   @C12_inside_partial,
   @C12_inside_delta_partial,
   @C13_ReadAllScalar,
   @C13_ReadAllDeltaScalar,
   @C13_encoders,
   @C13_decoders,
   @C13_GetUint32,
   @C14_scalar,
   @C14_scalar_delta,
   @C14_fast_refuted,
   @C14_fast_partial,
   @C14_fast_delta_partial,
   @C14_fast_slack_partial,
   @C14_fast_slack_delta_partial,
   @C15_Put8Scalar,
   @C15_Put8DeltaScalar,
   @C15_put8,
   @C15_implementation_independent,
   @C16_Get8Scalar,
   @C16_Get8DeltaScalar,
   @C16_get8,
   @C17_get8_inverts,
   @C17_round_trip,
   @C18_refuted,
   @C18_refuted_neighbour,
   @C18_refuted_fault,
   @C18_refuted_short_input,
   @C18_same_partial,
   @C19_refuted,
   @C19_refuted_reads_outside,
   @C19_same_partial,
   @C19_inside_partial,
   @C20_Put,
   @C20_PutDelta,
   @C20_Get,
   @C20_GetDelta,
   @C20_Get_inverts,
   @C20_GetDelta_inverts,
   @C20_round_trip,
   @C20_delta_round_trip,
   @C21_Put4,
   @C21_Put4Delta,
   @C21_Get4,
   @C21_Get4Delta,
   @C21_Get4_inverts,
   @C21_Get4Delta_inverts,
   @C21_round_trip,
   @C21_delta_round_trip,
   @C22_one,
   @C22_two,
   @C22_group,
   @C23_generated,
   @C23_sizes,
   @C23_lengths,
   @C23_encode_masks,
   @C23_decode_masks,
   @C23_masks_inverse,
   @C24_same_code,
   @C24_control,
   @C25_code,
   @C25_differences,
   @C25_prefix_sums,
   @C26_writers,
   @C26_readers,
   @C26_encoders,
   @C26_decoders,
   @C26_direct_calls,
   @C26_modes,
   @C27_refuted,
   @C27_broken_partial,
   @C27_encode_partial,
   @C27_amd64_partial,
   @C27_repaired_partial,
   @C27_scalar_partial,
   @C28_delta_partial,
   @C28_in_place,
   @C28_write,
   @C28_in_place_refuted,
   @C28_same_allocation,
   @C28_overlap_wrong,
   @C29_put,
   @C29_round_trip,
   @C30_decides,
   @C30_terminates,
   @C31_refuted,
   @C31_class_partial,
   @C31_gen,
   @C31_covers,
   @C31_uniform,
   @C31_misses,
   @C32_results,
   @C32_frame,
   @C32_progress,
   @C32_no_races,
   @C33_minimal,
   @C33_injective,
   @C33_injective_delta,
   @C34_group,
   @C34_last_group,
   @C34_pair,
   @C35_encode,
   @C35_same_as_stream,
   @C35_decode,
   @C35_decode_stream,
   @C36_scalar_refuted,
   @C36_fast_refuted,
   @C36_scalar_partial,
   @C36_scalar_delta_partial,
   @C36_fast_partial,
   @C36_fast_delta_partial,
   @C36_normal_return,
   @C37_same_partial,
   @C37_same_delta_partial,
   @C37_refuted,
   @C37_negative_scalar,
   @C37_negative_scalar_delta,
   @C37_negative_fast,
   @C37_smallest_fast,
   @C37_largest_fast,
   @C37_all_counts_partial,
   @C37_all_counts_delta_partial,
   @C38_prefix,
   @C38_prefix_delta,
   @C39_no_race_partial,
   @C39_gap_partial,
   @C39_refuted,
   @C40_put8,
   @C40_put8_delta,
   @C40_get8,
   @C40_get8_delta,
   @C40_frames,
   @C40_requires,
   @C41_sorted_delta_not_longer,
   @C42_concatenation,
   @C43_reach,
   @C43_reach_delta,
   @C43_returns_iff,
   @C43_returns_iff_delta,
   @C43_inside_iff,
   @C43_inside_iff_delta,
   @C44_put8,
   @C44_get8,
   @C45_read,
   @C45_read_delta,
   @C45_write,
   @C45_write_delta,
   @C45_eight,
   @C46_put_group,
   @C46_put_some,
   @C46_get_group,
   @C46_get4_atomic,
   @C46_get_some,
   @C46_read_no_control,
   @C46_read,
   @C47_update,
   @C47_report,
   @C47_again,
   @C47_ends,
   @C47_long_line,
   @C47_earlier_block,
   @C47_any_readme_refuted,
   @C48_instructions,
   @C48_constants,
   @C48_declarations,
   @C48_requires,
   @C48_tables,
   @C49_shared,
   @C49_encode,
   @C49_decode,
   @C49_writer,
   @C49_reader,
   @C49_util,
   @C49_round_trip,
   @C49_delta_round_trip,
   @C50_files,
   @C50_targets,
   @C50_repaired,
   @C51_encode,
   @C51_decode,
   @C51_writer,
   @C51_writer_too_long,
   @C51_reader,
   @C51_util,
   @C51_reader_last_counts,
   @C52_gentables,
   @C52_tables,
   @C52_assembly,
   @C52_descriptions,
   @C52_registers,
   @C52_routines,
   @C53_write,
   @C53_write_delta,
   @C53_put8,
   @C53_put4,
   @C53_put4_delta,
   @C53_put,
   @C53_put_delta,
   @C53_read,
   @C53_read_delta,
   @C53_get8,
   @C53_get4,
   @C53_get4_delta,
   @C53_get,
   @C53_get_delta,
   @C54_tests_pass,
   @C54_all_tests,
   @C55_text_is_model,
   @C55_one_ending,
   @C55_dry_run,
   @C55_early_failure,
   @C55_success,
   @C55_old_or_cut,
   @C55_failure_keeps_readme_refuted,
   @C56_benchmarks_run,
   @C56_every_N,
   @C56_all_benchmarks,
   @C57_min,
   @C57_pack,
   @C57_signed_needed,
   @C57_signed_3,
   @C57_signed_3_msb,
   @C57_signed_4_refuted,
   @C57_signed_4,
   @C57_signed_4_unsigned,
   @C57_signed_12,
   @C57_add,
   @C57_bits,
   @C57_saturation,
   @C57_vector,
   @C57_cost,
   @C57_cost_2_20,
   @C57_program,
   @C57_program_decodes,
   @C57_vbyte,
   @C58_data,
   @C58_data_delta,
   @C58_control,
   @C58_control_delta,
   @C58_control_spreads,
   @C58_beyond,
   @C59_rewrite,
   @C59_written,
   @C59_unique,
   @C60_check,
   @C60_detects,
   @C60_outside,
   @C60_sees_all_changes_refuted,
   @C60_make,
   @C60_generated,
   @C60_target_exists,
   @C60_repository,
   @C60_update,
   @C60_benchmarks,
   @C60_test_failure_stops_refuted,
   @C60_blank_refuted,
   @C61_replace,
   @C61_replace_delta,
   @C61_start,
   @C61_append,
   @C61_order,
   @C61_monotone,
   @C61_writes,
   @C61_order_delta_refuted,
   @C62_grammar,
   @C62_line,
   @C62_tokens,
   @C62_repository,
   @C62_grouping,
   @C63_simulation,
   @C63_put8,
   @C63_get8,
   @C64_get8,
   @C64_put8,
   @C65_any_order,
   @C65_executes,
   @C65_round_trip,
   @C65_delta_round_trip,
   @C66_read_back,
   @C66_means,
   @C66_text_decides,
   @C67_too_small,
   @C67_too_large,
   @C68_off,
   @C68_harmless).
Print Assumptions property_theorems.
