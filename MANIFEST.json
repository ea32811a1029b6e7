{
 "claims": [
  {
   "property": "C01",
   "status": "proved",
   "theorems": [
    "C01_exact_round_trip"
   ],
   "note": ""
  },
  {
   "property": "C02",
   "status": "proved",
   "theorems": [
    "C02_framing",
    "C02_count_and_addresses"
   ],
   "note": ""
  },
  {
   "property": "C03",
   "status": "proved",
   "theorems": [
    "C03_crash",
    "C03_crash_after_prefix"
   ],
   "note": ""
  },
  {
   "property": "C04",
   "status": "proved",
   "theorems": [
    "C04_truncation_is_prefix"
   ],
   "note": ""
  },
  {
   "property": "C05",
   "status": "proved",
   "theorems": [
    "C05_progress",
    "C05_terminates",
    "C05_call_terminates",
    "C05_record_bound"
   ],
   "note": ""
  },
  {
   "property": "C06",
   "status": "proved",
   "theorems": [
    "C06_only_lookahead",
    "C06_safe_with_padding",
    "C06_overread_refuted",
    "C06_header_stores",
    "C06_record_stores",
    "C06_header_store_refuted",
    "C06_record_store_refuted",
    "C06_register_store_refuted"
   ],
   "note": "Safety proved under the stated padding / count hypotheses; both exceptions exhibited (\u2026_refuted)."
  },
  {
   "property": "C07",
   "status": "proved",
   "theorems": [
    "C07_never_past_mapping"
   ],
   "note": ""
  },
  {
   "property": "C08",
   "status": "proved",
   "theorems": [
    "C08_first_call",
    "C08_later_call",
    "C08_pending_is_last_accepted"
   ],
   "note": ""
  },
  {
   "property": "C09",
   "status": "proved",
   "theorems": [
    "C09_address_chain"
   ],
   "note": ""
  },
  {
   "property": "C10",
   "status": "proved",
   "theorems": [
    "C10_branch_flags"
   ],
   "note": ""
  },
  {
   "property": "C11",
   "status": "proved",
   "theorems": [
    "C11_shifts_swapped",
    "C11_sequential_translation_ignored",
    "C11_desynchronised_refuted",
    "C11_witnesses",
    "C11_kind_lost"
   ],
   "note": ""
  },
  {
   "property": "C12",
   "status": "proved",
   "theorems": [
    "C12_branch_annotation"
   ],
   "note": ""
  },
  {
   "property": "C13",
   "status": "proved",
   "theorems": [
    "C13_tlbie_annotation",
    "C13_epn_low_half",
    "C13_epn_high_half_refuted"
   ],
   "note": "The ISA page number has 52 bits, the code keeps 51: proved with that width, equal to the ISA below 2^63 and off by 2^63 above (C13_epn_high_half_refuted)."
  },
  {
   "property": "C14",
   "status": "proved",
   "theorems": [
    "C14_create_branch_in_range",
    "C14_create_branch_out_of_range",
    "C14_iform_decode"
   ],
   "note": ""
  },
  {
   "property": "C15",
   "status": "proved",
   "theorems": [
    "C15_create_cond_branch_in_range",
    "C15_create_cond_branch_out_of_range",
    "C15_bform_decode"
   ],
   "note": ""
  },
  {
   "property": "C16",
   "status": "proved",
   "theorems": [
    "C16_conditional_iff",
    "C16_unconditional_iff",
    "C16_disjoint",
    "C16_branch_iff"
   ],
   "note": ""
  },
  {
   "property": "C17",
   "status": "proved",
   "theorems": [
    "C17_retarget_iform",
    "C17_retarget_bform",
    "C17_retarget_other",
    "C17_retarget_succeeds_iff",
    "C17_branch_target_relative",
    "C17_branch_target_absolute_refuted"
   ],
   "note": "Retargeting proved in full; the target helper is proved correct for relative branches and refuted for absolute ones (it inspects the address instead of the instruction)."
  },
  {
   "property": "C18",
   "status": "proved",
   "theorems": [
    "C18_matched_returns_hit"
   ],
   "note": ""
  },
  {
   "property": "C19",
   "status": "proved",
   "theorems": [
    "C19_exact_ring",
    "C19_lossy_stack",
    "C19_misses_le_predictions",
    "C19_depth_zero_refuted"
   ],
   "note": "Depth 0 is an out-of-bounds store (C19_depth_zero_refuted)."
  },
  {
   "property": "C20",
   "status": "proved",
   "theorems": [
    "C20_profile",
    "C20_fails_iff",
    "C20_distinct"
   ],
   "note": ""
  },
  {
   "property": "C21",
   "status": "proved",
   "theorems": [
    "C21_blocks",
    "C21_blocks_any_length",
    "C21_within_three_refuted"
   ],
   "note": ""
  },
  {
   "property": "C22",
   "status": "proved",
   "theorems": [
    "C22_lookups"
   ],
   "note": ""
  },
  {
   "property": "C23",
   "status": "proved",
   "theorems": [
    "C23_overlap_missed_refuted",
    "C23_top_page_aborts"
   ],
   "note": ""
  },
  {
   "property": "C24",
   "status": "proved",
   "theorems": [
    "C24_erat",
    "C24_other_shifts_abort",
    "C24_host_shift_stale_refuted"
   ],
   "note": ""
  },
  {
   "property": "C25",
   "status": "proved",
   "theorems": [
    "C25_page_walk_cache",
    "C25_levels_independent",
    "C25_top_bits_ignored",
    "C25_other_levels_abort"
   ],
   "note": ""
  },
  {
   "property": "C26",
   "status": "proved",
   "theorems": [
    "C26_translation_and_reverse_cache"
   ],
   "note": ""
  },
  {
   "property": "C27",
   "status": "proved",
   "theorems": [
    "C27_errors",
    "C27_bounds",
    "C27_shape",
    "C27_merge_overflow_refuted",
    "C27_fixup_overflow_refuted",
    "C27_rejected_walk_cached_refuted",
    "C27_completion"
   ],
   "note": ""
  },
  {
   "property": "C28",
   "status": "proved",
   "theorems": [
    "C28_full_walk",
    "C28_lookup_after",
    "C28_lookup",
    "C28_mode_aliasing_refuted"
   ],
   "note": ""
  },
  {
   "property": "C29",
   "status": "proved",
   "theorems": [
    "C29_fields",
    "C29_numbering",
    "C29_bit",
    "C29_constant_fields"
   ],
   "note": ""
  },
  {
   "property": "C30",
   "status": "proved",
   "theorems": [
    "C30_cursor",
    "C30_decode",
    "C30_phantom_refuted"
   ],
   "note": ""
  },
  {
   "property": "C31",
   "status": "proved",
   "theorems": [
    "C31_p10_branch",
    "C31_p10_conditional",
    "C31_p10_register",
    "C31_p10_system",
    "C31_p8_branch",
    "C31_p8_conditional",
    "C31_p8_register",
    "C31_other",
    "C31_isel_refuted",
    "C31_p10_absolute_condition_refuted",
    "C31_p10_bctrl_refuted"
   ],
   "note": ""
  },
  {
   "property": "C32",
   "status": "proved",
   "theorems": [
    "C32_counters",
    "C32_sums",
    "C32_upper_registers_refuted"
   ],
   "note": ""
  },
  {
   "property": "C33",
   "status": "proved",
   "theorems": [
    "C33_idle_exceeds_system_refuted",
    "C33_idle_bound"
   ],
   "note": ""
  },
  {
   "property": "C34",
   "status": "proved",
   "theorems": [
    "C34_mix",
    "C34_total",
    "C34_last_entry_refuted"
   ],
   "note": ""
  },
  {
   "property": "C35",
   "status": "proved",
   "theorems": [
    "C35_history",
    "C35_reserved"
   ],
   "note": ""
  },
  {
   "property": "C36",
   "status": "proved",
   "theorems": [
    "C36_highest_bit_refuted",
    "C36_failed_init_refuted"
   ],
   "note": ""
  },
  {
   "property": "C37",
   "status": "proved",
   "theorems": [
    "C37_create",
    "C37_resize",
    "C37_no_rows_refuted",
    "C37_size_wraps_refuted"
   ],
   "note": ""
  },
  {
   "property": "C38",
   "status": "proved",
   "theorems": [
    "C38_multiply",
    "C38_multiply_refuses",
    "C38_copy",
    "C38_compare",
    "C38_other_shape",
    "C38_projection"
   ],
   "note": ""
  },
  {
   "property": "C39",
   "status": "proved",
   "theorems": [
    "C39_initialise",
    "C39_iteration",
    "C39_terminates",
    "C39_distance_exact",
    "C39_distance_zero",
    "C39_undefined_refuted",
    "C39_wrapped_refuted",
    "C39_distance_signed"
   ],
   "note": ""
  },
  {
   "property": "C40",
   "status": "proved",
   "theorems": [
    "C40_run",
    "C40_sweep",
    "C40_far_point_refuted"
   ],
   "note": ""
  },
  {
   "property": "C41",
   "status": "proved",
   "theorems": [
    "C41_trace_exists",
    "C41_vectors",
    "C41_row_sum",
    "C41_projected",
    "C41_tool",
    "C41_short",
    "C41_many_blocks_refuted"
   ],
   "note": ""
  },
  {
   "property": "C42",
   "status": "proved",
   "theorems": [
    "C42_isa",
    "C42_table",
    "C42_word_only",
    "C42_v31_refuted"
   ],
   "note": ""
  },
  {
   "property": "C43",
   "status": "proved",
   "theorems": [
    "C43_left",
    "C43_unchanged",
    "C43_succeeds",
    "C43_left_behind_refuted",
    "C43_fetch_refuted"
   ],
   "note": ""
  },
  {
   "property": "C44",
   "status": "proved",
   "theorems": [
    "C44_covered",
    "C44_outside",
    "C44_unconditional_refuted"
   ],
   "note": ""
  },
  {
   "property": "C45",
   "status": "proved",
   "theorems": [
    "C45_answers",
    "C45_first_asks",
    "C45_repeat",
    "C45_zero_refuted",
    "C45_wrap_refuted",
    "C45_huge_refuted"
   ],
   "note": ""
  },
  {
   "property": "C46",
   "status": "proved",
   "theorems": [
    "C46_lookup",
    "C46_text",
    "C46_tracer",
    "C46_maps",
    "C46_overrun_refuted",
    "C46_anonymous_refuted",
    "C46_past_last_refuted",
    "C46_symcmp_refuted"
   ],
   "note": ""
  },
  {
   "property": "C47",
   "status": "proved",
   "theorems": [
    "C47_history",
    "C47_from",
    "C47_counters",
    "C47_capture",
    "C47_capacity_refuted",
    "C47_fresh_refuted"
   ],
   "note": ""
  },
  {
   "property": "C48",
   "status": "proved",
   "theorems": [
    "C48_records",
    "C48_accepts",
    "C48_file",
    "C48_absolute_refuted",
    "C48_shadowed_refuted",
    "C48_exhausted_refuted"
   ],
   "note": ""
  },
  {
   "property": "C49",
   "status": "proved",
   "theorems": [
    "C49_failed_extension",
    "C49_failed_call_changes_nothing"
   ],
   "note": ""
  },
  {
   "property": "C50",
   "status": "proved",
   "theorems": [
    "C50_partial_lookup",
    "C50_partial_insert",
    "C50_address_lookup"
   ],
   "note": ""
  },
  {
   "property": "C51",
   "status": "proved",
   "theorems": [
    "C51_header",
    "C51_header_accepted",
    "C51_record",
    "C51_record_accepted",
    "C51_sequential_page_size_refuted"
   ],
   "note": ""
  },
  {
   "property": "C52",
   "status": "proved",
   "theorems": [
    "C52_report",
    "C52_large_count_refuted"
   ],
   "note": ""
  },
  {
   "property": "C53",
   "status": "proved",
   "theorems": [
    "C53_reported",
    "C53_straight",
    "C53_returned",
    "C53_taken_refuted"
   ],
   "note": ""
  },
  {
   "property": "C54",
   "status": "proved",
   "theorems": [
    "C54_rebuild",
    "C54_file",
    "C54_target_lost_refuted"
   ],
   "note": ""
  },
  {
   "property": "C55",
   "status": "proved",
   "theorems": [
    "C55_trace8",
    "C55_opcode_refuted",
    "C55_data_refuted",
    "C55_junk_refuted",
    "C55_jumps_refuted"
   ],
   "note": ""
  },
  {
   "property": "C56",
   "status": "proved",
   "theorems": [
    "C56_trace10",
    "C56_real_refuted",
    "C56_walks_refuted",
    "C56_hypervisor_refuted",
    "C56_modes_refuted"
   ],
   "note": ""
  },
  {
   "property": "C57",
   "status": "proved",
   "theorems": [
    "C57_convert8",
    "C57_convert10",
    "C57_junk_refuted",
    "C57_page_refuted",
    "C57_crossing_refuted",
    "C57_data_refuted",
    "C57_zero_refuted"
   ],
   "note": ""
  },
  {
   "property": "C58",
   "status": "proved",
   "theorems": [
    "C58_file",
    "C58_count",
    "C58_signal_refuted"
   ],
   "note": ""
  },
  {
   "property": "C59",
   "status": "proved",
   "theorems": [
    "C59_requests",
    "C59_lost_refuted"
   ],
   "note": ""
  },
  {
   "property": "C60",
   "status": "proved",
   "theorems": [
    "C60_forward",
    "C60_counters",
    "C60_period_refuted",
    "C60_null_refuted"
   ],
   "note": ""
  },
  {
   "property": "C61",
   "status": "proved",
   "theorems": [
    "C61_listing",
    "C61_logs",
    "C61_written",
    "C61_written_logs",
    "C61_dump",
    "C61_suffix_refuted",
    "C61_header_refuted",
    "C61_fetch_refuted"
   ],
   "note": ""
  },
  {
   "property": "C62",
   "status": "proved",
   "theorems": [
    "C62_hash_any",
    "C62_hash64_any",
    "C62_low_half",
    "C62_stable_8",
    "C62_stable_8_short",
    "C62_hash_u32",
    "C62_words_as_bytes",
    "C62_stable_64",
    "C62_stable_32",
    "C62_stable_16",
    "C62_stable_empty",
    "C62_stable_refuted",
    "C62_mix_bijective",
    "C62_final_bijective"
   ],
   "note": ""
  },
  {
   "property": "C63",
   "status": "proved",
   "theorems": [
    "C63_lines",
    "C63_mark",
    "C63_written",
    "C63_walk_refuted",
    "C63_hypervisor"
   ],
   "note": ""
  },
  {
   "property": "C64",
   "status": "proved",
   "theorems": [
    "C64_histories",
    "C64_steps",
    "C64_queries",
    "C64_loops",
    "C64_safe",
    "C64_unsafe_refuted",
    "C64_check",
    "C64_walks"
   ],
   "note": ""
  },
  {
   "property": "C65",
   "status": "proved",
   "theorems": [
    "C65_capture",
    "C65_only_listed",
    "C65_exits",
    "C65_orderly",
    "C65_exec",
    "C65_no_child_left",
    "C65_release",
    "C65_read",
    "C65_write",
    "C65_restore",
    "C65_full_table_refuted",
    "C65_every_insn_refuted"
   ],
   "note": ""
  },
  {
   "property": "C66",
   "status": "proved",
   "theorems": [
    "C66_table",
    "C66_sorted",
    "C66_mix",
    "C66_branches",
    "C66_conditions",
    "C66_returns_refuted",
    "C66_register_branches",
    "C66_reservations",
    "C66_tlbie",
    "C66_storage",
    "C66_lfdp_refuted",
    "C66_names",
    "C66_deprecated_refuted",
    "C66_last_refuted",
    "C66_lines_refuted",
    "C66_patterns",
    "C66_context_switch_refuted"
   ],
   "note": ""
  },
  {
   "property": "C67",
   "status": "proved",
   "theorems": [
    "C67_hex_encode",
    "C67_hex_decode",
    "C67_hex_bound",
    "C67_hex_round",
    "C67_base32_encode",
    "C67_base32_refuses",
    "C67_base32_decode",
    "C67_base32_bound",
    "C67_base32_size",
    "C67_base32_round",
    "C67_base32_fits_refuted",
    "C67_base32_strict_refuted",
    "C67_strcount",
    "C67_strcount_refuted"
   ],
   "note": ""
  },
  {
   "property": "C68",
   "status": "proved",
   "theorems": [
    "C68_power8",
    "C68_power10",
    "C68_tracer",
    "C68_prefix_refuted",
    "C68_tracer_prefix_refuted"
   ],
   "note": ""
  },
  {
   "property": "C69",
   "status": "proved",
   "theorems": [
    "C69_identical",
    "C69_any",
    "C69_again",
    "C69_shifts_refuted",
    "C69_abort_refuted",
    "C69_ends"
   ],
   "note": ""
  },
  {
   "property": "C70",
   "status": "proved",
   "theorems": [
    "C70_changes",
    "C70_replay",
    "C70_instructions",
    "C70_text",
    "C70_lines",
    "C70_big_endian",
    "C70_halves_refuted",
    "C70_numbers"
   ],
   "note": ""
  },
  {
   "property": "C71",
   "status": "proved",
   "theorems": [
    "C71_getopt",
    "C71_ptracer",
    "C71_ptracer_rejects",
    "C71_qtdis",
    "C71_qtdis_rejects",
    "C71_htmdecoder",
    "C71_htmdecoder_rejects",
    "C71_bbv",
    "C71_bbv_rejects",
    "C71_count",
    "C71_pid",
    "C71_ulong",
    "C71_garbage_refuted",
    "C71_k_refuted",
    "C71_blame_refuted",
    "C71_inputs_refuted",
    "C71_decimal",
    "C71_no_decimal",
    "C71_skip"
   ],
   "note": ""
  },
  {
   "property": "C72",
   "status": "proved",
   "theorems": [
    "C72_limit",
    "C72_lowered_refuted",
    "C72_hangs_refuted",
    "C72_checkpoint",
    "C72_checkpoint_refuted"
   ],
   "note": ""
  },
  {
   "property": "C73",
   "status": "proved",
   "theorems": [
    "C73_parse",
    "C73_names",
    "C73_reads",
    "C73_counts",
    "C73_calls",
    "C73_classes",
    "C73_agree",
    "C73_modules_refuted",
    "C73_total_refuted",
    "C73_idle_refuted",
    "C73_sym",
    "C73_no_sym",
    "C73_rejects",
    "C73_digits",
    "C73_kinds",
    "C73_once"
   ],
   "note": ""
  },
  {
   "property": "C74",
   "status": "proved",
   "theorems": [
    "C74_same",
    "C74_unchanged",
    "C74_alone",
    "C74_registers",
    "C74_session",
    "C74_aborts_refuted"
   ],
   "note": ""
  },
  {
   "property": "C75",
   "status": "proved",
   "theorems": [
    "C75_written",
    "C75_power8",
    "C75_power10",
    "C75_tracer"
   ],
   "note": ""
  },
  {
   "property": "C76",
   "status": "proved",
   "theorems": [
    "C76_resumed",
    "C76_nothing_left_out",
    "C76_guest_real",
    "C76_real_mode_refuted"
   ],
   "note": ""
  },
  {
   "property": "C77",
   "status": "proved",
   "theorems": [
    "C77_decoded",
    "C77_converted",
    "C77_walk"
   ],
   "note": ""
  },
  {
   "property": "C78",
   "status": "proved",
   "theorems": [
    "C78_written",
    "C78_power8",
    "C78_power10",
    "C78_tracer",
    "C78_stretches",
    "C78_accounts",
    "C78_vectors",
    "C78_prefix_refuted"
   ],
   "note": ""
  },
  {
   "property": "C79",
   "status": "proved",
   "theorems": [
    "C79_records",
    "C79_counts",
    "C79_file",
    "C79_eof_refuted",
    "C79_limit_refuted"
   ],
   "note": ""
  },
  {
   "property": "C80",
   "status": "proved",
   "theorems": [
    "C80_stops",
    "C80_reached",
    "C80_tlb"
   ],
   "note": ""
  },
  {
   "property": "C81",
   "status": "proved",
   "theorems": [
    "C81_report",
    "C81_misses_are_hits",
    "C81_exit",
    "C81_decoder",
    "C81_numbers"
   ],
   "note": ""
  },
  {
   "property": "C82",
   "status": "proved",
   "theorems": [
    "C82_report8",
    "C82_report10",
    "C82_quiet",
    "C82_interrupts",
    "C82_interrupts_refuted",
    "C82_branches_refuted",
    "C82_data_pages_refuted"
   ],
   "note": ""
  },
  {
   "property": "C83",
   "status": "proved",
   "theorems": [
    "C83_tables",
    "C83_power8",
    "C83_power10",
    "C83_share",
    "C83_idle_refuted",
    "C83_empty_refuted",
    "C83_names",
    "C83_numbers",
    "C83_qtdis8",
    "C83_tracer"
   ],
   "note": ""
  },
  {
   "property": "C84",
   "status": "proved",
   "theorems": [
    "C84_listing",
    "C84_names",
    "C84_written",
    "C84_guest_refuted"
   ],
   "note": ""
  },
  {
   "property": "C85",
   "status": "proved",
   "theorems": [
    "C85_dump",
    "C85_written",
    "C85_data",
    "C85_large_refuted"
   ],
   "note": ""
  },
  {
   "property": "C86",
   "status": "proved",
   "theorems": [
    "C86_neutral",
    "C86_associative",
    "C86_tests",
    "C86_full"
   ],
   "note": ""
  },
  {
   "property": "C87",
   "status": "proved",
   "theorems": [
    "C87_text",
    "C87_stop",
    "C87_trace"
   ],
   "note": ""
  },
  {
   "property": "C88",
   "status": "proved",
   "theorems": [
    "C88_dump",
    "C88_counts",
    "C88_raw"
   ],
   "note": ""
  },
  {
   "property": "C89",
   "status": "proved",
   "theorems": [
    "C89_copy",
    "C89_clear",
    "C89_prev",
    "C89_past_the_end_refuted",
    "C89_failed_init_refuted"
   ],
   "note": ""
  },
  {
   "property": "C90",
   "status": "proved",
   "theorems": [
    "C90_runs",
    "C90_del_from",
    "C90_twice",
    "C90_corrupt",
    "C90_unchecked_refuted",
    "C90_head_refuted"
   ],
   "note": ""
  },
  {
   "property": "C91",
   "status": "proved",
   "theorems": [
    "C91_planned",
    "C91_unplanned",
    "C91_plan_once",
    "C91_newline_refuted",
    "C91_double_end_refuted",
    "C91_planned_notes",
    "C91_unplanned_notes"
   ],
   "note": ""
  },
  {
   "property": "C92",
   "status": "proved",
   "theorems": [
    "C92_streq",
    "C92_strstarts",
    "C92_strends",
    "C92_max_chars",
    "C92_max_chars_hex",
    "C92_asprintf",
    "C92_asprintf_any"
   ],
   "note": ""
  },
  {
   "property": "C93",
   "status": "proved",
   "theorems": [
    "C93_keys"
   ],
   "note": ""
  }
 ]
}