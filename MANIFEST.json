{
 "claims": [
  {
   "property": "C01",
   "status": "proved",
   "theorems": [
    "C01_little_endian_round_trip"
   ],
   "note": ""
  },
  {
   "property": "C02",
   "status": "proved",
   "theorems": [
    "C02_big_endian_round_trip"
   ],
   "note": ""
  },
  {
   "property": "C03",
   "status": "proved",
   "theorems": [
    "C03_byte_order_irrelevant"
   ],
   "note": ""
  },
  {
   "property": "C04",
   "status": "proved",
   "theorems": [
    "C04_exact_acceptance"
   ],
   "note": ""
  },
  {
   "property": "C05",
   "status": "proved",
   "theorems": [
    "C05_accepted_input_normalises"
   ],
   "note": ""
  },
  {
   "property": "C06",
   "status": "proved",
   "theorems": [
    "C06_reader_returns"
   ],
   "note": ""
  },
  {
   "property": "C07",
   "status": "proved",
   "theorems": [
    "C07_whole_words_only"
   ],
   "note": ""
  },
  {
   "property": "C08",
   "status": "proved",
   "theorems": [
    "C08_truncation",
    "C08_every_prefix_is_a_cut"
   ],
   "note": ""
  },
  {
   "property": "C09",
   "status": "proved",
   "theorems": [
    "C09_error_is_final",
    "C09_success_only_extends"
   ],
   "note": ""
  },
  {
   "property": "C10",
   "status": "proved",
   "theorems": [
    "C10_unknown_opcode",
    "C10_unimplemented_opcode",
    "C10_decoded_opcode"
   ],
   "note": ""
  },
  {
   "property": "C11",
   "status": "proved",
   "theorems": [
    "C11_excess_words",
    "C11_excess_words_extended",
    "C11_missing_words",
    "C11_next_instruction_not_consulted"
   ],
   "note": ""
  },
  {
   "property": "C12",
   "status": "proved",
   "theorems": [
    "C12_extended_instruction_resolves",
    "C12_unimported_set"
   ],
   "note": "The set must be the first known one with the imported name; the id of the set is the id of an earlier import."
  },
  {
   "property": "C13",
   "status": "proved",
   "theorems": [
    "C13_imports_unique_and_known",
    "C13_duplicate_import",
    "C13_unknown_import"
   ],
   "note": ""
  },
  {
   "property": "C14",
   "status": "proved",
   "theorems": [
    "C14_string_round_trip",
    "C14_string_is_the_bytes_before_nul"
   ],
   "note": ""
  },
  {
   "property": "C15",
   "status": "proved",
   "theorems": [
    "C15_string_iff_unicode",
    "C15_unterminated_string"
   ],
   "note": ""
  },
  {
   "property": "C16",
   "status": "proved",
   "theorems": [
    "C16_version_accepted",
    "C16_version_rejected",
    "C16_only_1_0_refuted"
   ],
   "note": "The exact gate is proved; that only the 1.0 word passes is refuted."
  },
  {
   "property": "C17",
   "status": "proved",
   "theorems": [
    "C17_memory_access",
    "C17_fp_fast_math",
    "C17_selection_control",
    "C17_function_control",
    "C17_loop_control",
    "C17_all_unknown_flags_rejected_refuted"
   ],
   "note": "The exact decoding is proved; that every unknown flag is rejected is refuted."
  },
  {
   "property": "C18",
   "status": "proved",
   "theorems": [
    "C18_enumerants",
    "C18_execution_mode",
    "C18_decoration",
    "C18_source_language",
    "C18_unknown_enumerant_in_module"
   ],
   "note": ""
  },
  {
   "property": "C19",
   "status": "proved",
   "theorems": [
    "C19_bound_is_only_reported",
    "C19_ids_below_bound_refuted"
   ],
   "note": "That ids are below the bound, as documented in the crate, is refuted."
  },
  {
   "property": "C20",
   "status": "proved",
   "theorems": [
    "C20_word_count_zero",
    "C20_zero_rejected_refuted"
   ],
   "note": "That word count zero is rejected is refuted."
  },
  {
   "property": "C21",
   "status": "proved",
   "theorems": [
    "C21_aligned_load",
    "C21_aligned_store"
   ],
   "note": ""
  },
  {
   "property": "C22",
   "status": "proved",
   "theorems": [
    "C22_generator",
    "C22_generator_words_distinct"
   ],
   "note": ""
  },
  {
   "property": "C23",
   "status": "proved",
   "theorems": [
    "C23_never_undispatched",
    "C23_opcodes_unknown"
   ],
   "note": ""
  },
  {
   "property": "C24",
   "status": "proved",
   "theorems": [
    "C24_compositional"
   ],
   "note": ""
  },
  {
   "property": "C25",
   "status": "proved",
   "theorems": [
    "C25_validation_loses_nothing"
   ],
   "note": ""
  },
  {
   "property": "C26",
   "status": "proved",
   "theorems": [
    "C26_exact_layout",
    "C26_unique"
   ],
   "note": ""
  },
  {
   "property": "C27",
   "status": "proved",
   "theorems": [
    "C27_total"
   ],
   "note": ""
  },
  {
   "property": "C28",
   "status": "proved",
   "theorems": [
    "C28_error_position",
    "C28_exact_error"
   ],
   "note": ""
  },
  {
   "property": "C29",
   "status": "proved",
   "theorems": [
    "C29_memory_model_missing",
    "C29_one_memory_model"
   ],
   "note": ""
  },
  {
   "property": "C30",
   "status": "proved",
   "theorems": [
    "C30_variables_sorted"
   ],
   "note": ""
  },
  {
   "property": "C31",
   "status": "proved",
   "theorems": [
    "C31_blocks_well_formed"
   ],
   "note": ""
  },
  {
   "property": "C32",
   "status": "proved",
   "theorems": [
    "C32_first_definition",
    "C32_function_without_body"
   ],
   "note": ""
  },
  {
   "property": "C33",
   "status": "proved",
   "theorems": [
    "C33_header_irrelevant",
    "C33_only_kinds"
   ],
   "note": ""
  },
  {
   "property": "C34",
   "status": "proved",
   "theorems": [
    "C34_renaming",
    "C34_renaming_exact",
    "C34_ids_checked_refuted"
   ],
   "note": "That ids are unique and targets exist is refuted."
  },
  {
   "property": "C35",
   "status": "proved",
   "theorems": [
    "C35_read_validate_lossless"
   ],
   "note": ""
  },
  {
   "property": "C36",
   "status": "proved",
   "theorems": [
    "C36_same_complete_runs"
   ],
   "note": ""
  },
  {
   "property": "C37",
   "status": "proved",
   "theorems": [
    "C37_same_unfinished_runs",
    "C37_same_infinite_runs"
   ],
   "note": ""
  },
  {
   "property": "C38",
   "status": "proved",
   "theorems": [
    "C38_well_scoped",
    "C38_no_stray_exit"
   ],
   "note": ""
  },
  {
   "property": "C39",
   "status": "proved",
   "theorems": [
    "C39_ids_exist",
    "C39_reachable_named",
    "C39_only_reachable_refuted"
   ],
   "note": "Both directions of the statement are proved; that only reachable blocks are named is refuted."
  },
  {
   "property": "C40",
   "status": "proved",
   "theorems": [
    "C40_entry_first"
   ],
   "note": ""
  },
  {
   "property": "C41",
   "status": "proved",
   "theorems": [
    "C41_hints_and_weights"
   ],
   "note": ""
  },
  {
   "property": "C42",
   "status": "proved",
   "theorems": [
    "C42_flat"
   ],
   "note": ""
  },
  {
   "property": "C43",
   "status": "proved",
   "theorems": [
    "C43_duplicate",
    "C43_no_blocks"
   ],
   "note": ""
  },
  {
   "property": "C44",
   "status": "proved",
   "theorems": [
    "C44_payloads"
   ],
   "note": ""
  },
  {
   "property": "C45",
   "status": "proved",
   "theorems": [
    "C45_panics",
    "C45_entry_panics"
   ],
   "note": ""
  },
  {
   "property": "C46",
   "status": "proved",
   "theorems": [
    "C46_depth_limit",
    "C46_depth_limit_needed",
    "C46_depth_irrelevant",
    "C46_always_terminates_refuted"
   ],
   "note": "The bound and its exactness are proved; termination on every function is refuted."
  },
  {
   "property": "C47",
   "status": "proved",
   "theorems": [
    "C47_forward_returns"
   ],
   "note": ""
  },
  {
   "property": "C48",
   "status": "proved",
   "theorems": [
    "C48_block_order"
   ],
   "note": ""
  },
  {
   "property": "C49",
   "status": "proved",
   "theorems": [
    "C49_code_irrelevant"
   ],
   "note": ""
  },
  {
   "property": "C50",
   "status": "proved",
   "theorems": [
    "C50_exponential"
   ],
   "note": ""
  },
  {
   "property": "C51",
   "status": "proved",
   "theorems": [
    "C51_printer_never_panics"
   ],
   "note": ""
  },
  {
   "property": "C52",
   "status": "proved",
   "theorems": [
    "C52_one_line_per_instruction",
    "C52_text"
   ],
   "note": ""
  },
  {
   "property": "C53",
   "status": "proved",
   "theorems": [
    "C53_columns"
   ],
   "note": ""
  },
  {
   "property": "C54",
   "status": "proved",
   "theorems": [
    "C54_instruction_faithful",
    "C54_module_faithful",
    "C54_accepted_faithful",
    "C54_line_feeds_refuted",
    "C54_unregistered_generator_refuted"
   ],
   "note": "Faithfulness is proved under the stated conditions; without them it is refuted."
  },
  {
   "property": "C55",
   "status": "proved",
   "theorems": [
    "C55_shortest_decimal",
    "C55_distinct"
   ],
   "note": ""
  },
  {
   "property": "C56",
   "status": "proved",
   "theorems": [
    "C56_flags",
    "C56_none",
    "C56_distinct"
   ],
   "note": ""
  },
  {
   "property": "C57",
   "status": "proved",
   "theorems": [
    "C57_nesting"
   ],
   "note": ""
  },
  {
   "property": "C58",
   "status": "proved",
   "theorems": [
    "C58_faithful",
    "C58_steps"
   ],
   "note": ""
  },
  {
   "property": "C59",
   "status": "proved",
   "theorems": [
    "C59_built_in_set",
    "C59_op"
   ],
   "note": ""
  },
  {
   "property": "C60",
   "status": "proved",
   "theorems": [
    "C60_function_printer",
    "C60_text"
   ],
   "note": ""
  },
  {
   "property": "C61",
   "status": "proved",
   "theorems": [
    "C61_unused_errors"
   ],
   "note": ""
  },
  {
   "property": "C62",
   "status": "proved",
   "theorems": [
    "C62_line",
    "C62_accepted"
   ],
   "note": ""
  },
  {
   "property": "C63",
   "status": "proved",
   "theorems": [
    "C63_names",
    "C63_names_with_operands",
    "C63_respelled"
   ],
   "note": ""
  },
  {
   "property": "C64",
   "status": "proved",
   "theorems": [
    "C64_chain_lines",
    "C64_text"
   ],
   "note": ""
  },
  {
   "property": "C65",
   "status": "proved",
   "theorems": [
    "C65_exact_success"
   ],
   "note": ""
  },
  {
   "property": "C66",
   "status": "proved",
   "theorems": [
    "C66_round_trip"
   ],
   "note": ""
  },
  {
   "property": "C67",
   "status": "proved",
   "theorems": [
    "C67_error_texts",
    "C67_messages",
    "C67_error_display"
   ],
   "note": ""
  },
  {
   "property": "C68",
   "status": "proved",
   "theorems": [
    "C68_module",
    "C68_instruction",
    "C68_chain",
    "C68_function",
    "C68_built_in_set",
    "C68_string",
    "C68_buffer"
   ],
   "note": ""
  },
  {
   "property": "C69",
   "status": "proved",
   "theorems": [
    "C69_width_refuted",
    "C69_options_irrelevant",
    "C69_instruction"
   ],
   "note": "Independence is proved for modules, chains, functions and errors; padding of an instruction's line is refuted; the exact effect on an instruction's operands is proved."
  },
  {
   "property": "C70",
   "status": "proved",
   "theorems": [
    "C70_exact_failure",
    "C70_decided"
   ],
   "note": ""
  },
  {
   "property": "C71",
   "status": "proved",
   "theorems": [
    "C71_exact_error",
    "C71_exact_panic",
    "C71_one_trouble"
   ],
   "note": ""
  },
  {
   "property": "C72",
   "status": "proved",
   "theorems": [
    "C72_exact_divergence",
    "C72_classified"
   ],
   "note": ""
  },
  {
   "property": "C73",
   "status": "proved",
   "theorems": [
    "C73_modules",
    "C73_structural",
    "C73_results"
   ],
   "note": ""
  },
  {
   "property": "C74",
   "status": "proved",
   "theorems": [
    "C74_built_in",
    "C74_mixed_modules",
    "C74_equivalence",
    "C74_symmetry_refuted"
   ],
   "note": "That equality is symmetric for every user instruction type is refuted."
  },
  {
   "property": "C75",
   "status": "proved",
   "theorems": [
    "C75_validation",
    "C75_exact",
    "C75_text",
    "C75_control_flow"
   ],
   "note": ""
  },
  {
   "property": "C76",
   "status": "proved",
   "theorems": [
    "C76_line",
    "C76_composite_construct",
    "C76_composite_construct_refuted"
   ],
   "note": "That the constituents of OpCompositeConstruct print as ids is refuted."
  },
  {
   "property": "C77",
   "status": "proved",
   "theorems": [
    "C77_faithful",
    "C77_distinct_from_decoded",
    "C77_writer",
    "C77_equality"
   ],
   "note": ""
  },
  {
   "property": "C78",
   "status": "proved",
   "theorems": [
    "C78_written_in_module",
    "C78_complete_executions",
    "C78_executions_so_far"
   ],
   "note": ""
  },
  {
   "property": "C79",
   "status": "proved",
   "theorems": [
    "C79_end_to_end",
    "C79_program_executes"
   ],
   "note": ""
  },
  {
   "property": "C80",
   "status": "proved",
   "theorems": [
    "C80_exact_depth",
    "C80_depth_is_bounded",
    "C80_depth_grows_with_module"
   ],
   "note": ""
  },
  {
   "property": "C81",
   "status": "proved",
   "theorems": [
    "C81_exact_depth",
    "C81_depth_of_chain",
    "C81_depth_grows_with_function"
   ],
   "note": ""
  },
  {
   "property": "C82",
   "status": "proved",
   "theorems": [
    "C82_counting_is_faithful",
    "C82_exact_calls",
    "C82_calls_of_chain",
    "C82_calls_of_written_function",
    "C82_linear_in_blocks_refuted"
   ],
   "note": "Linear in the size of the chain, and in the blocks of written programs; linear in the blocks of every function is refuted."
  },
  {
   "property": "C83",
   "status": "proved",
   "theorems": [
    "C83_exact_conversation",
    "C83_one_request_per_instruction",
    "C83_no_import_no_call",
    "C83_panics_come_from_sets",
    "C83_answers_decide"
   ],
   "note": ""
  },
  {
   "property": "C84",
   "status": "proved",
   "theorems": [
    "C84_first_of_each_name",
    "C84_order_is_irrelevant",
    "C84_only_imported",
    "C84_more_sets"
   ],
   "note": ""
  },
  {
   "property": "C85",
   "status": "proved",
   "theorems": [
    "C85_numbering_is_irrelevant"
   ],
   "note": ""
  },
  {
   "property": "C86",
   "status": "proved",
   "theorems": [
    "C86_further_blocks",
    "C86_only_named_blocks"
   ],
   "note": ""
  },
  {
   "property": "C87",
   "status": "proved",
   "theorems": [
    "C87_size_is_exact",
    "C87_module_decides_size",
    "C87_no_amplification"
   ],
   "note": ""
  },
  {
   "property": "C88",
   "status": "proved",
   "theorems": [
    "C88_modules",
    "C88_results",
    "C88_glsl",
    "C88_user_text_refuted"
   ],
   "note": ""
  },
  {
   "property": "C89",
   "status": "proved",
   "theorems": [
    "C89_string",
    "C89_string_exact",
    "C89_instruction",
    "C89_instruction_exact",
    "C89_module",
    "C89_logical_module",
    "C89_results"
   ],
   "note": ""
  },
  {
   "property": "C90",
   "status": "proved",
   "theorems": [
    "C90_copied_once_in_order",
    "C90_verdict",
    "C90_accepted",
    "C90_faithful_copies"
   ],
   "note": ""
  },
  {
   "property": "C91",
   "status": "proved",
   "theorems": [
    "C91_equality",
    "C91_text",
    "C91_operands",
    "C91_fields",
    "C91_standard",
    "C91_departures_refuted",
    "C91_more",
    "C91_all_instructions",
    "C91_spec_constant_op_refuted",
    "C91_kernel_types"
   ],
   "note": "That the structs follow the standard is proved except for five instructions, for which it is refuted; that every instruction has a struct is refuted for OpSpecConstantOp."
  },
  {
   "property": "C92",
   "status": "proved",
   "theorems": [
    "C92_lines",
    "C92_names",
    "C92_one_line",
    "C92_exact"
   ],
   "note": ""
  },
  {
   "property": "C93",
   "status": "proved",
   "theorems": [
    "C93_exact",
    "C93_constructs",
    "C93_continue_targets",
    "C93_no_continue",
    "C93_negated",
    "C93_negated_refuted",
    "C93_one_return",
    "C93_early_return_refuted"
   ],
   "note": "The exact relation is proved for written functions; that every function obeying the rules is understood is refuted."
  },
  {
   "property": "C94",
   "status": "proved",
   "theorems": [
    "C94_exact",
    "C94_extended_instructions",
    "C94_returns",
    "C94_operand_readers",
    "C94_generic_readers",
    "C94_instruction_readers",
    "C94_lists",
    "C94_lists_of_small_items"
   ],
   "note": "That a Vec of any item can be read is refuted for items of less than four bytes, and for items that take no words."
  },
  {
   "property": "C95",
   "status": "proved",
   "theorems": [
    "C95_text",
    "C95_plain",
    "C95_names",
    "C95_undone",
    "C95_exact",
    "C95_precision_refuted",
    "C95_fill_refuted"
   ],
   "note": "That different values always show differently is refuted for a precision of zero and for digits as fill characters."
  },
  {
   "property": "C96",
   "status": "proved",
   "theorems": [
    "C96_prints",
    "C96_derived",
    "C96_buffers",
    "C96_panics"
   ],
   "note": ""
  },
  {
   "property": "C97",
   "status": "proved",
   "theorems": [
    "C97_chain",
    "C97_function",
    "C97_function_bound",
    "C97_overflow",
    "C97_function_overflow",
    "C97_overflow_happens",
    "C97_found",
    "C97_size",
    "C97_bound_is_met"
   ],
   "note": ""
  },
  {
   "property": "C98",
   "status": "proved",
   "theorems": [
    "C98_same_result",
    "C98_exact_looks",
    "C98_linear"
   ],
   "note": ""
  },
  {
   "property": "C99",
   "status": "proved",
   "theorems": [
    "C99_text_size",
    "C99_text_size_built_in",
    "C99_factor_is_exact"
   ],
   "note": ""
  },
  {
   "property": "C100",
   "status": "proved",
   "theorems": [
    "C100_text",
    "C100_panics",
    "C100_names",
    "C100_undone",
    "C100_exact"
   ],
   "note": ""
  },
  {
   "property": "C101",
   "status": "proved",
   "theorems": [
    "C101_bound",
    "C101_bound_met",
    "C101_exact",
    "C101_exact_met"
   ],
   "note": ""
  },
  {
   "property": "C102",
   "status": "proved",
   "theorems": [
    "C102_instruction",
    "C102_module",
    "C102_module_stops",
    "C102_function",
    "C102_function_whole",
    "C102_string",
    "C102_buffer"
   ],
   "note": ""
  },
  {
   "property": "C103",
   "status": "proved",
   "theorems": [
    "C103_counting_is_faithful",
    "C103_exact_work",
    "C103_work_of_chain",
    "C103_work_of_written_function",
    "C103_moves_linear_refuted",
    "C103_looks_linear_refuted",
    "C103_work_of_any_function"
   ],
   "note": "Exact work and quadratic bounds are proved; that the moves or the looks are linear in the blocks is refuted."
  },
  {
   "property": "C104",
   "status": "proved",
   "theorems": [
    "C104_stops",
    "C104_hexadecimal",
    "C104_first",
    "C104_whole",
    "C104_buffers"
   ],
   "note": ""
  },
  {
   "property": "C105",
   "status": "proved",
   "theorems": [
    "C105_instruction",
    "C105_raw_module",
    "C105_function",
    "C105_logical_module",
    "C105_faithful_copies"
   ],
   "note": ""
  },
  {
   "property": "C106",
   "status": "proved",
   "theorems": [
    "C106_exact",
    "C106_calls",
    "C106_equal",
    "C106_without_side_effects"
   ],
   "note": ""
  },
  {
   "property": "C107",
   "status": "proved",
   "theorems": [
    "C107_lines",
    "C107_length",
    "C107_bounds_are_met",
    "C107_any_chain",
    "C107_any_chain_met",
    "C107_parts",
    "C107_function"
   ],
   "note": ""
  },
  {
   "property": "C108",
   "status": "proved",
   "theorems": [
    "C108_same_chain",
    "C108_only_visible"
   ],
   "note": ""
  },
  {
   "property": "C109",
   "status": "proved",
   "theorems": [
    "C109_memory",
    "C109_function",
    "C109_loop",
    "C109_selection"
   ],
   "note": ""
  },
  {
   "property": "C110",
   "status": "proved",
   "theorems": [
    "C110_levels_enough",
    "C110_levels_needed",
    "C110_linear_refuted"
   ],
   "note": "The exact bound is proved; that a depth linear in the blocks suffices is refuted."
  },
  {
   "property": "C111",
   "status": "proved",
   "theorems": [
    "C111_not_in_itself",
    "C111_exit_not_in_itself_refuted",
    "C111_nesting",
    "C111_nesting_reached"
   ],
   "note": "Proved for loops and two-armed selections; refuted for conditional exits, as the statement says."
  },
  {
   "property": "C112",
   "status": "proved",
   "theorems": [
    "C112_size",
    "C112_calls",
    "C112_reached"
   ],
   "note": ""
  },
  {
   "property": "C113",
   "status": "proved",
   "theorems": [
    "C113_calls_at_depth",
    "C113_calls_when_returns",
    "C113_error_reached"
   ],
   "note": ""
  },
  {
   "property": "C114",
   "status": "proved",
   "theorems": [
    "C114_returns",
    "C114_calls",
    "C114_depth_needed",
    "C114_unreached_refuted",
    "C114_late_refuted",
    "C114_crossed_refuted"
   ],
   "note": "Proved under the rules of the standard and two more conditions; that the rules alone make the search end is refuted."
  },
  {
   "property": "C115",
   "status": "proved",
   "theorems": [
    "C115_understood",
    "C115_break_refuted"
   ],
   "note": "Proved as an equivalence under the rules of the standard and the two further conditions of C114; that the rules alone suffice is refuted."
  },
  {
   "property": "C116",
   "status": "proved",
   "theorems": [
    "C116_first",
    "C116_merge",
    "C116_other",
    "C116_once",
    "C116_linear",
    "C116_large"
   ],
   "note": "Proved under the rules of the standard and the two further conditions of C114; the growth for a family of every size."
  },
  {
   "property": "C117",
   "status": "proved",
   "theorems": [
    "C117_exact",
    "C117_unique",
    "C117_shared_refuted"
   ],
   "note": "Proved as an equivalence, with uniqueness; that every understood function comes from a program that uses each block once is refuted."
  },
  {
   "property": "C118",
   "status": "proved",
   "theorems": [
    "C118_keys",
    "C118_map",
    "C118_reader",
    "C118_control_flow"
   ],
   "note": "Proved in full for any hash function and any enlarging policy."
  },
  {
   "property": "C119",
   "status": "proved",
   "theorems": [
    "C119_each_once",
    "C119_result",
    "C119_order_refuted"
   ],
   "note": "Proved for every way in which read_module can end, for sets and instructions whose Drop does not panic; that duplicates go in the order of their imports is refuted."
  },
  {
   "property": "C120",
   "status": "proved",
   "theorems": [
    "C120_each_once",
    "C120_result"
   ],
   "note": "Proved for every way in which validate can end, for instructions whose Drop does not panic."
  },
  {
   "property": "C121",
   "status": "proved",
   "theorems": [
    "C121_cut",
    "C121_executions",
    "C121_on_the_way",
    "C121_reached",
    "C121_labels",
    "C121_dominates",
    "C121_obeys",
    "C121_obeys_back",
    "C121_obeys_back_refuted",
    "C121_header_disobeys",
    "C121_file",
    "C121_joined",
    "C121_header_refuted"
   ],
   "note": "Proved for every function and every answer; for the first block of a loop it is refuted."
  },
  {
   "property": "C122",
   "status": "proved",
   "theorems": [
    "C122_inline",
    "C122_executions",
    "C122_unfinished",
    "C122_on_the_way",
    "C122_dominates",
    "C122_labels",
    "C122_reached",
    "C122_again",
    "C122_file",
    "C122_taken_out",
    "C122_header_refuted"
   ],
   "note": "Proved for every function and every answer; for the first block of a loop it is refuted."
  },
  {
   "property": "C123",
   "status": "proved",
   "theorems": [
    "C123_arms",
    "C123_executions",
    "C123_on_the_way",
    "C123_reached",
    "C123_obeys",
    "C123_conditions",
    "C123_file",
    "C123_error_refuted"
   ],
   "note": "Proved for every function that is understood; for the answers to other functions it is refuted."
  },
  {
   "property": "C124",
   "status": "proved",
   "theorems": [
    "C124_text",
    "C124_accepted",
    "C124_any_chain_refuted"
   ],
   "note": "Proved; for chains that were not found for the function it is refuted."
  },
  {
   "property": "C125",
   "status": "proved",
   "theorems": [
    "C125_bits",
    "C125_built_in",
    "C125_any_set_refuted"
   ],
   "note": "Proved; for sets that do not tell their instructions apart it is refuted."
  },
  {
   "property": "C126",
   "status": "proved",
   "theorems": [
    "C126_counting_is_faithful",
    "C126_accepted",
    "C126_any_input",
    "C126_any_number_of_sets_refuted",
    "C126_nine_refuted"
   ],
   "note": "Proved about a copy of the reader that counts its steps and is shown to give the same results; without the number of sets, and with nine steps a word, it is refuted."
  },
  {
   "property": "C127",
   "status": "proved",
   "theorems": [
    "C127_reachable",
    "C127_dominators",
    "C127_post_dominators",
    "C127_header_dominates",
    "C127_any_header_refuted"
   ],
   "note": "Proved, with exact conditions; that the header of any construct in which a block stands dominates it is refuted."
  },
  {
   "property": "C128",
   "status": "proved",
   "theorems": [
    "C128_cut",
    "C128_cut_result",
    "C128_more_functions",
    "C128_no_definition_refuted",
    "C128_complete_refuted"
   ],
   "note": "Proved; that functions can be appended to a module without definitions and become definitions, and that counting instructions suffices for lists that are not the start of an accepted one, is refuted."
  },
  {
   "property": "C129",
   "status": "proved",
   "theorems": [
    "C129_circles",
    "C129_headers",
    "C129_between_headers",
    "C129_reducible",
    "C129_reducible_refuted"
   ],
   "note": "Proved; that every function that is understood is reducible is refuted."
  },
  {
   "property": "C130",
   "status": "proved",
   "theorems": [
    "C130_same_instructions",
    "C130_any_order",
    "C130_neighbours",
    "C130_contents_refuted",
    "C130_every_order_refuted"
   ],
   "note": "Proved; that functions keep their contents and that every order is accepted are refuted."
  },
  {
   "property": "C131",
   "status": "proved",
   "theorems": [
    "C131_longest",
    "C131_shortest",
    "C131_number",
    "C131_infinite"
   ],
   "note": "Proved."
  },
  {
   "property": "C132",
   "status": "proved",
   "theorems": [
    "C132_neighbours",
    "C132_add",
    "C132_remove"
   ],
   "note": "Proved."
  },
  {
   "property": "C133",
   "status": "proved",
   "theorems": [
    "C133_rearranged",
    "C133_remove",
    "C133_swap",
    "C133_selection_refuted"
   ],
   "note": "Proved, with the counterexample that not every selection can be read."
  },
  {
   "property": "C134",
   "status": "proved",
   "theorems": [
    "C134_link",
    "C134_take",
    "C134_link_refuted"
   ],
   "note": "Proved, with the counterexample that files cannot always be put together. Putting together does not rename ids."
  },
  {
   "property": "C135",
   "status": "proved",
   "theorems": [
    "C135_cut",
    "C135_instructions",
    "C135_number"
   ],
   "note": "Proved."
  },
  {
   "property": "C136",
   "status": "proved",
   "theorems": [
    "C136_read",
    "C136_injective",
    "C136_glsl",
    "C136_validate",
    "C136_control_flow",
    "C136_link",
    "C136_undo",
    "C136_numbering_refuted"
   ],
   "note": "Proved, with the counterexample that not every numbering can be read."
  },
  {
   "property": "C137",
   "status": "proved",
   "theorems": [
    "C137_file",
    "C137_control_flow",
    "C137_executions",
    "C137_smallest",
    "C137_again",
    "C137_reachable_refuted"
   ],
   "note": "Proved, with the counterexample that the reachable blocks are not enough."
  },
  {
   "property": "C138",
   "status": "proved",
   "theorems": [
    "C138_unshare",
    "C138_executions",
    "C138_file",
    "C138_unique",
    "C138_size",
    "C138_large"
   ],
   "note": "Proved."
  },
  {
   "property": "C139",
   "status": "proved",
   "theorems": [
    "C139_copies",
    "C139_copies_so_far",
    "C139_pruned",
    "C139_pruned_so_far",
    "C139_cut",
    "C139_renumbered",
    "C139_renumbered_so_far",
    "C139_exchanged",
    "C139_same_control_flow",
    "C139_inlined",
    "C139_inlined_so_far"
   ],
   "note": "Proved."
  }
 ]
}