{
 "claims": [
  {
   "property": "C01",
   "status": "proved",
   "theorems": [
    "C01_round_trip",
    "C01_parsed_stacks_are_readable",
    "C01_parsed_round_trip",
    "C01_round_trip_of_empty_name_refuted",
    "C01_round_trip_of_bracket_refuted",
    "C01_round_trip_of_negative_index_refuted",
    "C01_round_trip_of_all_stacks_refuted",
    "C01_domain_is_maximal"
   ],
   "note": ""
  },
  {
   "property": "C02",
   "status": "proved",
   "theorems": [
    "C02_same_path_iff",
    "C02_reprinting",
    "C02_explicit_indices_do_not_matter",
    "C02_path_identifies_any_stack_refuted"
   ],
   "note": ""
  },
  {
   "property": "C03",
   "status": "proved",
   "theorems": [
    "C03_sub_stack_is_prefix",
    "C03_sub_stack_partial_order"
   ],
   "note": ""
  },
  {
   "property": "C04",
   "status": "proved",
   "theorems": [
    "C04_sub_location_is_prefix"
   ],
   "note": ""
  },
  {
   "property": "C05",
   "status": "proved",
   "theorems": [
    "C05_common_ancestor",
    "C05_common_ancestor_pseudo"
   ],
   "note": ""
  },
  {
   "property": "C06",
   "status": "proved",
   "theorems": [
    "C06_distance",
    "C06_distance_zero"
   ],
   "note": ""
  },
  {
   "property": "C07",
   "status": "proved",
   "theorems": [
    "C07_flattened_is_preorder"
   ],
   "note": ""
  },
  {
   "property": "C08",
   "status": "proved",
   "theorems": [
    "C08_is_hierarchically_below"
   ],
   "note": ""
  },
  {
   "property": "C09",
   "status": "proved",
   "theorems": [
    "C09_sg_is_hierarchically_below",
    "C09_strict_partial_order",
    "C09_order_needs_distinct_keys_refuted"
   ],
   "note": ""
  },
  {
   "property": "C10",
   "status": "proved",
   "theorems": [
    "C10_pseudo_location",
    "C10_common_ancestor_from_hierarchy"
   ],
   "note": ""
  },
  {
   "property": "C11",
   "status": "proved",
   "theorems": [
    "C11_unknown_keys",
    "C11_unknown_key_is_value_error_refuted"
   ],
   "note": ""
  },
  {
   "property": "C12",
   "status": "proved",
   "theorems": [
    "C12_next_segment",
    "C12_next_value_pool_entry",
    "C12_next_is_unique"
   ],
   "note": ""
  },
  {
   "property": "C13",
   "status": "proved",
   "theorems": [
    "C13_changes_line_by_line",
    "C13_locations_line_by_line"
   ],
   "note": ""
  },
  {
   "property": "C14",
   "status": "proved",
   "theorems": [
    "C14_location_of_its_line",
    "C14_last_layer",
    "C14_last_layer_refuted"
   ],
   "note": ""
  },
  {
   "property": "C15",
   "status": "proved",
   "theorems": [
    "C15_layers_follow_the_hierarchy"
   ],
   "note": ""
  },
  {
   "property": "C16",
   "status": "proved",
   "theorems": [
    "C16_reported_changes",
    "C16_line_below_a_key",
    "C16_neighbour_with_same_key",
    "C16_last_opening_exists",
    "C16_never_not_implemented"
   ],
   "note": ""
  },
  {
   "property": "C17",
   "status": "proved",
   "theorems": [
    "C17_returns_iff_acceptable",
    "C17_skipping_a_level_refuted"
   ],
   "note": ""
  },
  {
   "property": "C18",
   "status": "proved",
   "theorems": [
    "C18_layers_of_neighbouring_lines"
   ],
   "note": ""
  },
  {
   "property": "C19",
   "status": "proved",
   "theorems": [
    "C19_segment_groups"
   ],
   "note": ""
  },
  {
   "property": "C20",
   "status": "proved",
   "theorems": [
    "C20_sorting"
   ],
   "note": ""
  },
  {
   "property": "C21",
   "status": "proved",
   "theorems": [
    "C21_sorting_never_raises"
   ],
   "note": ""
  },
  {
   "property": "C22",
   "status": "proved",
   "theorems": [
    "C22_acceptance",
    "C22_chunks_are_unique",
    "C22_documented_rule_suffices",
    "C22_documented_rule_is_enforced_refuted"
   ],
   "note": ""
  },
  {
   "property": "C23",
   "status": "proved",
   "theorems": [
    "C23_group_key",
    "C23_segment_code",
    "C23_data_element",
    "C23_absent",
    "C23_no_trailing_newline_refuted"
   ],
   "note": ""
  },
  {
   "property": "C24",
   "status": "proved",
   "theorems": [
    "C24_holds_any_information"
   ],
   "note": ""
  },
  {
   "property": "C25",
   "status": "proved",
   "theorems": [
    "C25_discriminator_depends_on",
    "C25_discriminator_determines",
    "C25_discriminator_is_unique_refuted"
   ],
   "note": ""
  },
  {
   "property": "C26",
   "status": "proved",
   "theorems": [
    "C26_sound_and_complete",
    "C26_order",
    "C26_order_is_unique",
    "C26_results_are_distinct_refuted"
   ],
   "note": ""
  },
  {
   "property": "C27",
   "status": "proved",
   "theorems": [
    "C27_exactly",
    "C27_complete",
    "C27_sound",
    "C27_results_are_in_matching_groups_refuted",
    "C27_each_segment_once_refuted",
    "C27_order",
    "C27_segment_group",
    "C27_order_is_unique"
   ],
   "note": ""
  },
  {
   "property": "C28",
   "status": "proved",
   "theorems": [
    "C28_one_pool_per_discriminator",
    "C28_all_pools_if_discriminators_are_unique",
    "C28_all_pools_refuted",
    "C28_segment",
    "C28_segment_group",
    "C28_first_of_each_discriminator"
   ],
   "note": ""
  },
  {
   "property": "C29",
   "status": "proved",
   "theorems": [
    "C29_expressions",
    "C29_ascending",
    "C29_each_once"
   ],
   "note": ""
  },
  {
   "property": "C30",
   "status": "proved",
   "theorems": [
    "C30_inputs_replaced"
   ],
   "note": ""
  },
  {
   "property": "C31",
   "status": "proved",
   "theorems": [
    "C31_all_reset_nothing_else_changed",
    "C31_every_group_and_segment",
    "C31_twice",
    "C31_single_group",
    "C31_single_segment"
   ],
   "note": ""
  },
  {
   "property": "C32",
   "status": "proved",
   "theorems": [
    "C32_substitution",
    "C32_swap"
   ],
   "note": ""
  },
  {
   "property": "C33",
   "status": "proved",
   "theorems": [
    "C33_any_pool",
    "C33_raises_iff",
    "C33_all_entries_are_renamed_refuted",
    "C33_atomic_refuted"
   ],
   "note": ""
  },
  {
   "property": "C34",
   "status": "proved",
   "theorems": [
    "C34_accepted_qualifiers",
    "C34_entry_has_the_arguments",
    "C34_rejected_with_a_value_error",
    "C34_any_text_may_follow",
    "C34_acceptance_means_one_word_refuted"
   ],
   "note": ""
  },
  {
   "property": "C35",
   "status": "proved",
   "theorems": [
    "C35_list",
    "C35_iterator",
    "C35_iterator_like_list_refuted",
    "C35_iterator_true"
   ],
   "note": ""
  },
  {
   "property": "C36",
   "status": "proved",
   "theorems": [
    "C36_different_data_elements",
    "C36_value_pool",
    "C36_free_text",
    "C36_data_type",
    "C36_merged_lines"
   ],
   "note": ""
  },
  {
   "property": "C37",
   "status": "proved",
   "theorems": [
    "C37_group_discriminators_are_unique"
   ],
   "note": ""
  },
  {
   "property": "C38",
   "status": "proved",
   "theorems": [
    "C38_nothing_is_lost",
    "C38_counts"
   ],
   "note": ""
  },
  {
   "property": "C39",
   "status": "proved",
   "theorems": [
    "C39_meta_is_stamped"
   ],
   "note": ""
  },
  {
   "property": "C40",
   "status": "proved",
   "theorems": [
    "C40_segments_go_to_the_latest_group",
    "C40_root_segments_stay_in_the_root_refuted",
    "C40_runs_and_parts_are_determined"
   ],
   "note": ""
  },
  {
   "property": "C41",
   "status": "proved",
   "theorems": [
    "C41_nesting_mirrors_the_layers"
   ],
   "note": ""
  },
  {
   "property": "C42",
   "status": "proved",
   "theorems": [
    "C42_failing_lookups_do_not_abort",
    "C42_unknown_places",
    "C42_first_lookup_may_fail_refuted"
   ],
   "note": ""
  },
  {
   "property": "C43",
   "status": "proved",
   "theorems": [
    "C43_round_trip"
   ],
   "note": ""
  },
  {
   "property": "C44",
   "status": "proved",
   "theorems": [
    "C44_round_trip",
    "C44_valid_iff_constructible"
   ],
   "note": ""
  },
  {
   "property": "C45",
   "status": "proved",
   "theorems": [
    "C45_round_trip",
    "C45_incomplete_ahbs_are_rejected",
    "C45_every_valid_ahb_can_be_read_back_refuted",
    "C45_entered_input_is_written"
   ],
   "note": ""
  },
  {
   "property": "C46",
   "status": "proved",
   "theorems": [
    "C46_exceptions",
    "C46_hierarchy",
    "C46_line",
    "C46_meta",
    "C46_flat_ahb",
    "C46_value_pool_entry",
    "C46_data_element",
    "C46_segment",
    "C46_segment_group",
    "C46_deep_ahb",
    "C46_loaded_objects_are_valid",
    "C46_segment_keys",
    "C46_first_error_of_a_line",
    "C46_first_error_of_a_group"
   ],
   "note": ""
  },
  {
   "property": "C47",
   "status": "proved",
   "theorems": [
    "C47_round_trip",
    "C47_what_comes_back",
    "C47_writable",
    "C47_single_layer",
    "C47_every_location_survives_refuted",
    "C47_list_round_trip",
    "C47_empty_list_refuted",
    "C47_layout_is_irrelevant",
    "C47_written_form"
   ],
   "note": ""
  },
  {
   "property": "C48",
   "status": "proved",
   "theorems": [
    "C48_merging",
    "C48_other_rows_kept",
    "C48_headings_at_the_end_are_dropped",
    "C48_success",
    "C48_exceptions",
    "C48_idempotent_refuted"
   ],
   "note": ""
  },
  {
   "property": "C49",
   "status": "proved",
   "theorems": [
    "C49_entries",
    "C49_separation",
    "C49_order_is_irrelevant",
    "C49_entry_is_an_entry_refuted"
   ],
   "note": ""
  },
  {
   "property": "C50",
   "status": "proved",
   "theorems": [
    "C50_lines",
    "C50_ascending",
    "C50_readable_files",
    "C50_exceptions",
    "C50_to_flat_ahb",
    "C50_to_flat_ahb_success",
    "C50_blank_expression_refuted"
   ],
   "note": ""
  },
  {
   "property": "C51",
   "status": "proved",
   "theorems": [
    "C51_conditions",
    "C51_listing",
    "C51_reader"
   ],
   "note": ""
  },
  {
   "property": "C52",
   "status": "proved",
   "theorems": [
    "C52_expression_column",
    "C52_no_expression_column"
   ],
   "note": ""
  },
  {
   "property": "C53",
   "status": "proved",
   "theorems": [
    "C53_references",
    "C53_no_separator",
    "C53_some",
    "C53_none",
    "C53_exceptions",
    "C53_no_separator_refuted"
   ],
   "note": ""
  },
  {
   "property": "C54",
   "status": "proved",
   "theorems": [
    "C54_returns",
    "C54_unique",
    "C54_raises",
    "C54_value_error",
    "C54_no_slash",
    "C54_no_layers",
    "C54_path",
    "C54_several_slashes_refuted",
    "C54_group"
   ],
   "note": ""
  },
  {
   "property": "C55",
   "status": "proved",
   "theorems": [
    "C55_levels",
    "C55_succeeds",
    "C55_shape",
    "C55_stack_of_a_location",
    "C55_inherited_name_refuted"
   ],
   "note": ""
  },
  {
   "property": "C56",
   "status": "proved",
   "theorems": [
    "C56_idempotent",
    "C56_clean",
    "C56_case",
    "C56_letters",
    "C56_similar",
    "C56_equivalence",
    "C56_separators",
    "C56_separators_refuted"
   ],
   "note": ""
  },
  {
   "property": "C57",
   "status": "proved",
   "theorems": [
    "C57_names_only",
    "C57_idempotent",
    "C57_positions",
    "C57_stacks"
   ],
   "note": ""
  },
  {
   "property": "C58",
   "status": "proved",
   "theorems": [
    "C58_gas",
    "C58_electricity",
    "C58_not_gas",
    "C58_not_electricity",
    "C58_division",
    "C58_both",
    "C58_exclusive_refuted"
   ],
   "note": ""
  },
  {
   "property": "C59",
   "status": "proved",
   "theorems": [
    "C59_boilerplate"
   ],
   "note": ""
  },
  {
   "property": "C60",
   "status": "proved",
   "theorems": [
    "C60_exact",
    "C60_consistent",
    "C60_default",
    "C60_wrong_format",
    "C60_malformed",
    "C60_none"
   ],
   "note": ""
  },
  {
   "property": "C61",
   "status": "proved",
   "theorems": [
    "C61_none_iff_missing",
    "C61_found",
    "C61_raises",
    "C61_stored_ahbs_are_found",
    "C61_text_files_none_iff_missing",
    "C61_text_files_found",
    "C61_text_files_raise"
   ],
   "note": ""
  },
  {
   "property": "C62",
   "status": "proved",
   "theorems": [
    "C62_aborts",
    "C62_check_never_writes",
    "C62_only_the_output_file_changes",
    "C62_nothing_written_without_result",
    "C62_written",
    "C62_not_opened",
    "C62_options_are_checked",
    "C62_otherwise_main_runs"
   ],
   "note": ""
  },
  {
   "property": "C63",
   "status": "proved",
   "theorems": [
    "C63_check",
    "C63_different",
    "C63_written_files_pass_the_check"
   ],
   "note": ""
  },
  {
   "property": "C64",
   "status": "proved",
   "theorems": [
    "C64_mapping",
    "C64_exceptions",
    "C64_same_for_all_schedules",
    "C64_data_left_modified"
   ],
   "note": ""
  },
  {
   "property": "C65",
   "status": "proved",
   "theorems": [
    "C65_all_get_the_value_of_the_last",
    "C65_every_converter_refuted"
   ],
   "note": ""
  },
  {
   "property": "C66",
   "status": "proved",
   "theorems": [
    "C66_keys",
    "C66_no_mapping",
    "C66_progress",
    "C66_every_schedule_ends",
    "C66_a_result_can_be_reached"
   ],
   "note": ""
  },
  {
   "property": "C67",
   "status": "proved",
   "theorems": [
    "C67_at_every_moment",
    "C67_result",
    "C67_same_for_all_schedules",
    "C67_same_in_the_end",
    "C67_all_relevant_pools",
    "C67_progress",
    "C67_every_schedule_ends"
   ],
   "note": ""
  },
  {
   "property": "C68",
   "status": "proved",
   "theorems": [
    "C68_opening_segment_line_border"
   ],
   "note": ""
  },
  {
   "property": "C69",
   "status": "proved",
   "theorems": [
    "C69_group_key",
    "C69_ahb_name"
   ],
   "note": ""
  },
  {
   "property": "C70",
   "status": "proved",
   "theorems": [
    "C70_generated_ahbs_are_valid",
    "C70_complete_iff_all_segments_have_section_names"
   ],
   "note": ""
  },
  {
   "property": "C71",
   "status": "proved",
   "theorems": [
    "C71_loading_ignores_the_order_of_keys",
    "C71_sorting",
    "C71_dumped_keys_are_unique",
    "C71_sorted_ahbs_are_read_back"
   ],
   "note": ""
  },
  {
   "property": "C72",
   "status": "proved",
   "theorems": [
    "C72_accepted_texts",
    "C72_rejected_texts",
    "C72_unambiguous",
    "C72_written_texts_are_read_back",
    "C72_written_texts_are_canonical",
    "C72_layout"
   ],
   "note": ""
  },
  {
   "property": "C73",
   "status": "proved",
   "theorems": [
    "C73_decoding",
    "C73_encoding",
    "C73_encoding_errors",
    "C73_line_ends",
    "C73_line_ends_do_not_matter",
    "C73_read_files",
    "C73_unreadable_files",
    "C73_written_files_are_read_back",
    "C73_writing_fails_for_surrogates_only",
    "C73_literals"
   ],
   "note": ""
  },
  {
   "property": "C74",
   "status": "proved",
   "theorems": [
    "C74_output",
    "C74_surrogates",
    "C74_written_files_are_found",
    "C74_written_files_pass_the_check",
    "C74_files_identify_ahbs",
    "C74_failed_runs_keep_the_output_file_refuted",
    "C74_output_layout"
   ],
   "note": ""
  },
  {
   "property": "C75",
   "status": "proved",
   "theorems": [
    "C75_integers",
    "C75_other_texts",
    "C75_one_integer",
    "C75_printed_integers",
    "C75_uuids",
    "C75_other_uuids",
    "C75_printed_uuids"
   ],
   "note": ""
  },
  {
   "property": "C76",
   "status": "proved",
   "theorems": [
    "C76_expressions",
    "C76_value_pool_entries",
    "C76_segments",
    "C76_lines"
   ],
   "note": ""
  },
  {
   "property": "C77",
   "status": "proved",
   "theorems": [
    "C77_rows",
    "C77_rows_before_the_error",
    "C77_every_text_is_a_table",
    "C77_round_trip",
    "C77_columns",
    "C77_files",
    "C77_too_long_cells",
    "C77_exceptions",
    "C77_accepted_files",
    "C77_byte_order_mark_refuted",
    "C77_missing_quotes",
    "C77_missing_quote_refuted"
   ],
   "note": ""
  },
  {
   "property": "C78",
   "status": "proved",
   "theorems": [
    "C78_strings",
    "C78_files",
    "C78_unreadable_strings",
    "C78_unreadable_files",
    "C78_other_arguments",
    "C78_reading_again",
    "C78_whitespace",
    "C78_line_by_line",
    "C78_whitespace_is_ignored_refuted",
    "C78_obvious_errors_refuted",
    "C78_byte_order_mark_refuted",
    "C78_backtracking"
   ],
   "note": ""
  },
  {
   "property": "C79",
   "status": "proved",
   "theorems": [
    "C79_nothing_to_check",
    "C79_only_the_last_name",
    "C79_there_is_a_last_name",
    "C79_passed_iff",
    "C79_youngest_refuted"
   ],
   "note": ""
  },
  {
   "property": "C80",
   "status": "proved",
   "theorems": [
    "C80_structure_and_validity_are_kept",
    "C80_can_always_be_stored",
    "C80_expressions_are_kept",
    "C80_transforming_is_a_history"
   ],
   "note": ""
  },
  {
   "property": "C81",
   "status": "proved",
   "theorems": [
    "C81_accepted",
    "C81_one_reading",
    "C81_rejected",
    "C81_text_is_read_as_its_element",
    "C81_what_can_be_read",
    "C81_errors",
    "C81_written",
    "C81_element_or_text",
    "C81_locations_as_text",
    "C81_round_trip",
    "C81_list_round_trip"
   ],
   "note": ""
  },
  {
   "property": "C82",
   "status": "proved",
   "theorems": [
    "C82_location",
    "C82_locations",
    "C82_one_location",
    "C82_errors",
    "C82_text"
   ],
   "note": ""
  },
  {
   "property": "C83",
   "status": "proved",
   "theorems": [
    "C83_from_text",
    "C83_from_file",
    "C83_layout",
    "C83_arguments",
    "C83_check"
   ],
   "note": ""
  },
  {
   "property": "C84",
   "status": "proved",
   "theorems": [
    "C84_output",
    "C84_check",
    "C84_provider",
    "C84_again"
   ],
   "note": ""
  },
  {
   "property": "C85",
   "status": "proved",
   "theorems": [
    "C85_through_files",
    "C85_csv_ahbs_are_valid",
    "C85_section_names",
    "C85_checked",
    "C85_without_heading_refuted"
   ],
   "note": ""
  },
  {
   "property": "C86",
   "status": "proved",
   "theorems": [
    "C86_converts_iff",
    "C86_depths",
    "C86_first_group"
   ],
   "note": ""
  },
  {
   "property": "C87",
   "status": "proved",
   "theorems": [
    "C87_complete_description"
   ],
   "note": ""
  },
  {
   "property": "C88",
   "status": "proved",
   "theorems": [
    "C88_published_text",
    "C88_conforming_documents",
    "C88_written_documents_never_conform",
    "C88_no_data_elements"
   ],
   "note": ""
  },
  {
   "property": "C89",
   "status": "proved",
   "theorems": [
    "C89_locations_exactly",
    "C89_layer_is_unique",
    "C89_shared_outer_layers"
   ],
   "note": ""
  },
  {
   "property": "C90",
   "status": "proved",
   "theorems": [
    "C90_first_bad_line",
    "C90_location_exceptions",
    "C90_conversion_exceptions",
    "C90_no_index_error"
   ],
   "note": ""
  },
  {
   "property": "C91",
   "status": "proved",
   "theorems": [
    "C91_finished_runs",
    "C91_runs_can_be_completed",
    "C91_interrupted_runs",
    "C91_half_written_files_are_noticed",
    "C91_interrupted_runs_can_be_repeated",
    "C91_old_or_new_output_refuted"
   ],
   "note": ""
  },
  {
   "property": "C92",
   "status": "proved",
   "theorems": [
    "C92_outcomes",
    "C92_files_at_any_time",
    "C92_as_if_one_after_the_other",
    "C92_runs_can_be_completed",
    "C92_different_ahbs_for_the_same_file_refuted",
    "C92_checks_while_writing_refuted"
   ],
   "note": ""
  },
  {
   "property": "C93",
   "status": "proved",
   "theorems": [
    "C93_elements_are_kept",
    "C93_no_group_is_left",
    "C93_nothing_to_unpack",
    "C93_only_child",
    "C93_group_behind_an_element",
    "C93_group_in_front",
    "C93_description",
    "C93_place_of_the_group_refuted",
    "C93_group_in_a_group_refuted"
   ],
   "note": ""
  },
  {
   "property": "C94",
   "status": "proved",
   "theorems": [
    "C94_exactly",
    "C94_fixed_answers",
    "C94_can_be_repeated",
    "C94_all_or_nothing_refuted"
   ],
   "note": ""
  },
  {
   "property": "C95",
   "status": "proved",
   "theorems": [
    "C95_groups",
    "C95_segments",
    "C95_groups_fixed_answers",
    "C95_segments_fixed_answers",
    "C95_one_question_per_group_refuted"
   ],
   "note": ""
  },
  {
   "property": "C96",
   "status": "proved",
   "theorems": [
    "C96_merger",
    "C96_fixed_answers",
    "C96_all_or_nothing_refuted"
   ],
   "note": ""
  },
  {
   "property": "C97",
   "status": "proved",
   "theorems": [
    "C97_lines",
    "C97_deep_ahbs",
    "C97_parts_of_deep_ahbs",
    "C97_locations",
    "C97_stack_levels"
   ],
   "note": ""
  },
  {
   "property": "C98",
   "status": "proved",
   "theorems": [
    "C98_segment_codes",
    "C98_group_keys",
    "C98_data_elements",
    "C98_boilerplate",
    "C98_information",
    "C98_numbers",
    "C98_one_digit",
    "C98_xml_texts",
    "C98_single_characters",
    "C98_case_of_letters",
    "C98_vocabulary",
    "C98_literals",
    "C98_ascii",
    "C98_case_of_umlauts"
   ],
   "note": ""
  }
 ]
}