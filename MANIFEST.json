{
 "claims": [
  {
   "property": "C01",
   "status": "proved",
   "theorems": [
    "c01_dedup_one_copy_each",
    "c01_dedup_hash_independent",
    "c01_same_violation_iff_all_fields"
   ],
   "note": ""
  },
  {
   "property": "C02",
   "status": "proved",
   "theorems": [
    "c02_raw_reports_everything"
   ],
   "note": ""
  },
  {
   "property": "C03",
   "status": "proved",
   "theorems": [
    "c03_dedup_subsequence_of_raw",
    "c03_dedup_counts_at_most_raw",
    "c03_priority_counts_at_most_raw",
    "c03_equal_iff_no_repetition"
   ],
   "note": ""
  },
  {
   "property": "C04",
   "status": "proved",
   "theorems": [
    "c04_priority_count_exact",
    "c04_has_priorityb_meaning",
    "c04_priority_count_null_rule_ub",
    "c04_summary_adds_up_iff_priorities_1_2_3",
    "c04_summary_adds_up_refuted"
   ],
   "note": "Exact counts proved; the expectation that P1+P2+P3 is the total is refuted for rules of another priority (c04_summary_adds_up_refuted)."
  },
  {
   "property": "C05",
   "status": "proved",
   "theorems": [
    "c05_files_with_violations_counts_first_paths",
    "c05_files_with_violations_at_most_files",
    "c05_files_with_violations_zero_iff_none",
    "c05_counts_distinct_files_refuted"
   ],
   "note": "Counts first paths; the reading as number of distinct files is refuted (c05_counts_distinct_files_refuted)."
  },
  {
   "property": "C06",
   "status": "proved",
   "theorems": [
    "c06_repeated_query_same_answer",
    "c06_stale_after_nonempty_answer",
    "c06_empty_answer_recomputed",
    "c06_reflects_all_recorded_refuted"
   ],
   "note": "Stable and stale behaviour proved; completeness after a late recording refuted."
  },
  {
   "property": "C07",
   "status": "proved",
   "theorems": [
    "c07_recorded_iff_path_nonempty",
    "c07_sequence_of_reports"
   ],
   "note": ""
  },
  {
   "property": "C08",
   "status": "proved",
   "theorems": [
    "c08_last_value_wins",
    "c08_default_when_absent",
    "c08_every_key_covered",
    "c08_lookups_safe_and_read_only",
    "c08_history_without_numbers_is_safe"
   ],
   "note": ""
  },
  {
   "property": "C09",
   "status": "proved",
   "theorems": [
    "c09_direct_lookup_undefined_when_cleared",
    "c09_direct_lookup_inserts_empty"
   ],
   "note": "Last-wins lookup proved; see the _refuted theorem for the naive expectation."
  },
  {
   "property": "C10",
   "status": "proved",
   "theorems": [
    "c10_threshold_text_read_as_its_number",
    "c10_text_without_number_means_zero",
    "c10_number_read_is_unique",
    "c10_decimal_roundtrip",
    "c10_out_of_range_undefined"
   ],
   "note": ""
  },
  {
   "property": "C11",
   "status": "proved",
   "theorems": [
    "c11_identifier_letters_capitalised_at_word_starts",
    "c11_identifier_same_letters_up_to_case",
    "c11_identifier_starts_upper",
    "c11_identifier_fixed_point"
   ],
   "note": ""
  },
  {
   "property": "C12",
   "status": "proved",
   "theorems": [
    "c12_index_in_range",
    "c12_number_of_rules",
    "c12_index_too_large_no_rule",
    "c12_negative_index_never_returns"
   ],
   "note": ""
  },
  {
   "property": "C13",
   "status": "proved",
   "theorems": [
    "c13_running_rules_are_the_selected_ones",
    "c13_listed_names_are_the_running_rules"
   ],
   "note": ""
  },
  {
   "property": "C14",
   "status": "proved",
   "theorems": [
    "c14_last_request_wins",
    "c14_never_both",
    "c14_other_names_irrelevant"
   ],
   "note": ""
  },
  {
   "property": "C15",
   "status": "proved",
   "theorems": [
    "c15_disable_only_removes",
    "c15_disable_last_enabled_runs_everything",
    "c15_disable_never_adds_refuted"
   ],
   "note": "Proved unless the rule was the only enabled one; the unrestricted claim is refuted (c15_disable_never_adds_refuted)."
  },
  {
   "property": "C16",
   "status": "proved",
   "theorems": [
    "c16_option_precedence",
    "c16_processing_never_raises",
    "c16_blank_file_says_nothing"
   ],
   "note": ""
  },
  {
   "property": "C17",
   "status": "proved",
   "theorems": [
    "c17_command_line_setting_wins",
    "c17_last_file_setting_wins",
    "c17_default_when_never_set"
   ],
   "note": ""
  },
  {
   "property": "C18",
   "status": "proved",
   "theorems": [
    "c18_command_line_decides",
    "c18_last_file_decides",
    "c18_unnamed_rule_neither"
   ],
   "note": ""
  },
  {
   "property": "C19",
   "status": "proved",
   "theorems": [
    "c19_split_at_last_equals",
    "c19_no_equals_sets_whole"
   ],
   "note": ""
  },
  {
   "property": "C20",
   "status": "proved",
   "theorems": [
    "c20_rule_search_paths"
   ],
   "note": ""
  },
  {
   "property": "C21",
   "status": "proved",
   "theorems": [
    "c21_report_destination",
    "c21_working_path",
    "c21_relative_output_under_cwd_refuted"
   ],
   "note": "Destination proved under the cwd bound of getcwd's 300-byte buffer; beyond it refuted."
  },
  {
   "property": "C22",
   "status": "proved",
   "theorems": [
    "c22_every_other_int_takes_effect",
    "c22_every_nonempty_text_takes_effect",
    "c22_sentinels_indistinguishable_from_absent"
   ],
   "note": "Round trip proved except for the sentinel values, which are refuted."
  },
  {
   "property": "C23",
   "status": "proved",
   "theorems": [
    "c23_exit_code_table",
    "c23_one_code_applies",
    "c23_well_behaved_run_exits"
   ],
   "note": ""
  },
  {
   "property": "C24",
   "status": "proved",
   "theorems": [
    "c24_success_iff",
    "c24_success_report_delivered",
    "c24_success_means_report_on_disk_refuted"
   ],
   "note": "Success iff proved; that success implies a complete report on disk is refuted (c24_success_means_report_on_disk_refuted)."
  },
  {
   "property": "C25",
   "status": "proved",
   "theorems": [
    "c25_raising_limits_keeps_success",
    "c25_exceeding_is_monotone"
   ],
   "note": ""
  },
  {
   "property": "C26",
   "status": "proved",
   "theorems": [
    "c26_all_loaded_or_first_failure",
    "c26_asked_is_a_function"
   ],
   "note": ""
  },
  {
   "property": "C27",
   "status": "proved",
   "theorems": [
    "c27_first_matching_reporter",
    "c27_unreadable_directory"
   ],
   "note": ""
  },
  {
   "property": "C28",
   "status": "proved",
   "theorems": [
    "c28_events_of_every_run",
    "c28_one_report_after_analysis"
   ],
   "note": ""
  },
  {
   "property": "C29",
   "status": "proved",
   "theorems": [
    "c29_every_command_once_in_order",
    "c29_sources_are_independent"
   ],
   "note": ""
  },
  {
   "property": "C30",
   "status": "proved",
   "theorems": [
    "c30_plain_arguments",
    "c30_plain_arguments_defined"
   ],
   "note": ""
  },
  {
   "property": "C31",
   "status": "proved",
   "theorems": [
    "c31_analyzer_arguments",
    "c31_undefined_iff_short",
    "c31_always_defined_refuted"
   ],
   "note": "Exact arguments proved; undefined behaviour for command lines shorter than two (c31_undefined_iff_short)."
  },
  {
   "property": "C32",
   "status": "proved",
   "theorems": [
    "c32_replaces_every_occurrence",
    "c32_no_occurrence_unchanged",
    "c32_empty_placeholder_diverges"
   ],
   "note": ""
  },
  {
   "property": "C33",
   "status": "proved",
   "theorems": [
    "c33_accepted_iff_usable",
    "c33_others_raise",
    "c33_error_names_jobs_refuted"
   ],
   "note": "Proved; that every error names the jobs is refuted (c33_error_names_jobs_refuted)."
  },
  {
   "property": "C34",
   "status": "proved",
   "theorems": [
    "c34_rules_run_on_good_units",
    "c34_completed_analysis_covers_good_units",
    "c34_failed_directory_change_aborts"
   ],
   "note": ""
  },
  {
   "property": "C35",
   "status": "proved",
   "theorems": [
    "c35_modes_agree"
   ],
   "note": ""
  },
  {
   "property": "C36",
   "status": "proved",
   "theorems": [
    "c36_plain_buckets",
    "c36_checker_buckets",
    "c36_static_analyzer_buckets",
    "c36_static_analyzer_run",
    "c36_analyzer_only_adds_bugs_refuted"
   ],
   "note": "The comparison of runs with and without the static analyzer assumes that the plain compilation goes the same under both front-end actions; without that it is refuted."
  },
  {
   "property": "C37",
   "status": "proved",
   "theorems": [
    "c37_one_set_per_unit",
    "c37_analysis_completes",
    "c37_exception_keeps_earlier_units"
   ],
   "note": ""
  },
  {
   "property": "C38",
   "status": "proved",
   "theorems": [
    "c38_lines_complete_and_numbered",
    "c38_lines_unique"
   ],
   "note": ""
  },
  {
   "property": "C39",
   "status": "proved",
   "theorems": [
    "c39_long_lines_exactly"
   ],
   "note": ""
  },
  {
   "property": "C40",
   "status": "proved",
   "theorems": [
    "c40_plain_matches_itself_only",
    "c40_bracketed_matches_by_prefix",
    "c40_comment_between_brackets"
   ],
   "note": ""
  },
  {
   "property": "C41",
   "status": "proved",
   "theorems": [
    "c41_suppression_is_per_rule",
    "c41_named_rule_only",
    "c41_no_rule_no_suppression"
   ],
   "note": ""
  },
  {
   "property": "C42",
   "status": "proved",
   "theorems": [
    "c42_decl_hidden_iff",
    "c42_stmt_hidden_iff",
    "c42_enclosing_is_on_chain",
    "c42_every_enclosing_declaration_hides_refuted"
   ],
   "note": "Exact characterisation proved along declarations and statements; that every enclosing declaration hides is refuted (a constructor initialiser breaks the chain)."
  },
  {
   "property": "C43",
   "status": "proved",
   "theorems": [
    "c43_comment_hides_its_line",
    "c43_recorded_unless_commented",
    "c43_comment_concerns_its_own_file_only_refuted"
   ],
   "note": "Proved; that a comment concerns its own file only is refuted."
  },
  {
   "property": "C44",
   "status": "proved",
   "theorems": [
    "c44_first_asker_decides",
    "c44_right_when_rules_agree",
    "c44_no_leak_between_rules_refuted",
    "c44_own_suppression_honoured_refuted"
   ],
   "note": "Exact answer for every history proved; both leak directions exhibited (_refuted), correctness under agreement proved."
  },
  {
   "property": "C45",
   "status": "proved",
   "theorems": [
    "c45_language_gating",
    "c45_language_unique"
   ],
   "note": ""
  },
  {
   "property": "C46",
   "status": "proved",
   "theorems": [
    "c46_cuda_units",
    "c46_only_main_file"
   ],
   "note": ""
  },
  {
   "property": "C47",
   "status": "proved",
   "theorems": [
    "c47_counts_decision_points",
    "c47_at_least_one",
    "c47_nesting_adds_up",
    "c47_monotone",
    "c47_not_counted"
   ],
   "note": ""
  },
  {
   "property": "C48",
   "status": "proved",
   "theorems": [
    "c48_follows_recurrences",
    "c48_recurrences_define_one_number",
    "c48_straight_line_is_one"
   ],
   "note": ""
  },
  {
   "property": "C49",
   "status": "proved",
   "theorems": [
    "c49_unlabelled_switch_zeroes_block",
    "c49_npath_at_least_one_refuted",
    "c49_positive_when_switches_labelled",
    "c49_overflow_exactly_when_too_large",
    "c49_two_way_statements",
    "c49_overflow_exactly"
   ],
   "note": ""
  },
  {
   "property": "C50",
   "status": "proved",
   "theorems": [
    "c50_counts_each_statement",
    "c50_enumeration_unique",
    "c50_function_count",
    "c50_additive_over_blocks",
    "c50_not_negative",
    "c50_every_substatement_counted_refuted",
    "c50_range_for_counts_one",
    "c50_label_counts_one"
   ],
   "note": ""
  },
  {
   "property": "C51",
   "status": "proved",
   "theorems": [
    "c51_depth_is_maximal_nesting",
    "c51_one_per_block",
    "c51_exactly_one_more",
    "c51_monotone",
    "c51_every_brace_counts_refuted"
   ],
   "note": ""
  },
  {
   "property": "C52",
   "status": "proved",
   "theorems": [
    "c52_strictly_above_limit",
    "c52_parameters_above_limit",
    "c52_size_rules_complete",
    "c52_measure_unique",
    "c52_negative_parameter_limit",
    "c52_negative_parameter_limit_strict_refuted"
   ],
   "note": ""
  },
  {
   "property": "C53",
   "status": "proved",
   "theorems": [
    "c53_every_node_in_order",
    "c53_until_stopped",
    "c53_depth_first",
    "c53_nodes_complete",
    "c53_no_part_forgotten",
    "c53_shape_map_identity",
    "c53_records_every_report",
    "c53_selection_exists"
   ],
   "note": ""
  },
  {
   "property": "C54",
   "status": "proved",
   "theorems": [
    "c54_exactly_empty_bodies",
    "c54_one_body"
   ],
   "note": ""
  },
  {
   "property": "C55",
   "status": "proved",
   "theorems": [
    "c55_exactly_collapsible",
    "c55_merging_preserves_behaviour",
    "c55_inner_declaration_refuted"
   ],
   "note": "Exactness and behaviour preservation proved over a big-step semantics with arbitrary expression meanings; with a declaration in the inner condition refuted (c55_inner_declaration_refuted)."
  },
  {
   "property": "C56",
   "status": "proved",
   "theorems": [
    "c56_reports_first_after_jump",
    "c56_at_most_one_per_block",
    "c56_reported_never_reached",
    "c56_nested_label_refuted"
   ],
   "note": "Soundness over all runs of any body; fails with a nested label (c56_nested_label_refuted)."
  },
  {
   "property": "C57",
   "status": "proved",
   "theorems": [
    "c57_by_first_unterminated_group",
    "c57_groups_exist",
    "c57_groups_unique",
    "c57_all_groups_leave",
    "c57_inner_loop_break_refuted",
    "c57_no_fall_through_refuted"
   ],
   "note": "Exact reports per switch by the first unterminated group; uniqueness of the grouping; two refutations on whether the reports match fall-through in the statement semantics."
  },
  {
   "property": "C58",
   "status": "proved",
   "theorems": [
    "c58_missing_default_exactly",
    "c58_unnecessary_default_exactly",
    "c58_never_both",
    "c58_labels_complete",
    "c58_misplaced_default_exactly",
    "c58_misplaced_unique",
    "c58_default_with_label_refuted"
   ],
   "note": "Relies on the order in which Clang enters labels (case before, default after its sub-statement), stated in the trusted base. The last part has the hypothesis named in the property; default_with_label shows it is needed."
  },
  {
   "property": "C59",
   "status": "proved",
   "theorems": [
    "c59_fewer_than_limit",
    "c59_total",
    "c59_nested_cases_refuted"
   ],
   "note": "Exact, with the nested escape refuting the natural reading."
  },
  {
   "property": "C60",
   "status": "proved",
   "theorems": [
    "c60_exactly_unneeded",
    "c60_one_per_chain",
    "c60_removing_else_preserves",
    "c60_label_refuted"
   ],
   "note": "Addresses of nodes distinct (distinct_nodes). Label hypothesis needed: c60_label_refuted. The rule object's visited set is modelled per unit."
  },
  {
   "property": "C61",
   "status": "proved",
   "theorems": [
    "c61_if_exactly",
    "c61_choice_exactly",
    "c61_if_symmetric",
    "c61_choice_symmetric",
    "c61_if_is_its_condition",
    "c61_choice_is_its_condition",
    "c61_unrelated_refuted",
    "c61_different_numbers_refuted"
   ],
   "note": "Exact and symmetric; findings: unrelated assignments reported (c61_unrelated_refuted), casts of different non-zero numbers count as same constant (c61_different_numbers_refuted)."
  },
  {
   "property": "C62",
   "status": "proved",
   "theorems": [
    "c62_double_negative_exactly",
    "c62_multiple_unary_exactly",
    "c62_double_negative_is_multiple",
    "c62_double_not_is_identity"
   ],
   "note": ""
  },
  {
   "property": "C63",
   "status": "proved",
   "theorems": [
    "c63_exactly_short",
    "c63_outside_heads_reported",
    "c63_heads_not_reported",
    "c63_after_long_name_refuted",
    "c63_stale_stack_refuted"
   ],
   "note": ""
  },
  {
   "property": "C64",
   "status": "proved",
   "theorems": [
    "c64_exactly_long",
    "c64_displayed_unique",
    "c64_displayed_shape",
    "c64_negative_limit_refuted"
   ],
   "note": ""
  },
  {
   "property": "C65",
   "status": "proved",
   "theorems": [
    "c65_broken_exactly",
    "c65_misplaced_exactly",
    "c65_operand_order",
    "c65_use_meets_null"
   ],
   "note": ""
  },
  {
   "property": "C66",
   "status": "proved",
   "theorems": [
    "c66_numbers",
    "c66_xcode_exact",
    "c66_xcode_lossless",
    "c66_line_feed_refuted",
    "c66_text_exact",
    "c66_text_lossless"
   ],
   "note": "Exact texts and read-back proved; a line feed in a message forges an entry (c66_line_feed_refuted)."
  },
  {
   "property": "C67",
   "status": "proved",
   "theorems": [
    "c67_valid_json",
    "c67_one_reading",
    "c67_lossless",
    "c67_quote_refuted",
    "c67_forged_refuted"
   ],
   "note": "Valid and lossless for plain texts; refuted in general (c67_quote_refuted, c67_forged_refuted)."
  },
  {
   "property": "C68",
   "status": "proved",
   "theorems": [
    "c68_one_reading",
    "c68_pmd_valid",
    "c68_pmd_lossless",
    "c68_escape",
    "c68_pmd_path_refuted",
    "c68_xml_valid",
    "c68_xml_lossless",
    "c68_xml_malformed_refuted"
   ],
   "note": "Valid and lossless for plain texts; refuted in general (c68_pmd_path_refuted, c68_xml_malformed_refuted)."
  },
  {
   "property": "C69",
   "status": "proved",
   "theorems": [
    "c69_date",
    "c69_right_date_refuted"
   ],
   "note": "The month shown is one too small; that the date is right is refuted for every moment."
  },
  {
   "property": "C70",
   "status": "proved",
   "theorems": [
    "c70_words",
    "c70_one_base_name",
    "c70_exactly_unused",
    "c70_pointer_refuted"
   ],
   "note": ""
  },
  {
   "property": "C71",
   "status": "proved",
   "theorems": [
    "c71_exactly_envied",
    "c71_order_irrelevant",
    "c71_own_class_never",
    "c71_super_refuted"
   ],
   "note": "The hash table's enumeration order is a parameter, any permutation. Finding (c71_super_refuted): messages to super do not count as messages to self. The rule is in the sources but its build is commented out."
  },
  {
   "property": "C72",
   "status": "proved",
   "theorems": [
    "c72_exactly_unsafe_bases"
   ],
   "note": "Membership of reports; a base reached on several ways is reported several times."
  },
  {
   "property": "C73",
   "status": "proved",
   "theorems": [
    "c73_documentation",
    "c73_reproducible",
    "c73_no_rules",
    "c73_index_category_refuted",
    "c73_success_means_written_refuted"
   ],
   "note": "std::sort is a parameter with its standard specification (sorted permutation). Paths name files through a parameter; refuted for a category named index and for unwritable directories. Option parsing of the generator is not modelled."
  },
  {
   "property": "C74",
   "status": "proved",
   "theorems": [
    "c74_bitwise_condition_exactly"
   ],
   "note": ""
  },
  {
   "property": "C75",
   "status": "proved",
   "theorems": [
    "c75_oddness_check_exactly",
    "c75_symmetric",
    "c75_check_wrong_for_negatives"
   ],
   "note": ""
  },
  {
   "property": "C76",
   "status": "proved",
   "theorems": [
    "c76_for_as_while_exactly",
    "c76_while_behaves_alike"
   ],
   "note": ""
  },
  {
   "property": "C77",
   "status": "proved",
   "theorems": [
    "c77_jumbled_exactly"
   ],
   "note": ""
  },
  {
   "property": "C78",
   "status": "proved",
   "theorems": [
    "c78_returns_in_finally",
    "c78_throws_in_finally",
    "c78_reported_once_refuted"
   ],
   "note": "Exact; that a return is reported once is refuted for nested finally blocks."
  },
  {
   "property": "C79",
   "status": "proved",
   "theorems": [
    "c79_constant_condition_exactly",
    "c79_goto_exactly"
   ],
   "note": ""
  },
  {
   "property": "C80",
   "status": "proved",
   "theorems": [
    "c80_labels_of_each_switch",
    "c80_nested_reported_twice_refuted"
   ],
   "note": ""
  },
  {
   "property": "C81",
   "status": "proved",
   "theorems": [
    "c81_exactly_negated_two_way",
    "c81_swapping_if_preserves",
    "c81_swapping_choice_preserves",
    "c81_swapping_unequal_preserves"
   ],
   "note": "For != the hypothesis is that == gives the opposite truth value with the same effects."
  },
  {
   "property": "C82",
   "status": "proved",
   "theorems": [
    "c82_exactly_early_exits",
    "c82_one_per_construct",
    "c82_early_continue_preserves",
    "c82_early_jump_preserves"
   ],
   "note": "Semantics: SpecExec; condition variables are excluded (IfStmt with empty pre)."
  },
  {
   "property": "C83",
   "status": "proved",
   "theorems": [
    "c83_exactly_last_in_loop",
    "c83_last_continue_is_idle"
   ],
   "note": ""
  },
  {
   "property": "C84",
   "status": "proved",
   "theorems": [
    "c84_assignments_to_parameter_names",
    "c84_shadowing_refuted"
   ],
   "note": ""
  },
  {
   "property": "C85",
   "status": "proved",
   "theorems": [
    "c85_polymorphic_without_virtual_destructor"
   ],
   "note": ""
  },
  {
   "property": "C86",
   "status": "proved",
   "theorems": [
    "c86_assigned_outside_accessors",
    "c86_only_methods"
   ],
   "note": ""
  },
  {
   "property": "C87",
   "status": "proved",
   "theorems": [
    "c87_exactly_two_way_ifs"
   ],
   "note": ""
  },
  {
   "property": "C88",
   "status": "proved",
   "theorems": [
    "c88_exactly_redundant",
    "c88_same_name_refuted"
   ],
   "note": "Exact; names, not declarations, are compared (c88_same_name_refuted)."
  },
  {
   "property": "C89",
   "status": "proved",
   "theorems": [
    "c89_exactly_useless",
    "c89_removing_preserves"
   ],
   "note": "Initial values of variables are outside the statement semantics, so preservation covers if and return."
  },
  {
   "property": "C90",
   "status": "proved",
   "theorems": [
    "c90_exactly_guarded",
    "c90_operand_order",
    "c90_dropping_check_preserves"
   ],
   "note": "Clang's structural comparison of expressions is a parameter."
  },
  {
   "property": "C91",
   "status": "proved",
   "theorems": [
    "c91_exactly_redundant",
    "c91_dropping_check_preserves",
    "c91_needed_check_refuted"
   ],
   "note": "Finding: a needed check is reported too (c91_needed_check_refuted)."
  },
  {
   "property": "C92",
   "status": "proved",
   "theorems": [
    "c92_exactly_parameters",
    "c92_not_both",
    "c92_in_class_body_never",
    "c92_in_class_body_refuted"
   ],
   "note": ""
  },
  {
   "property": "C93",
   "status": "proved",
   "theorems": [
    "c93_html_exact",
    "c93_html_lossless",
    "c93_markup_refuted"
   ],
   "note": "Exact and lossless without '<'; refuted with markup in messages."
  },
  {
   "property": "C94",
   "status": "proved",
   "theorems": [
    "c94_timestamp",
    "c94_after_2038_refuted",
    "c94_reported_time"
   ],
   "note": "Right within 32 bits; refuted from 2^31 on."
  },
  {
   "property": "C95",
   "status": "proved",
   "theorems": [
    "c95_without_rule",
    "c95_with_rules"
   ],
   "note": ""
  },
  {
   "property": "C96",
   "status": "proved",
   "theorems": [
    "c96_errors_left_out"
   ],
   "note": ""
  },
  {
   "property": "C97",
   "status": "proved",
   "theorems": [
    "c97_exit_code_and_report"
   ],
   "note": ""
  },
  {
   "property": "C98",
   "status": "proved",
   "theorems": [
    "c98_exactly_virtual_defaults"
   ],
   "note": ""
  },
  {
   "property": "C99",
   "status": "proved",
   "theorems": [
    "c99_exactly_private_static"
   ],
   "note": ""
  },
  {
   "property": "C100",
   "status": "proved",
   "theorems": [
    "c100_exactly_missing_hash",
    "c100_category_refuted"
   ],
   "note": "Finding (c100_category_refuted): category implementations are not checked."
  },
  {
   "property": "C101",
   "status": "proved",
   "theorems": [
    "c101_exactly_forgotten",
    "c101_class_method_refuted",
    "c101_declaration_refuted"
   ],
   "note": "Findings: class methods are reported although they call super (c101_class_method_refuted); redeclarations in interfaces are reported although they have no body (c101_declaration_refuted)."
  },
  {
   "property": "C102",
   "status": "proved",
   "theorems": [
    "c102_exactly_prohibited",
    "c102_one_message",
    "c102_where_marks_are",
    "c102_not_a_suppression"
   ],
   "note": ""
  },
  {
   "property": "C103",
   "status": "proved",
   "theorems": [
    "c103_defined",
    "c103_reports",
    "c103_protocol_refuted",
    "c103_own_method_refuted",
    "c103_function_refuted"
   ],
   "note": "Findings: null pointer read for protected protocol methods (c103_protocol_refuted); a class calling its own protected method through a subclass pointer is reported (c103_own_method_refuted); C functions are never checked (c103_function_refuted)."
  },
  {
   "property": "C104",
   "status": "proved",
   "theorems": [
    "c104_exactly_unimplemented"
   ],
   "note": "Only the direct superclass is looked at, so abstract methods of a grandparent are not enforced; the tree model carries the direct superclass's methods only, so this is visible in the statement rather than a refutation."
  },
  {
   "property": "C105",
   "status": "proved",
   "theorems": [
    "c105_exactly_boxable",
    "c105_exactly_number_literals",
    "c105_exactly_container_literals",
    "c105_exactly_subscripts",
    "c105_mutable_read_refuted"
   ],
   "note": "Finding (c105_mutable_read_refuted): reading from an NSMutableArray or NSMutableDictionary variable is not reported."
  },
  {
   "property": "C106",
   "status": "proved",
   "theorems": [
    "c106_at_most_one"
   ],
   "note": ""
  },
  {
   "property": "C107",
   "status": "proved",
   "theorems": [
    "c107_documented_annotation_hides",
    "c107_only_if_enabled"
   ],
   "note": "Uses the annotation model of C40-C42."
  },
  {
   "property": "C108",
   "status": "proved",
   "theorems": [
    "c108_names_are_unambiguous",
    "c108_enable_runs_that_rule_alone",
    "c108_disable_stops_that_rule_alone",
    "c108_annotation_hides_that_rule_alone",
    "c108_every_rule_is_shipped_refuted"
   ],
   "note": "The table of rules is extracted from the sources by tools/ruletable.py. Finding (c108_every_rule_is_shipped_refuted): FeatureEnvy is commented out of its CMakeLists.txt, so 72 of the 73 rules are shipped."
  },
  {
   "property": "C109",
   "status": "proved",
   "theorems": [
    "c109_links_are_right",
    "c109_pages_separate"
   ],
   "note": "Table extracted by tools/ruletable.py; description texts are arbitrary."
  },
  {
   "property": "C110",
   "status": "proved",
   "theorems": [
    "c110_documented_thresholds_are_used",
    "c110_keys_are_not_shared",
    "c110_every_key_documented_refuted"
   ],
   "note": "Finding: MAXIMUM_IF_LENGTH, RAII_DEFAULT_CLASSES and RAII_CUSTOM_CLASSES are undocumented."
  },
  {
   "property": "C111",
   "status": "proved",
   "theorems": [
    "c111_priorities",
    "c111_divergence_fails_the_run_refuted"
   ],
   "note": "The statement holds for all shipped rules but branch divergence; the exception and its effect are proved."
  },
  {
   "property": "C112",
   "status": "proved",
   "theorems": [
    "c112_each_rule_on_its_own",
    "c112_completes",
    "c112_reused_memory_refuted",
    "c112_same_file_twice_refuted"
   ],
   "note": "Finding (c112_reused_memory_refuted): by default each unit is freed before the next is parsed; if a later unit is allocated at the addresses of an earlier one, the stack kept by the short-variable-name rule loses a violation. Hypothesis separate: distinct addresses; met in global analysis, where all units are alive together."
  },
  {
   "property": "C113",
   "status": "proved",
   "theorems": [
    "c113_findings_exactly",
    "c113_long_lines",
    "c113_size_rules"
   ],
   "note": "c113_findings_exactly refers to the characterisations C48-C106 for what each rule finds; c113_size_rules and c113_long_lines spell them out."
  },
  {
   "property": "C114",
   "status": "proved",
   "theorems": [
    "c114_success_iff_silent",
    "c114_silent_iff_no_open_finding",
    "c114_success_leaves_nothing_open",
    "c114_success_bounds_sizes",
    "c114_success_excludes_pattern",
    "c114_success_means_no_goto",
    "c114_success_bounds_lines"
   ],
   "note": "Branch divergence has priority 10 (C111) and does not count."
  },
  {
   "property": "C115",
   "status": "proved",
   "theorems": [
    "c115_rows_are_the_shipped_rules",
    "c115_other_rules_and_files_do_not_matter",
    "c115_order_of_files"
   ],
   "note": "Consequence of C112."
  },
  {
   "property": "C116",
   "status": "proved",
   "theorems": [
    "c116_one_rule_per_name",
    "c116_catalogue_complete",
    "c116_named_rule",
    "c116_completes",
    "c116_unnecessary_else",
    "c116_short_variable_name",
    "c116_base_class_destructor",
    "c116_long_line",
    "c116_success_leaves_nothing_open"
   ],
   "note": "SpecCatalogue.v lists the descriptions by name; c116_catalogue_complete: all rules but four, which have theorems of their own. Limits: where a characterisation has a hypothesis (negative limits, labels on default, names near INT_MAX bytes) it appears in the entry."
  },
  {
   "property": "C117",
   "status": "proved",
   "theorems": [
    "c117_own_settings_only",
    "c117_foreign_key",
    "c117_another_rules_key",
    "c117_default_spelled_out",
    "c117_runs_agree"
   ],
   "note": "same_settings compares the texts in force for the keys in sh_reads. LONG_LINE etc. are read once per call, as in the code."
  },
  {
   "property": "C118",
   "status": "proved",
   "theorems": [
    "c118_text_in_force",
    "c118_number_in_force",
    "c118_limit_by_name",
    "c118_limit_of_line",
    "c118_limit_of_short_name",
    "c118_green_run_respects_limits"
   ],
   "note": "given (SpecSettings.v) is the precedence in words. Hypotheses: -rc arguments no longer than INT_MAX bytes; the number fits an int (otherwise atoi is undefined, C10). c118_limit_by_name covers the twelve rules of the catalogue with a limit, two more have theorems of their own."
  },
  {
   "property": "C119",
   "status": "proved",
   "theorems": [
    "c119_examined",
    "c119_silent_in_other_languages",
    "c119_looks_in_its_languages",
    "c119_kernel_rule_outside_cuda",
    "c119_every_language_is_covered_refuted",
    "c119_cxx_rules_skip_objcxx"
   ],
   "note": "SpecLanguages.v holds the lists by public name, independent of the extracted table. long line reads the text of the main file whatever its language (c116_long_line does not mention the language)."
  },
  {
   "property": "C120",
   "status": "proved",
   "theorems": [
    "c120_comment_hides_its_line",
    "c120_comment_on_long_line"
   ],
   "note": "same_code: same trees, language, locations and answers about expressions. In a fresh process (alone); C112 carries it to whole runs."
  },
  {
   "property": "C121",
   "status": "proved",
   "theorems": [
    "c121_others_unaffected",
    "c121_hides_its_rule_inside",
    "c121_hides_all_inside"
   ],
   "note": "The long-line rule is excepted: it asks about lines, see C44 (where a leak between rules is refuted). 'Below' is the chain of first parents (C42): one_more_above says the annotated declaration is met on it."
  },
  {
   "property": "C122",
   "status": "proved",
   "theorems": [
    "c122_document_says",
    "c122_order_irrelevant",
    "c122_other_keys_harmless",
    "c122_options_in_force",
    "c122_rules_in_force",
    "c122_threshold_in_force",
    "c122_plain_decimal",
    "c122_leading_zero_refuted"
   ],
   "note": "ModelConfigFile models the field table and LLVM's YAMLTraits reader on an arbitrary document tree; the YAML scanner (text to tree) is the external parameter parse."
  },
  {
   "property": "C123",
   "status": "proved",
   "theorems": [
    "c123_wrong_value",
    "c123_own_key",
    "c123_key_twice",
    "c123_no_mapping",
    "c123_right_or_wrong",
    "c123_run_goes_on",
    "c123_costs_only_itself_refuted"
   ],
   "note": {
    "note": "wrong_under and the documented shapes cover every value (c123_right_or_wrong); c123_costs_only_itself_refuted is a finding."
   }
  },
  {
   "property": "C124",
   "status": "proved",
   "theorems": [
    "c124_right_while_memory_lives",
    "c124_defined_without_texts",
    "c124_text_undefined",
    "c124_reading_is_defined_refuted"
   ],
   "note": "Finding: processing any configuration file with a non-empty text is undefined behaviour (c124_reading_is_defined_refuted). The other option theorems describe the behaviour with the memory intact (c124_right_while_memory_lives)."
  },
  {
   "property": "C125",
   "status": "proved",
   "theorems": [
    "c125_log_changes_nothing",
    "c125_log_tells_the_story",
    "c125_completed",
    "c125_last_line_names_the_culprit"
   ],
   "note": "c_str of file names: names without NUL assumed, as on every file system."
  },
  {
   "property": "C126",
   "status": "proved",
   "theorems": [
    "c126_quiet_output_is_the_report",
    "c126_verbose_output",
    "c126_report_in_a_file",
    "c126_log_spoils_json",
    "c126_verbose_json_refuted"
   ],
   "note": "The interleaving is arbitrary except in c126_log_spoils_json, which treats log first and report first; the debug stream of assertion builds is not modelled."
  },
  {
   "property": "C127",
   "status": "proved",
   "theorems": [
    "c127_messages",
    "c127_every_violation_has_a_rule",
    "c127_json_report",
    "c127_xml_report",
    "c127_pmd_report",
    "c127_xcode_reads_back",
    "c127_json_output",
    "c127_json_refuted",
    "c127_xml_refuted"
   ],
   "note": "Messages of all 72 rules, run-level well-formedness of JSON, XML, PMD, read-back of Xcode. Found: quotes in annotations break JSON, operator< breaks XML."
  },
  {
   "property": "C128",
   "status": "proved",
   "theorems": [
    "c128_defaults_fit",
    "c128_oversized_setting",
    "c128_too_many_paths",
    "c128_protocol_method",
    "c128_names",
    "c128_rule_completes_iff",
    "c128_run_completes_iff",
    "c128_run_completes",
    "c128_program_exits",
    "c128_modest_code"
   ],
   "note": "Exact: each rule completes iff nothing trips it, from any state; run-level equivalences; exit codes with the shipped reporters."
  },
  {
   "property": "C129",
   "status": "proved",
   "theorems": [
    "c129_recognised",
    "c129_hides_its_line",
    "c129_hides_at_least_as_much",
    "c129_same_everywhere_refuted",
    "c129_otherwise_alike",
    "c129_can_be_rewritten"
   ],
   "note": "The regular expression engine is modelled for patterns of characters and stars and proved correct for all of them; translate_nocase of the classic locale is trusted."
  },
  {
   "property": "C130",
   "status": "proved",
   "theorems": [
    "c130_comment_takes_out_its_line",
    "c130_annotation_takes_out_its_rule",
    "c130_comment_keeps_success",
    "c130_annotation_keeps_success"
   ],
   "note": "Composes C112 with C120/C121: the collections of two runs differ in one bucket, and that bucket is related to the former one by exactly the hidden violations; the limits are then respected by monotonicity of the counts in both duplicate modes. For the long-line rule the comment variant needs its threshold setting to be readable; the annotation variant excludes that rule, which has no syntax tree nodes (C38/C113 describe it)."
  },
  {
   "property": "C131",
   "status": "proved",
   "theorems": [
    "c131_rules_that_run",
    "c131_disabled_rule_reports_nothing",
    "c131_only_enabled_rules_report",
    "c131_setting_given",
    "c131_verdict",
    "c131_report",
    "c131_green_project",
    "c131_enabling_restricts_refuted"
   ],
   "note": "Composes C122 (document to options), C18, C13, C118, C24, C28 and C114 on whole runs of the program with the 72 rules. Texts of the file are taken as read while its memory lives; C124 records that the code reads them later. Found: a file that disables exactly the rules it enables runs all the others."
  },
  {
   "property": "C132",
   "status": "proved",
   "theorems": [
    "c132_click_sorts",
    "c132_click_unique",
    "c132_second_click",
    "c132_report_sorts",
    "c132_lines_in_order_refuted"
   ],
   "note": ""
  },
  {
   "property": "C133",
   "status": "proved",
   "theorems": [
    "c133_identifier_is_the_class",
    "c133_names_differ",
    "c133_lower_case",
    "c133_suppressed_by_its_name",
    "c133_first_letter_refuted",
    "c133_digit_refuted"
   ],
   "note": ""
  },
  {
   "property": "C134",
   "status": "proved",
   "theorems": [
    "c134_visit_functions",
    "c134_every_node_refuted",
    "c134_rule",
    "c134_again",
    "c134_reporter_refused",
    "c134_reporter"
   ],
   "note": "The values put into holes contain no braces (sensible); directories and failing writes are not modelled. Found: a rule scaffolded again overwrites the edited file and is built twice."
  },
  {
   "property": "C135",
   "status": "proved",
   "theorems": [
    "c135_report_of_single_findings",
    "c135_listed_iff_found",
    "c135_text_report",
    "c135_json_output",
    "c135_less_work_still_succeeds",
    "c135_order_does_not_matter",
    "c135_order_permutes_the_list",
    "c135_groups_of_files",
    "c135_halves"
   ],
   "note": "Files whose syntax trees share memory are excluded (separate; C112 refutes the statement for them), and runs stopped by compile errors (exit 6) are compared only in what they list."
  },
  {
   "property": "C136",
   "status": "proved",
   "theorems": [
    "c136_looks_beside_itself",
    "c136_default_rules",
    "c136_complete_installation_loads",
    "c136_link_to_the_program_refuted",
    "c136_empty_entry_of_PATH_refuted"
   ],
   "note": "PATH has no empty entries (refuted otherwise); file permissions other than the executable bit, case-insensitive file systems and limits on the number of links followed are not modelled; LLVM's path functions are modelled for POSIX paths, a leading // being a plain root."
  },
  {
   "property": "C137",
   "status": "proved",
   "theorems": [
    "c137_machine",
    "c137_nothing_else_changes",
    "c137_bundle_is_complete_and_fresh",
    "c137_archive_holds_the_bundle",
    "c137_built_is_what_runs",
    "c137_plain_checkout_is_ready",
    "c137_no_second_archive",
    "c137_archive_again_refuted",
    "c137_relative_llvm_refuted",
    "c137_whole_licence_refuted"
   ],
   "note": "Hypothesis ready: absolute root and LLVM paths, no source lies behind what is replaced (c137_plain_checkout_is_ready gives plain sufficient conditions). Times and owners of files are not modelled; a dangling link in a copied tree makes the real script fail where the model leaves the entry out; replacing an empty directory by rename counts as failure; the tar format is the parameter e_pack; git and uname are parameters."
  },
  {
   "property": "C138",
   "status": "proved",
   "theorems": [
    "c138_configure",
    "c138_configure_tests",
    "c138_configure_check",
    "c138_one_reading",
    "c138_needed_first",
    "c138_blank_refuted"
   ],
   "note": "words as the shell reads them; c138_blank_refuted: a path with a blank"
  },
  {
   "property": "C139",
   "status": "proved",
   "theorems": [
    "c139_green_run",
    "c139_stops_at_failure",
    "c139_reset",
    "c139_code",
    "c139_history_is_true",
    "c139_tested",
    "c139_checked",
    "c139_release_tests_nothing",
    "c139_elsewhere_refuted"
   ],
   "note": "refinement of the nested scripts to a flat plan for every outcome of every program; c139_elsewhere_refuted and c139_release_tests_nothing state the limits"
  },
  {
   "property": "C140",
   "status": "proved",
   "theorems": [
    "c140_never_fewer_than_courses",
    "c140_counts_courses",
    "c140_count_is_unique",
    "c140_decisions_identify_course",
    "c140_alternatives_refuted",
    "c140_negation_refuted",
    "c140_fall_through_refuted",
    "c140_range_for_refuted",
    "c140_for_counts_one_more",
    "c140_early_return_refuted"
   ],
   "note": ""
  },
  {
   "property": "C141",
   "status": "proved",
   "theorems": [
    "c141_jump_from_finally_hides_exception",
    "c141_outcome_is_that_of_finally",
    "c141_empty_block_does_nothing",
    "c141_empty_if_only_tests",
    "c141_empty_else_can_go",
    "c141_empty_switch_selects_nothing",
    "c141_empty_try_needs_no_handlers",
    "c141_empty_catch_swallows",
    "c141_empty_finally_can_go",
    "c141_empty_while_never_ends",
    "c141_constant_if_takes_one_branch",
    "c141_constant_conditional_yields_one_operand",
    "c141_closing_break_runs_once",
    "c141_continue_before_break_refuted"
   ],
   "note": ""
  },
  {
   "property": "C142",
   "status": "proved",
   "theorems": [
    "c142_following_advice_keeps_behaviour",
    "c142_local_changes_suffice"
   ],
   "note": "Runs that end; side conditions on labels stand in the constructors of stmt_advice."
  },
  {
   "property": "C143",
   "status": "proved",
   "theorems": [
    "c143_cyclomatic_number",
    "c143_is_mccabes_number",
    "c143_graphs_exist",
    "c143_one_number",
    "c143_at_most_npath",
    "c143_at_most_courses",
    "c143_endless_for_refuted",
    "c143_range_for_refuted",
    "c143_shared_labels_refuted"
   ],
   "note": "Statements listed in SpecFlowGraph; deviations (endless and range-based for) are part of the statement and refuted variants are proved."
  },
  {
   "property": "C144",
   "status": "proved",
   "theorems": [
    "c144_no_library_is_lost",
    "c144_others_untouched",
    "c144_finished",
    "c144_every_library_is_converted",
    "c144_nothing_to_convert",
    "c144_downloads",
    "c144_code",
    "c144_ordinary_libraries",
    "c144_duplicate_members_refuted",
    "c144_other_members_refuted",
    "c144_intel_mac_refuted"
   ],
   "note": "Model of oclint-scripts/clang with every external command and system call a parameter; moments are the states of the installation directory from the unpacking on. rmtree and tar are one step each; a member name ending in .native is excluded from the exact description of a conversion. Refutations: duplicate member names, members not named *.o, Intel Macs."
  },
  {
   "property": "C145",
   "status": "proved",
   "theorems": [
    "c145_build",
    "c145_test",
    "c145_dogfooding",
    "c145_google_test",
    "c145_refused",
    "c145_one_reading",
    "c145_make",
    "c145_make_refused",
    "c145_docgen",
    "c145_system_llvm",
    "c145_system_llvm_usage",
    "c145_system_llvm_jobs",
    "c145_gh_build",
    "c145_gh_docgen",
    "c145_gh_test",
    "c145_matrix",
    "c145_release",
    "c145_docs_needed_first",
    "c145_headers_refuted"
   ],
   "note": "Words without characters special to the shell in paths; abbreviated options, -- and -use-llvm-clang are left out. c145_headers_refuted: -llvm-root does not reach the headers used by the tests of the rules."
  },
  {
   "property": "C146",
   "status": "proved",
   "theorems": [
    "c146_rules",
    "c146_again_refuted",
    "c146_two_categories_refuted",
    "c146_class_name_refuted",
    "c146_blank_refuted",
    "c146_tests"
   ],
   "note": "The subset of CMake the build files use is interpreted (ModelCMake), OCLintConfig.cmake included (ModelCMakeConfig). Parameters: what find_package(LLVM) sets (it must leave seven variables alone), the names of LLVM libraries, regular expressions and find_program. Classes must be new, and neither OCLintAbstract nor CACHE; categories need no quoting: each restriction is needed (refuted without). c146_tests is the build with TEST_BUILD. Reporters are left out."
  },
  {
   "property": "C147",
   "status": "proved",
   "theorems": [
    "c147_flags",
    "c147_rpath",
    "c147_always",
    "c147_llvm_root",
    "c147_user_flags_refuted"
   ],
   "note": "OCLintConfig.cmake is interpreted as text (ModelCMakeConfig). Parameters: which files exist, LLVMConfig.cmake (assumed to leave the variables in question alone), find_program, regular expressions. Include and link directories, definitions and messages are not kept."
  },
  {
   "property": "C148",
   "status": "proved",
   "theorems": [
    "c148_answers",
    "c148_reporters",
    "c148_tests"
   ],
   "note": "Unlike rules (C146), no class name and no repetition has to be excluded, because scaffoldReporter refuses what is there. The texts of the build files and templates are those of /repo (tools/cmaketexts.py)."
  },
  {
   "property": "C149",
   "status": "proved",
   "theorems": [
    "c149_core",
    "c149_metrics",
    "c149_driver"
   ],
   "note": "The texts of the build files and the names of the sources are those of /repo (tools/cmaketexts.py). LLVM's own configuration is assumed to leave the variables named in machine and leaves alone."
  },
  {
   "property": "C150",
   "status": "proved",
   "theorems": [
    "c150_rules",
    "c150_reporters",
    "c150_program",
    "c150_rules_run"
   ],
   "note": "The compilers and the linker are a parameter (image); that make puts each target into the directory its properties or EXECUTABLE_OUTPUT_PATH name, and nothing else there, is the hypothesis made. The bundle of the documentation generator has no reporters, so c150_reporters excludes -docgen."
  }
 ]
}