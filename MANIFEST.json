{
 "claims": [
  {
   "property": "C01",
   "status": "proved",
   "theorems": [
    "C01_standard_decides_layout",
    "C01_layout_render",
    "C01_standard_equivalence",
    "C01_standard_ignores_whitespace"
   ],
   "note": ""
  },
  {
   "property": "C02",
   "status": "proved",
   "theorems": [
    "C02_standard_memory_safe"
   ],
   "note": ""
  },
  {
   "property": "C03",
   "status": "proved",
   "theorems": [
    "C03_identical"
   ],
   "note": ""
  },
  {
   "property": "C04",
   "status": "proved",
   "theorems": [
    "C04_sorted_lines",
    "C04_sorted_whitespace",
    "C04_unordered",
    "C04_sorted_bad_mode"
   ],
   "note": ""
  },
  {
   "property": "C05",
   "status": "proved",
   "theorems": [
    "C05_easy"
   ],
   "note": ""
  },
  {
   "property": "C06",
   "status": "proved",
   "theorems": [
    "C06_rstripped"
   ],
   "note": ""
  },
  {
   "property": "C07",
   "status": "proved",
   "theorems": [
    "C07_linecount",
    "C07_agree_count_functional"
   ],
   "note": ""
  },
  {
   "property": "C08",
   "status": "proved",
   "theorems": [
    "C08_floats_token_rule",
    "C08_floats_modes",
    "C08_floats_accepts_judge_answer",
    "C08_floats_nan_rejected",
    "C08_named_checkers",
    "C08_infinite_self_refuted"
   ],
   "note": "Self-acceptance holds for finite judge numbers; for infinities it is refuted (C08_infinite_self_refuted). float() parsing is an arbitrary oracle."
  },
  {
   "property": "C09",
   "status": "proved",
   "theorems": [
    "C09_relative_overflow_refuted",
    "C09_default_infinite_judge_refuted",
    "C09_absolute_tolerance",
    "C09_relative_tolerance",
    "C09_default_tolerance"
   ],
   "note": "Stated over Flocq binary64; relative mode overflow and infinite judge answers in default mode are refuted corner cases."
  },
  {
   "property": "C10",
   "status": "proved",
   "theorems": [
    "C10_points_bounded",
    "C10_default_exit_codes",
    "C10_testlib_exit_codes",
    "C10_testlib_partial_points",
    "C10_coci_other_codes",
    "C10_coci_partial_points"
   ],
   "note": "Double rounding in coci is an arbitrary monotone rounding that is exact on 0, 1 and the point value."
  },
  {
   "property": "C11",
   "status": "partial",
   "theorems": [
    "C11_peg_bounded_refuted",
    "C11_peg_bounded_partial",
    "C11_peg_exit_codes"
   ],
   "note": "The full statement is false (C11_peg_bounded_refuted); bounds proved when the claimed ratio is at most 1."
  },
  {
   "property": "C12",
   "status": "proved",
   "theorems": [
    "C12_readable_codes",
    "C12_main_code"
   ],
   "note": ""
  },
  {
   "property": "C13",
   "status": "proved",
   "theorems": [
    "C13_accepted_iff",
    "C13_clean_points",
    "C13_failed_run_zero",
    "C13_failed_run_checker_irrelevant",
    "C13_always_graded",
    "C13_interactive",
    "C13_bridged",
    "C13_bridged_internal_error",
    "C13_not_started",
    "C13_run_on_error_points_refuted",
    "C13_checker_feedback"
   ],
   "note": "The stronger reading fails of the code as written: C13_run_on_error_points_refuted; the statement says what holds."
  },
  {
   "property": "C14",
   "status": "proved",
   "theorems": [
    "C14_flags_exact",
    "C14_time_limit_exact"
   ],
   "note": ""
  },
  {
   "property": "C15",
   "status": "proved",
   "theorems": [
    "C15_numbering",
    "C15_transcript",
    "C15_reaches_end",
    "C15_batches_consecutive_refuted"
   ],
   "note": "The stronger reading fails of the code as written: C15_batches_consecutive_refuted; the statement says what holds."
  },
  {
   "property": "C16",
   "status": "proved",
   "theorems": [
    "C16_skipping"
   ],
   "note": ""
  },
  {
   "property": "C17",
   "status": "proved",
   "theorems": [
    "C17_stream"
   ],
   "note": ""
  },
  {
   "property": "C18",
   "status": "proved",
   "theorems": [
    "C18_abort_stops",
    "C18_aborted_only_if_requested",
    "C18_any_time_refuted"
   ],
   "note": "The stronger reading fails of the code as written: C18_any_time_refuted; the statement says what holds."
  },
  {
   "property": "C19",
   "status": "proved",
   "theorems": [
    "C19_always_prefix",
    "C19_all_delivered",
    "C19_can_finish"
   ],
   "note": ""
  },
  {
   "property": "C20",
   "status": "proved",
   "theorems": [
    "C20_round_trip",
    "C20_written",
    "C20_cut",
    "C20_no_interleaving"
   ],
   "note": ""
  },
  {
   "property": "C21",
   "status": "proved",
   "theorems": [
    "C21_delays",
    "C21_waits_bounded",
    "C21_gives_up_iff",
    "C21_grows"
   ],
   "note": ""
  },
  {
   "property": "C22",
   "status": "proved",
   "theorems": [
    "C22_dispatch",
    "C22_grading",
    "C22_raises",
    "C22_odd_name",
    "C22_idle_query_refuted"
   ],
   "note": "The stronger reading fails of the code as written: C22_idle_query_refuted; the statement says what holds."
  },
  {
   "property": "C23",
   "status": "proved",
   "theorems": [
    "C23_one_at_a_time",
    "C23_requests_never_fail",
    "C23_no_deadlock",
    "C23_no_deadlock_refuted"
   ],
   "note": "The stronger reading fails of the code as written: C23_no_deadlock_refuted; the statement says what holds."
  },
  {
   "property": "C24",
   "status": "proved",
   "theorems": [
    "C24_update_sent",
    "C24_never_forgotten",
    "C24_sent_lists_are_real",
    "C24_no_more_than_asked",
    "C24_update_sent_refuted"
   ],
   "note": "The stronger reading fails of the code as written: C24_update_sent_refuted; the statement says what holds."
  },
  {
   "property": "C25",
   "status": "proved",
   "theorems": [
    "C25_output_exact",
    "C25_input_prefix",
    "C25_input_complete",
    "C25_bounded",
    "C25_progress"
   ],
   "note": ""
  },
  {
   "property": "C26",
   "status": "proved",
   "theorems": [
    "C26_only_if_exceeded",
    "C26_exceeding_never_returns",
    "C26_within_never_raises",
    "C26_wrong_error_only_if",
    "C26_limit_error_refuted",
    "C26_default_limits"
   ],
   "note": "The stronger reading fails of the code as written: C26_limit_error_refuted; the statement says what holds."
  },
  {
   "property": "C27",
   "status": "proved",
   "theorems": [
    "C27_lines",
    "C27_lines_exist",
    "C27_no_carriage_return",
    "C27_ends_in_newline",
    "C27_idempotent",
    "C27_unchanged",
    "C27_binary"
   ],
   "note": ""
  },
  {
   "property": "C28",
   "status": "proved",
   "theorems": [
    "C28_matched",
    "C28_order_is_total",
    "C28_accepted_iff",
    "C28_duplicates_refuted",
    "C28_single_case_in_batch_refuted",
    "C28_batch_zero_refuted"
   ],
   "note": "The stronger reading fails of the code as written: C28_duplicates_refuted, C28_single_case_in_batch_refuted, C28_batch_zero_refuted; the statement says what holds."
  },
  {
   "property": "C29",
   "status": "proved",
   "theorems": [
    "C29_nearest",
    "C29_absent",
    "C29_attribute_refuted"
   ],
   "note": "The stronger reading fails of the code as written: C29_attribute_refuted; the statement says what holds."
  },
  {
   "property": "C30",
   "status": "proved",
   "theorems": [
    "C30_configured",
    "C30_absent",
    "C30_false_refuted"
   ],
   "note": "The stronger reading fails of the code as written: C30_false_refuted; the statement says what holds."
  },
  {
   "property": "C31",
   "status": "proved",
   "theorems": [
    "C31_once",
    "C31_same_later",
    "C31_same_later_refuted"
   ],
   "note": "The stronger reading fails of the code as written: C31_same_later_refuted; the statement says what holds."
  },
  {
   "property": "C32",
   "status": "proved",
   "theorems": [
    "C32_precedence"
   ],
   "note": ""
  },
  {
   "property": "C33",
   "status": "proved",
   "theorems": [
    "C33_same_file",
    "C33_canonical",
    "C33_symlink_refuted"
   ],
   "note": "The stronger reading fails of the code as written: C33_symlink_refuted; the statement says what holds."
  },
  {
   "property": "C34",
   "status": "proved",
   "theorems": [
    "C34_allowed_iff",
    "C34_denied",
    "C34_no_rules",
    "C34_no_write_rules",
    "C34_write_flags",
    "C34_history",
    "C34_never"
   ],
   "note": ""
  },
  {
   "property": "C35",
   "status": "proved",
   "theorems": [
    "C35_reads",
    "C35_writes",
    "C35_hidden",
    "C35_other_process",
    "C35_decimal"
   ],
   "note": ""
  },
  {
   "property": "C36",
   "status": "proved",
   "theorems": [
    "C36_descriptor",
    "C36_cwd",
    "C36_fd",
    "C36_absolute"
   ],
   "note": ""
  },
  {
   "property": "C37",
   "status": "proved",
   "theorems": [
    "C37_total",
    "C37_named",
    "C37_unmentioned",
    "C37_default_deny",
    "C37_arm",
    "C37_negative_refuted",
    "C37_whitelist",
    "C37_whitelist_agrees",
    "C37_base",
    "C37_sees",
    "C37_int80_refuted"
   ],
   "note": "The stronger reading fails of the code as written: C37_negative_refuted, C37_int80_refuted; the statement says what holds."
  },
  {
   "property": "C38",
   "status": "proved",
   "theorems": [
    "C38_seccomp",
    "C38_resumes_own",
    "C38_ptrace",
    "C38_ptrace_result",
    "C38_ptrace_clone_refuted",
    "C38_ptrace_result_refuted",
    "C38_end",
    "C38_other_end",
    "C38_unreadable"
   ],
   "note": "The stronger reading fails of the code as written: C38_ptrace_clone_refuted, C38_ptrace_result_refuted; the statement says what holds."
  },
  {
   "property": "C39",
   "status": "proved",
   "theorems": [
    "C39_signals",
    "C39_prlimit",
    "C39_prctl"
   ],
   "note": ""
  },
  {
   "property": "C40",
   "status": "proved",
   "theorems": [
    "C40_total",
    "C40_grows",
    "C40_add",
    "C40_sub",
    "C40_wall_running",
    "C40_wall_finished",
    "C40_exec_below_wall",
    "C40_seconds_monotone"
   ],
   "note": ""
  },
  {
   "property": "C41",
   "status": "proved",
   "theorems": [
    "C41_cases",
    "C41_string",
    "C41_too_long",
    "C41_unreadable",
    "C41_in_bounds",
    "C41_pages_in_bounds",
    "C41_words_in_bounds",
    "C41_one_page",
    "C41_any_limit",
    "C41_words_string",
    "C41_null",
    "C41_32_bits",
    "C41_gives_up",
    "C41_fallback_refuted",
    "C41_big_pages_refuted"
   ],
   "note": "The stronger reading fails of the code as written: C41_fallback_refuted, C41_big_pages_refuted; the statement says what holds."
  },
  {
   "property": "C42",
   "status": "proved",
   "theorems": [
    "C42_closefrom",
    "C42_brute",
    "C42_names",
    "C42_other_names",
    "C42_listing_error_refuted"
   ],
   "note": "The stronger reading fails of the code as written: C42_listing_error_refuted; the statement says what holds."
  },
  {
   "property": "C43",
   "status": "proved",
   "theorems": [
    "C43_bounded",
    "C43_least_recently_used",
    "C43_returned",
    "C43_failure_not_cached"
   ],
   "note": ""
  },
  {
   "property": "C44",
   "status": "proved",
   "theorems": [
    "C44_own",
    "C44_from_cache",
    "C44_from_cache_refuted"
   ],
   "note": "The stronger reading fails of the code as written: C44_from_cache_refuted; the statement says what holds."
  },
  {
   "property": "C45",
   "status": "proved",
   "theorems": [
    "C45_plain",
    "C45_gcc_problem",
    "C45_gcc_sources",
    "C45_cache",
    "C45_problem_refuted",
    "C45_files_refuted"
   ],
   "note": "The stronger reading fails of the code as written: C45_problem_refuted, C45_files_refuted; the statement says what holds."
  },
  {
   "property": "C46",
   "status": "proved",
   "theorems": [
    "C46_refused",
    "C46_template",
    "C46_translation",
    "C46_deterministic"
   ],
   "note": ""
  },
  {
   "property": "C47",
   "status": "proved",
   "theorems": [
    "C47_present",
    "C47_from_a_root",
    "C47_absent",
    "C47_first_root",
    "C47_supported",
    "C47_supported_defined",
    "C47_supported_found",
    "C47_removed_refuted",
    "C47_confined_refuted"
   ],
   "note": "The stronger reading fails of the code as written: C47_removed_refuted, C47_confined_refuted; the statement says what holds."
  },
  {
   "property": "C48",
   "status": "proved",
   "theorems": [
    "C48_available",
    "C48_order",
    "C48_listing_order",
    "C48_contrib",
    "C48_contrib_order",
    "C48_loaded",
    "C48_loads",
    "C48_reason"
   ],
   "note": ""
  },
  {
   "property": "C49",
   "status": "proved",
   "theorems": [
    "C49_tokens",
    "C49_words",
    "C49_words_refuted",
    "C49_int",
    "C49_int_wrong",
    "C49_int_told",
    "C49_int_wrong_refuted",
    "C49_ints",
    "C49_float",
    "C49_delimiter",
    "C49_last_field_refuted",
    "C49_lines",
    "C49_order_refuted",
    "C49_write",
    "C49_streams",
    "C49_verdict"
   ],
   "note": "The stronger reading fails of the code as written: C49_words_refuted, C49_int_wrong_refuted, C49_last_field_refuted, C49_order_refuted; the statement says what holds."
  },
  {
   "property": "C50",
   "status": "proved",
   "theorems": [
    "C50_submit",
    "C50_numbers",
    "C50_recorded",
    "C50_failures",
    "C50_only_submit",
    "C50_rejudge",
    "C50_rejudge_number_refuted",
    "C50_resubmit_refuted",
    "C50_show",
    "C50_diff",
    "C50_list",
    "C50_list_newest_refuted",
    "C50_problems",
    "C50_status"
   ],
   "note": "The stronger reading fails of the code as written: C50_rejudge_number_refuted, C50_resubmit_refuted, C50_list_newest_refuted; the statement says what holds."
  },
  {
   "property": "C51",
   "status": "proved",
   "theorems": [
    "C51_update",
    "C51_refused",
    "C51_served"
   ],
   "note": ""
  },
  {
   "property": "C52",
   "status": "proved",
   "theorems": [
    "C52_sandbox_violation_wins",
    "C52_feedback_cases"
   ],
   "note": ""
  },
  {
   "property": "C53",
   "status": "proved",
   "theorems": [
    "C53_wall",
    "C53_grace_alone_refuted"
   ],
   "note": "The stronger reading fails of the code as written: C53_grace_alone_refuted; the statement says what holds."
  },
  {
   "property": "C54",
   "status": "proved",
   "theorems": [
    "C54_rules",
    "C54_equal_length",
    "C54_sibling_refuted",
    "C54_links",
    "C54_links_sibling_refuted",
    "C54_links_parent"
   ],
   "note": "The stronger reading fails of the code as written: C54_sibling_refuted, C54_links_sibling_refuted; the statement says what holds."
  },
  {
   "property": "C55",
   "status": "proved",
   "theorems": [
    "C55_named",
    "C55_unnamed",
    "C55_site_request_refuted"
   ],
   "note": "The stronger reading fails of the code as written: C55_site_request_refuted; the statement says what holds."
  },
  {
   "property": "C56",
   "status": "proved",
   "theorems": [
    "C56_once",
    "C56_both_files_never",
    "C56_output_file",
    "C56_generated",
    "C56_input_file",
    "C56_failure_forgotten_refuted"
   ],
   "note": "The stronger reading fails of the code as written: C56_failure_forgotten_refuted; the statement says what holds."
  },
  {
   "property": "C57",
   "status": "proved",
   "theorems": [
    "C57_numbering",
    "C57_nested_batches_rejected"
   ],
   "note": ""
  },
  {
   "property": "C58",
   "status": "proved",
   "theorems": [
    "C58_helper_failures"
   ],
   "note": ""
  },
  {
   "property": "C59",
   "status": "proved",
   "theorems": [
    "C59_started",
    "C59_wait",
    "C59_seccomp_refuted"
   ],
   "note": "The stronger reading fails of the code as written: C59_seccomp_refuted; the statement says what holds."
  },
  {
   "property": "C60",
   "status": "proved",
   "theorems": [
    "C60_child",
    "C60_judge",
    "C60_crossed_refuted"
   ],
   "note": "The stronger reading fails of the code as written: C60_crossed_refuted; the statement says what holds."
  },
  {
   "property": "C61",
   "status": "proved",
   "theorems": [
    "C61_verdict",
    "C61_sound",
    "C61_exact"
   ],
   "note": ""
  },
  {
   "property": "C62",
   "status": "proved",
   "theorems": [
    "C62_uncached",
    "C62_cached_refuted"
   ],
   "note": "The stronger reading fails of the code as written: C62_cached_refuted; the statement says what holds."
  },
  {
   "property": "C63",
   "status": "proved",
   "theorems": [
    "C63_loaded",
    "C63_order",
    "C63_single",
    "C63_depth",
    "C63_update_same",
    "C63_missing_refuted",
    "C63_string_refuted"
   ],
   "note": "The stronger reading fails of the code as written: C63_missing_refuted, C63_string_refuted; the statement says what holds."
  },
  {
   "property": "C64",
   "status": "proved",
   "theorems": [
    "C64_decode",
    "C64_encode",
    "C64_round_trip",
    "C64_lenient",
    "C64_prefix"
   ],
   "note": ""
  },
  {
   "property": "C65",
   "status": "proved",
   "theorems": [
    "C65_start_up"
   ],
   "note": ""
  },
  {
   "property": "C66",
   "status": "proved",
   "theorems": [
    "C66_near",
    "C66_inside",
    "C66_inside_only_refuted"
   ],
   "note": "The stronger reading fails of the code as written: C66_inside_only_refuted; the statement says what holds."
  },
  {
   "property": "C67",
   "status": "proved",
   "theorems": [
    "C67_version",
    "C67_no_version",
    "C67_runtime"
   ],
   "note": ""
  },
  {
   "property": "C68",
   "status": "proved",
   "theorems": [
    "C68_pinged",
    "C68_never_forgotten",
    "C68_rounds",
    "C68_stops",
    "C68_stops_soon",
    "C68_delivered_refuted",
    "C68_before",
    "C68_events"
   ],
   "note": "The stronger reading fails of the code as written: C68_delivered_refuted; the statement says what holds."
  },
  {
   "property": "C69",
   "status": "proved",
   "theorems": [
    "C69_cpp",
    "C69_cpp_none",
    "C69_cpp_only",
    "C69_python",
    "C69_python_none",
    "C69_python_only",
    "C69_python_qualified_refuted",
    "C69_java",
    "C69_java_silent",
    "C69_java_no_main",
    "C69_java_only",
    "C69_java_crash",
    "C69_mono",
    "C69_mono_none",
    "C69_mono_only"
   ],
   "note": "The stronger reading fails of the code as written: C69_python_qualified_refuted; the statement says what holds."
  },
  {
   "property": "C70",
   "status": "proved",
   "theorems": [
    "C70_success",
    "C70_success_always",
    "C70_error",
    "C70_not_killed_early",
    "C70_killed",
    "C70_decides",
    "C70_reaped",
    "C70_left_running_refuted",
    "C70_stray_refuted",
    "C70_stray_bound"
   ],
   "note": "The stronger reading fails of the code as written: C70_left_running_refuted, C70_stray_refuted; the statement says what holds."
  },
  {
   "property": "C71",
   "status": "proved",
   "theorems": [
    "C71_files",
    "C71_files_only",
    "C71_name",
    "C71_arguments",
    "C71_main",
    "C71_aux",
    "C71_empty_refuted",
    "C71_extension_refuted",
    "C71_collision_refuted",
    "C71_march"
   ],
   "note": "The stronger reading fails of the code as written: C71_empty_refuted, C71_extension_refuted, C71_collision_refuted; the statement says what holds."
  },
  {
   "property": "C72",
   "status": "proved",
   "theorems": [
    "C72_language",
    "C72_sources",
    "C72_unreadable",
    "C72_unavailable",
    "C72_multi",
    "C72_settings",
    "C72_cached",
    "C72_same_name_refuted",
    "C72_no_aux_refuted",
    "C72_limited",
    "C72_submission_limited",
    "C72_defaults",
    "C72_unlimited_refuted",
    "C72_cached_refuted"
   ],
   "note": "The stronger reading fails of the code as written: C72_same_name_refuted, C72_no_aux_refuted, C72_unlimited_refuted, C72_cached_refuted; the statement says what holds."
  },
  {
   "property": "C73",
   "status": "proved",
   "theorems": [
    "C73_class",
    "C73_characters",
    "C73_no_class",
    "C73_hidden",
    "C73_safe_name",
    "C73_files",
    "C73_refused",
    "C73_command",
    "C73_string_refuted",
    "C73_last_line_refuted",
    "C73_dollar_refuted"
   ],
   "note": "The stronger reading fails of the code as written: C73_string_refuted, C73_last_line_refuted, C73_dollar_refuted; the statement says what holds."
  },
  {
   "property": "C74",
   "status": "proved",
   "theorems": [
    "C74_package",
    "C74_every",
    "C74_two_lines_refuted",
    "C74_bypass_refuted"
   ],
   "note": "The stronger reading fails of the code as written: C74_two_lines_refuted, C74_bypass_refuted; the statement says what holds."
  },
  {
   "property": "C75",
   "status": "proved",
   "theorems": [
    "C75_builds",
    "C75_files",
    "C75_files_unchecked_refuted",
    "C75_network",
    "C75_privileged",
    "C75_processes",
    "C75_signals",
    "C75_commands",
    "C75_commands_killed",
    "C75_listed",
    "C75_rest",
    "C75_each",
    "C75_languages",
    "C75_procctl"
   ],
   "note": "The stronger reading fails of the code as written: C75_files_unchecked_refuted; the statement says what holds."
  },
  {
   "property": "C76",
   "status": "proved",
   "theorems": [
    "C76_reads",
    "C76_characters",
    "C76_writes",
    "C76_refused",
    "C76_plain_languages",
    "C76_code_inside",
    "C76_private",
    "C76_missing_command",
    "C76_private_refuted"
   ],
   "note": "The stronger reading fails of the code as written: C76_private_refuted; the statement says what holds."
  },
  {
   "property": "C77",
   "status": "proved",
   "theorems": [
    "C77_exit",
    "C77_plan",
    "C77_submission",
    "C77_silent",
    "C77_points_refuted",
    "C77_any_points_refuted"
   ],
   "note": "The stronger reading fails of the code as written: C77_points_refuted, C77_any_points_refuted; the statement says what holds."
  },
  {
   "property": "C78",
   "status": "proved",
   "theorems": [
    "C78_no_orphan",
    "C78_reports",
    "C78_wait",
    "C78_turns",
    "C78_ends",
    "C78_abort",
    "C78_abort_told",
    "C78_clean",
    "C78_timeout",
    "C78_late_refuted",
    "C78_abort_refuted"
   ],
   "note": "The stronger reading fails of the code as written: C78_late_refuted, C78_abort_refuted; the statement says what holds."
  },
  {
   "property": "C79",
   "status": "proved",
   "theorems": [
    "C79_loads",
    "C79_needs_document",
    "C79_invalid",
    "C79_data",
    "C79_invalid_refuted",
    "C79_empty_list_refuted",
    "C79_inside_refuted"
   ],
   "note": "The stronger reading fails of the code as written: C79_invalid_refuted, C79_empty_list_refuted, C79_inside_refuted; the statement says what holds."
  },
  {
   "property": "C80",
   "status": "proved",
   "theorems": [
    "C80_choice",
    "C80_one_choice",
    "C80_builtin",
    "C80_file",
    "C80_unknown",
    "C80_bad_file",
    "C80_shared",
    "C80_executed_once",
    "C80_own_name_refuted",
    "C80_type_refuted"
   ],
   "note": "The stronger reading fails of the code as written: C80_own_name_refuted, C80_type_refuted; the statement says what holds."
  },
  {
   "property": "C81",
   "status": "proved",
   "theorems": [
    "C81_reads",
    "C81_call",
    "C81_call_exact",
    "C81_interface",
    "C81_writes",
    "C81_stop",
    "C81_stop_one",
    "C81_unread",
    "C81_refused",
    "C81_refused_arm",
    "C81_refused_traced",
    "C81_refused_refuted",
    "C81_sixth_refuted",
    "C81_x32_refuted",
    "C81_started_seccomp",
    "C81_started",
    "C81_started_x32_refuted",
    "C81_started_refuted"
   ],
   "note": "The stronger reading fails of the code as written: C81_refused_refuted, C81_sixth_refuted, C81_x32_refuted, C81_started_x32_refuted, C81_started_refuted; the statement says what holds."
  },
  {
   "property": "C82",
   "status": "proved",
   "theorems": [
    "C82_peak",
    "C82_no_peak",
    "C82_memory",
    "C82_memory_highest",
    "C82_memory_exit",
    "C82_exceeded",
    "C82_signal",
    "C82_latest_one",
    "C82_cpu_time",
    "C82_fault",
    "C82_name",
    "C82_exit",
    "C82_signal_refuted",
    "C82_fault_refuted"
   ],
   "note": "The stronger reading fails of the code as written: C82_signal_refuted, C82_fault_refuted; the statement says what holds."
  },
  {
   "property": "C83",
   "status": "proved",
   "theorems": [
    "C83_safe",
    "C83_online",
    "C83_introduced",
    "C83_open",
    "C83_waits",
    "C83_exit",
    "C83_gives_up",
    "C83_introduced_refuted",
    "C83_open_refuted",
    "C83_attempts"
   ],
   "note": "The stronger reading fails of the code as written: C83_introduced_refuted, C83_open_refuted; the statement says what holds."
  },
  {
   "property": "C84",
   "status": "proved",
   "theorems": [
    "C84_setting",
    "C84_one_value",
    "C84_name",
    "C84_key",
    "C84_connection",
    "C84_options",
    "C84_api",
    "C84_no_api",
    "C84_executors",
    "C84_roots",
    "C84_starts",
    "C84_no_configuration",
    "C84_no_problems",
    "C84_watched",
    "C84_watching",
    "C84_testsuite",
    "C84_unsafe",
    "C84_cautions",
    "C84_title",
    "C84_name_refuted",
    "C84_docker_refuted",
    "C84_runtime_refuted",
    "C84_testsuite_refuted"
   ],
   "note": "The stronger reading fails of the code as written: C84_name_refuted, C84_docker_refuted, C84_runtime_refuted, C84_testsuite_refuted; the statement says what holds."
  },
  {
   "property": "C85",
   "status": "proved",
   "theorems": [
    "C85_position",
    "C85_ignored",
    "C85_one_position",
    "C85_numbers",
    "C85_pair",
    "C85_archive",
    "C85_input_refuted",
    "C85_batch_refuted",
    "C85_missing_refuted"
   ],
   "note": "The stronger reading fails of the code as written: C85_input_refuted, C85_batch_refuted, C85_missing_refuted; the statement says what holds."
  },
  {
   "property": "C86",
   "status": "proved",
   "theorems": [
    "C86_confined",
    "C86_starts",
    "C86_failed",
    "C86_told_apart",
    "C86_other_codes",
    "C86_filter_wanted",
    "C86_environment",
    "C86_buffers",
    "C86_arguments",
    "C86_path",
    "C86_path_given",
    "C86_directory_refuted",
    "C86_rule_refuted",
    "C86_preload_refuted",
    "C86_sizes_refuted",
    "C86_cut",
    "C86_nul_refuted"
   ],
   "note": "The stronger reading fails of the code as written: C86_directory_refuted, C86_rule_refuted, C86_preload_refuted, C86_sizes_refuted, C86_nul_refuted; the statement says what holds."
  },
  {
   "property": "C87",
   "status": "proved",
   "theorems": [
    "C87_arguments",
    "C87_checker",
    "C87_interactor",
    "C87_own_template",
    "C87_unknown_type",
    "C87_files",
    "C87_interactor_time",
    "C87_interactor_memory",
    "C87_pipes",
    "C87_quoted_refuted",
    "C87_files_refuted",
    "C87_outside_refuted",
    "C87_unknown_name"
   ],
   "note": "The stronger reading fails of the code as written: C87_quoted_refuted, C87_files_refuted, C87_outside_refuted; the statement says what holds."
  },
  {
   "property": "C88",
   "status": "proved",
   "theorems": [
    "C88_first_found",
    "C88_base",
    "C88_gcc",
    "C88_java",
    "C88_tested",
    "C88_printed",
    "C88_ready",
    "C88_same_mode",
    "C88_same_target",
    "C88_kotlin",
    "C88_scala",
    "C88_groovy",
    "C88_missing",
    "C88_mappings",
    "C88_ci",
    "C88_override",
    "C88_generic_refuted",
    "C88_target_always",
    "C88_here_refuted",
    "C88_unravel_refuted",
    "C88_crash_log_refuted",
    "C88_two_programs"
   ],
   "note": "The stronger reading fails of the code as written: C88_generic_refuted, C88_here_refuted, C88_unravel_refuted, C88_crash_log_refuted; the statement says what holds."
  },
  {
   "property": "C89",
   "status": "proved",
   "theorems": [
    "C89_source",
    "C89_refused",
    "C89_zig",
    "C89_built_is_run",
    "C89_options",
    "C89_intercal",
    "C89_interpreter",
    "C89_script",
    "C89_python",
    "C89_environment",
    "C89_own_environment",
    "C89_started",
    "C89_output",
    "C89_warning",
    "C89_limits",
    "C89_killed",
    "C89_offline",
    "C89_sbcl_heap",
    "C89_messages",
    "C89_features",
    "C89_nasm_features",
    "C89_linked",
    "C89_assembled",
    "C89_asm_ready",
    "C89_asm_grace",
    "C89_newline_refuted",
    "C89_feature_line_refuted",
    "C89_verbatim_refuted",
    "C89_quiet_merged_refuted",
    "C89_turing"
   ],
   "note": "The stronger reading fails of the code as written: C89_newline_refuted, C89_feature_line_refuted, C89_verbatim_refuted, C89_quiet_merged_refuted; the statement says what holds."
  },
  {
   "property": "C90",
   "status": "proved",
   "theorems": [
    "C90_style",
    "C90_colours_only",
    "C90_unmarked",
    "C90_plain_never_fails",
    "C90_case_line",
    "C90_numbers",
    "C90_told",
    "C90_compile_error",
    "C90_started",
    "C90_internal_error",
    "C90_strip",
    "C90_feedback_refuted",
    "C90_start_refuted",
    "C90_lines_refuted",
    "C90_letter_refuted",
    "C90_left_refuted",
    "C90_palette"
   ],
   "note": "The stronger reading fails of the code as written: C90_feedback_refuted, C90_start_refuted, C90_lines_refuted, C90_letter_refuted, C90_left_refuted; the statement says what holds."
  },
  {
   "property": "C91",
   "status": "proved",
   "theorems": [
    "C91_script",
    "C91_script_source",
    "C91_interpreter",
    "C91_jvm",
    "C91_heap_refuted",
    "C91_memory_refuted",
    "C91_jvm_source",
    "C91_jvm_compiler",
    "C91_kotlin",
    "C91_policy",
    "C91_policy_exact",
    "C91_policy_files",
    "C91_policy_grants",
    "C91_policy_refuted",
    "C91_bf",
    "C91_machine"
   ],
   "note": "The stronger reading fails of the code as written: C91_heap_refuted, C91_memory_refuted, C91_policy_refuted; the statement says what holds."
  },
  {
   "property": "C92",
   "status": "proved",
   "theorems": [
    "C92_words",
    "C92_one_reading",
    "C92_plain_line",
    "C92_quoted_line",
    "C92_interrupted_status_refuted",
    "C92_source",
    "C92_source_refuted",
    "C92_typed",
    "C92_columns",
    "C92_listed"
   ],
   "note": "The stronger reading fails of the code as written: C92_interrupted_status_refuted, C92_source_refuted; the statement says what holds."
  },
  {
   "property": "C93",
   "status": "proved",
   "theorems": [
    "C93_nested_bytes_refuted",
    "C93_nan_refuted",
    "C93_surrogates_refuted"
   ],
   "note": "The stronger reading fails of the code as written: C93_nested_bytes_refuted, C93_nan_refuted, C93_surrogates_refuted; the statement says what holds."
  },
  {
   "property": "C94",
   "status": "proved",
   "theorems": [
    "C94_stream"
   ],
   "note": ""
  },
  {
   "property": "C95",
   "status": "proved",
   "theorems": [
    "C95_later_submissions_refuted"
   ],
   "note": "The stronger reading fails of the code as written: C95_later_submissions_refuted; the statement says what holds."
  },
  {
   "property": "C96",
   "status": "proved",
   "theorems": [
    "C96_race_refuted"
   ],
   "note": "The stronger reading fails of the code as written: C96_race_refuted; the statement says what holds."
  },
  {
   "property": "C97",
   "status": "proved",
   "theorems": [
    "C97_verdicts",
    "C97_perfect",
    "C97_scored",
    "C97_listed",
    "C97_guessed",
    "C97_grading"
   ],
   "note": ""
  },
  {
   "property": "C98",
   "status": "proved",
   "theorems": [
    "C98_languages",
    "C98_needs",
    "C98_files",
    "C98_compiled",
    "C98_main_hidden",
    "C98_main_allowed",
    "C98_main_hidden_refuted",
    "C98_dotted",
    "C98_plain_header"
   ],
   "note": "The stronger reading fails of the code as written: C98_main_hidden_refuted; the statement says what holds."
  },
  {
   "property": "C99",
   "status": "proved",
   "theorems": [
    "C99_standard",
    "C99_standard_refuted",
    "C99_errors",
    "C99_order",
    "C99_ending",
    "C99_bf",
    "C99_keys",
    "C99_settings"
   ],
   "note": "The stronger reading fails of the code as written: C99_standard_refuted; the statement says what holds."
  },
  {
   "property": "C100",
   "status": "proved",
   "theorems": [
    "C100_items",
    "C100_not_mapping",
    "C100_items_computed_refuted",
    "C100_iterate",
    "C100_update",
    "C100_store",
    "C100_store_refuted",
    "C100_store_index",
    "C100_defaults",
    "C100_made",
    "C100_add",
    "C100_add_refused",
    "C100_add_inherits_refuted",
    "C100_add_empty_refuted"
   ],
   "note": "The stronger reading fails of the code as written: C100_items_computed_refuted, C100_store_refuted, C100_add_inherits_refuted, C100_add_empty_refuted; the statement says what holds."
  },
  {
   "property": "C101",
   "status": "proved",
   "theorems": [
    "C101_constructor",
    "C101_constructed",
    "C101_wait",
    "C101_answers",
    "C101_failed",
    "C101_own_group",
    "C101_unlimited",
    "C101_reported",
    "C101_enforced",
    "C101_quiet",
    "C101_former_refuted",
    "C101_killed_refuted",
    "C101_verdict_refuted",
    "C101_message_refuted"
   ],
   "note": "The stronger reading fails of the code as written: C101_former_refuted, C101_killed_refuted, C101_verdict_refuted, C101_message_refuted; the statement says what holds."
  },
  {
   "property": "C102",
   "status": "proved",
   "theorems": [
    "C102_over",
    "C102_before",
    "C102_disconnect",
    "C102_updates",
    "C102_asked",
    "C102_crash",
    "C102_crash_refuted",
    "C102_second_interrupt_refuted"
   ],
   "note": "The stronger reading fails of the code as written: C102_crash_refuted, C102_second_interrupt_refuted; the statement says what holds."
  },
  {
   "property": "C103",
   "status": "proved",
   "theorems": [
    "C103_same",
    "C103_refused",
    "C103_unseen",
    "C103_subclass",
    "C103_checks",
    "C103_equal",
    "C103_names",
    "C103_bytes_refuted",
    "C103_empty_refuted",
    "C103_derived_refuted",
    "C103_names_refuted"
   ],
   "note": "The stronger reading fails of the code as written: C103_bytes_refuted, C103_empty_refuted, C103_derived_refuted, C103_names_refuted; the statement says what holds."
  },
  {
   "property": "C104",
   "status": "proved",
   "theorems": [
    "C104_answer",
    "C104_load",
    "C104_answered",
    "C104_pings",
    "C104_load_refuted",
    "C104_signal",
    "C104_unasked"
   ],
   "note": "The stronger reading fails of the code as written: C104_load_refuted; the statement says what holds."
  },
  {
   "property": "C105",
   "status": "proved",
   "theorems": [
    "C105_asked",
    "C105_kept",
    "C105_one",
    "C105_pypy",
    "C105_pypy_refuted",
    "C105_borrowed_refuted"
   ],
   "note": "The stronger reading fails of the code as written: C105_pypy_refuted, C105_borrowed_refuted; the statement says what holds."
  },
  {
   "property": "C106",
   "status": "proved",
   "theorems": [
    "C106_typed",
    "C106_error",
    "C106_all",
    "C106_edited",
    "C106_replaced_refuted",
    "C106_again_refuted"
   ],
   "note": "The stronger reading fails of the code as written: C106_replaced_refuted, C106_again_refuted; the statement says what holds."
  }
 ]
}