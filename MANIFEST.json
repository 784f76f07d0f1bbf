{
 "claims": [
  {
   "property": "C01",
   "status": "proved",
   "theorems": [
    "C01_blocks_disjoint",
    "C01_blocks_in_region",
    "C01_granted_iff_fits",
    "C01_refused_unchanged",
    "C01_disjoint_unbounded_refuted"
   ],
   "note": "Proved for request sizes below 2^32-32768; the unbounded claim is refuted by witness."
  },
  {
   "property": "C02",
   "status": "proved",
   "theorems": [
    "C02_blocks_are_private_arrays",
    "C02_private_arrays_unbounded_refuted"
   ],
   "note": "Proved for offset+length < 2^32; the unbounded claim is refuted by witness."
  },
  {
   "property": "C03",
   "status": "proved",
   "theorems": [
    "C03_saved_parameters_survive",
    "C03_project_is_created"
   ],
   "note": "OS reads/writes are assumed complete; file assumed to contain bytes written."
  },
  {
   "property": "C04",
   "status": "proved",
   "theorems": [
    "C04_same_layout_keeps_storage",
    "C04_changed_layout_reinitialises",
    "C04_stores_complete",
    "C04_power_failure_leaves_stale_parameters"
   ],
   "note": "Full characterisation of start-up, including the power-failure window in which stale parameters are accepted. A multi-byte write is taken as ascending byte stores."
  },
  {
   "property": "C05",
   "status": "proved",
   "theorems": [
    "C05_out_of_range_changes_nothing",
    "C05_out_of_range_read"
   ],
   "note": ""
  },
  {
   "property": "C06",
   "status": "proved",
   "theorems": [
    "C06_allocation"
   ],
   "note": ""
  },
  {
   "property": "C07",
   "status": "proved",
   "theorems": [
    "C07_listed_iff_last_op_raise",
    "C07_listed_once_in_order",
    "C07_counter"
   ],
   "note": ""
  },
  {
   "property": "C08",
   "status": "proved",
   "theorems": [
    "C08_alarm_life_cycle",
    "C08_faulty_is_shown"
   ],
   "note": ""
  },
  {
   "property": "C09",
   "status": "proved",
   "theorems": [
    "C09_one_pass",
    "C09_suppressed_hides_others_refuted"
   ],
   "note": ""
  },
  {
   "property": "C10",
   "status": "proved",
   "theorems": [
    "C10_siren",
    "C10_lamps",
    "C10_red_blinks",
    "C10_blinks",
    "C10_manual_mode"
   ],
   "note": ""
  },
  {
   "property": "C11",
   "status": "proved",
   "theorems": [
    "C11_states",
    "C11_diagram",
    "C11_idle",
    "C11_refused"
   ],
   "note": ""
  },
  {
   "property": "C12",
   "status": "proved",
   "theorems": [
    "C12_only_current",
    "C12_order",
    "C12_all_off",
    "C12_unpausing_refuted"
   ],
   "note": ""
  },
  {
   "property": "C13",
   "status": "proved",
   "theorems": [
    "C13_main_step",
    "C13_to_step",
    "C13_to_next",
    "C13_zero_time_refuted"
   ],
   "note": ""
  },
  {
   "property": "C14",
   "status": "proved",
   "theorems": [
    "C14_no_duplicates",
    "C14_off",
    "C14_exchange_refuted",
    "C14_main_extra_refuted",
    "C14_check_refuted",
    "C14_step_zero_refuted",
    "C14_skip_refuted"
   ],
   "note": ""
  },
  {
   "property": "C15",
   "status": "proved",
   "theorems": [
    "C15_unique",
    "C15_meaning",
    "C15_other",
    "C15_script_refuted",
    "C15_answer_refuted",
    "C15_states",
    "C15_no_such_operation"
   ],
   "note": ""
  },
  {
   "property": "C16",
   "status": "proved",
   "theorems": [
    "C16_active_reported",
    "C16_agree",
    "C16_marked_refuted",
    "C16_success_refuted"
   ],
   "note": ""
  },
  {
   "property": "C17",
   "status": "proved",
   "theorems": [
    "C17_refused",
    "C17_question",
    "C17_never_together",
    "C17_pause_refuted",
    "C17_one_sided_refuted"
   ],
   "note": ""
  },
  {
   "property": "C18",
   "status": "proved",
   "theorems": [
    "C18_limits",
    "C18_number",
    "C18_inside",
    "C18_old_commands",
    "C18_old_command_effect",
    "C18_new_commands_refuted",
    "C18_nan_refuted"
   ],
   "note": ""
  },
  {
   "property": "C19",
   "status": "proved",
   "theorems": [
    "C19_scalars_round_trip",
    "C19_register_layout",
    "C19_frame",
    "C19_big_endian_words_refuted"
   ],
   "note": ""
  },
  {
   "property": "C20",
   "status": "proved",
   "theorems": [
    "C20_time_text",
    "C20_stays_in_its_registers_refuted",
    "C20_wraps_at_100_hours"
   ],
   "note": ""
  },
  {
   "property": "C21",
   "status": "proved",
   "theorems": [
    "C21_string_text"
   ],
   "note": ""
  },
  {
   "property": "C22",
   "status": "proved",
   "theorems": [
    "C22_round_trip",
    "C22_fitting_text_unchanged",
    "C22_registers_are_unicode",
    "C22_code_page",
    "C22_undefined_code_refuted"
   ],
   "note": ""
  },
  {
   "property": "C23",
   "status": "proved",
   "theorems": [
    "C23_one_bit"
   ],
   "note": ""
  },
  {
   "property": "C24",
   "status": "proved",
   "theorems": [
    "C24_flag"
   ],
   "note": ""
  },
  {
   "property": "C25",
   "status": "proved",
   "theorems": [
    "C25_in_bounds",
    "C25_stores",
    "C25_read_back",
    "C25_large_addresses_ignored_refuted",
    "C25_reads",
    "C25_bits",
    "C25_bits_in_bounds_refuted"
   ],
   "note": ""
  },
  {
   "property": "C26",
   "status": "proved",
   "theorems": [
    "C26_reverse",
    "C26_masks",
    "C26_swap_bits"
   ],
   "note": ""
  },
  {
   "property": "C27",
   "status": "proved",
   "theorems": [
    "C27_request",
    "C27_bits",
    "C27_loop_back",
    "C27_announced_count_refuted",
    "C27_many_inputs_never_read"
   ],
   "note": ""
  },
  {
   "property": "C28",
   "status": "proved",
   "theorems": [
    "C28_write",
    "C28_read",
    "C28_read_all"
   ],
   "note": ""
  },
  {
   "property": "C29",
   "status": "proved",
   "theorems": [
    "C29_delay",
    "C29_attempts",
    "C29_bounds",
    "C29_declared_maximum_refuted"
   ],
   "note": ""
  },
  {
   "property": "C30",
   "status": "proved",
   "theorems": [
    "C30_exact",
    "C30_reported_once",
    "C30_withdrawn",
    "C30_any_silence_refuted"
   ],
   "note": ""
  },
  {
   "property": "C31",
   "status": "proved",
   "theorems": [
    "C31_range",
    "C31_accuracy",
    "C31_order",
    "C31_ends",
    "C31_read_back",
    "C31_small",
    "C31_nan_refuted",
    "C31_empty_scale_refuted",
    "C31_other",
    "C31_other_refuted"
   ],
   "note": ""
  },
  {
   "property": "C32",
   "status": "proved",
   "theorems": [
    "C32_waiting_time",
    "C32_attempts_apart",
    "C32_attempt_made",
    "C32_declared_maximum_refuted"
   ],
   "note": ""
  },
  {
   "property": "C33",
   "status": "proved",
   "theorems": [
    "C33_descriptors",
    "C33_connected_open",
    "C33_own_connection",
    "C33_exchange",
    "C33_refused_refuted",
    "C33_foreign_descriptor_refuted"
   ],
   "note": ""
  },
  {
   "property": "C34",
   "status": "proved",
   "theorems": [
    "C34_data",
    "C34_wrong_command",
    "C34_unknown_service",
    "C34_modbus",
    "C34_modbus_silent",
    "C34_long_data_refuted",
    "C34_failed_service_refuted"
   ],
   "note": ""
  },
  {
   "property": "C35",
   "status": "proved",
   "theorems": [
    "C35_last_store",
    "C35_outside",
    "C35_bits_refuted"
   ],
   "note": ""
  },
  {
   "property": "C36",
   "status": "proved",
   "theorems": [
    "C36_active_exists",
    "C36_selection"
   ],
   "note": ""
  },
  {
   "property": "C37",
   "status": "proved",
   "theorems": [
    "C37_marked_or_on_disk",
    "C37_saved_in_the_end",
    "C37_failed_write_refuted",
    "C37_waiting_for_ever_refuted",
    "C37_power_failure_refuted"
   ],
   "note": ""
  },
  {
   "property": "C38",
   "status": "proved",
   "theorems": [
    "C38_round_trip",
    "C38_no_drift",
    "C38_resized",
    "C38_line_break_refuted",
    "C38_not_a_number_refuted",
    "C38_no_parameters_refuted",
    "C38_exact_refuted"
   ],
   "note": ""
  },
  {
   "property": "C39",
   "status": "proved",
   "theorems": [
    "C39_load",
    "C39_stopped",
    "C39_no_such",
    "C39_command",
    "C39_last_parameter_refuted",
    "C39_negative_refuted"
   ],
   "note": ""
  },
  {
   "property": "C40",
   "status": "proved",
   "theorems": [
    "C40_one_list",
    "C40_separate_lists",
    "C40_separate_refuted"
   ],
   "note": ""
  },
  {
   "property": "C41",
   "status": "proved",
   "theorems": [
    "C41_exact",
    "C41_bounds",
    "C41_long_cycle_refuted",
    "C41_drift_refuted"
   ],
   "note": ""
  },
  {
   "property": "C42",
   "status": "proved",
   "theorems": [
    "C42_expires",
    "C42_lasting",
    "C42_defined",
    "C42_reset",
    "C42_restart",
    "C42_clock_zero",
    "C42_64bit"
   ],
   "note": ""
  },
  {
   "property": "C43",
   "status": "proved",
   "theorems": [
    "C43_elapsed_time",
    "C43_step_back",
    "C43_step_back_three_is_huge"
   ],
   "note": ""
  },
  {
   "property": "C44",
   "status": "proved",
   "theorems": [
    "C44_round_trip",
    "C44_undefined_dropped",
    "C44_long_characters_refused",
    "C44_whole_code_page_refuted"
   ],
   "note": ""
  },
  {
   "property": "C45",
   "status": "proved",
   "theorems": [
    "C45_valid_utf8",
    "C45_length_of_valid_text",
    "C45_length",
    "C45_invalid_text"
   ],
   "note": ""
  },
  {
   "property": "C46",
   "status": "proved",
   "theorems": [
    "C46_round_trip",
    "C46_records",
    "C46_restart",
    "C46_marked",
    "C46_start_defined",
    "C46_cut",
    "C46_cut_refuted",
    "C46_lost_refuted",
    "C46_unwritable_refuted"
   ],
   "note": ""
  },
  {
   "property": "C47",
   "status": "proved",
   "theorems": [
    "C47_unchanged_counter_means_unchanged_view"
   ],
   "note": ""
  },
  {
   "property": "C48",
   "status": "proved",
   "theorems": [
    "C48_message_queue",
    "C48_numbers_unique"
   ],
   "note": ""
  },
  {
   "property": "C49",
   "status": "proved",
   "theorems": [
    "C49_read_coils",
    "C49_longer_requests_refuted",
    "C49_spare_bits_zero_refuted"
   ],
   "note": ""
  },
  {
   "property": "C50",
   "status": "proved",
   "theorems": [
    "C50_memory_safe",
    "C50_larger_length_refuted",
    "C50_foreign_letters_refused_refuted",
    "C50_faithful_outside_latin1"
   ],
   "note": ""
  },
  {
   "property": "C51",
   "status": "proved",
   "theorems": [
    "C51_success_means_answered",
    "C51_success_for_own_request",
    "C51_any_script_refuted"
   ],
   "note": ""
  },
  {
   "property": "C52",
   "status": "proved",
   "theorems": [
    "C52_frames",
    "C52_all_legal_writes_in_buffer_refuted",
    "C52_many_coils_refuted"
   ],
   "note": ""
  },
  {
   "property": "C53",
   "status": "proved",
   "theorems": [
    "C53_phoenix",
    "C53_wago",
    "C53_cut_answers_refuted"
   ],
   "note": ""
  },
  {
   "property": "C54",
   "status": "proved",
   "theorems": [
    "C54_wago_inputs",
    "C54_wago_analog",
    "C54_wago_requests",
    "C54_partial_answers_refuted"
   ],
   "note": ""
  },
  {
   "property": "C55",
   "status": "proved",
   "theorems": [
    "C55_request",
    "C55_any_size_refuted"
   ],
   "note": ""
  },
  {
   "property": "C56",
   "status": "proved",
   "theorems": [
    "C56_main",
    "C56_limit",
    "C56_extra",
    "C56_outside_refuted"
   ],
   "note": ""
  },
  {
   "property": "C57",
   "status": "proved",
   "theorems": [
    "C57_next_step",
    "C57_pause",
    "C57_bad_next_refuted"
   ],
   "note": ""
  },
  {
   "property": "C58",
   "status": "proved",
   "theorems": [
    "C58_running_time",
    "C58_stop_refuted"
   ],
   "note": ""
  },
  {
   "property": "C59",
   "status": "proved",
   "theorems": [
    "C59_start",
    "C59_messages"
   ],
   "note": ""
  },
  {
   "property": "C60",
   "status": "proved",
   "theorems": [
    "C60_available",
    "C60_pause_refuted",
    "C60_following_refuted"
   ],
   "note": ""
  },
  {
   "property": "C61",
   "status": "proved",
   "theorems": [
    "C61_in_order",
    "C61_success_means_all",
    "C61_failure_codes",
    "C61_everything_sent",
    "C61_endless_refuted"
   ],
   "note": ""
  },
  {
   "property": "C62",
   "status": "proved",
   "theorems": [
    "C62_pass",
    "C62_timeout_refuted"
   ],
   "note": ""
  },
  {
   "property": "C63",
   "status": "proved",
   "theorems": [
    "C63_alarm",
    "C63_changes"
   ],
   "note": ""
  },
  {
   "property": "C64",
   "status": "proved",
   "theorems": [
    "C64_recognised",
    "C64_unambiguous",
    "C64_carried_out",
    "C64_answer",
    "C64_nearest",
    "C64_defined",
    "C64_fatal_refuted",
    "C64_no_negative"
   ],
   "note": ""
  },
  {
   "property": "C65",
   "status": "proved",
   "theorems": [
    "C65_flags_round_trip",
    "C65_empty_file_refuted"
   ],
   "note": ""
  },
  {
   "property": "C66",
   "status": "proved",
   "theorems": [
    "C66_last_loaded",
    "C66_line_break_refuted"
   ],
   "note": ""
  },
  {
   "property": "C67",
   "status": "proved",
   "theorems": [
    "C67_state",
    "C67_nothing_else",
    "C67_defined",
    "C67_silent_refuted"
   ],
   "note": ""
  },
  {
   "property": "C68",
   "status": "proved",
   "theorems": [
    "C68_fault",
    "C68_number",
    "C68_current",
    "C68_broken_wire_refuted"
   ],
   "note": ""
  },
  {
   "property": "C69",
   "status": "proved",
   "theorems": [
    "C69_missing",
    "C69_DO"
   ],
   "note": ""
  },
  {
   "property": "C70",
   "status": "proved",
   "theorems": [
    "C70_law",
    "C70_error",
    "C70_interval",
    "C70_output",
    "C70_direction",
    "C70_rest"
   ],
   "note": ""
  },
  {
   "property": "C71",
   "status": "proved",
   "theorems": [
    "C71_enter",
    "C71_hold",
    "C71_leave",
    "C71_jump_refuted",
    "C71_other_refuted",
    "C71_limits_refuted",
    "C71_restart_refuted"
   ],
   "note": ""
  },
  {
   "property": "C72",
   "status": "proved",
   "theorems": [
    "C72_start",
    "C72_undefined_refuted"
   ],
   "note": ""
  },
  {
   "property": "C73",
   "status": "proved",
   "theorems": [
    "C73_off",
    "C73_between",
    "C73_stays",
    "C73_fresh",
    "C73_resume",
    "C73_held"
   ],
   "note": ""
  },
  {
   "property": "C74",
   "status": "proved",
   "theorems": [
    "C74_state",
    "C74_value",
    "C74_seat",
    "C74_manual",
    "C74_untouched",
    "C74_delay_refuted",
    "C74_value_refuted"
   ],
   "note": ""
  },
  {
   "property": "C75",
   "status": "proved",
   "theorems": [
    "C75_end",
    "C75_engaged",
    "C75_operation",
    "C75_gap_refuted",
    "C75_restart_refuted"
   ],
   "note": ""
  },
  {
   "property": "C76",
   "status": "proved",
   "theorems": [
    "C76_order",
    "C76_times",
    "C76_share",
    "C76_no_time_refuted",
    "C76_skip_refuted"
   ],
   "note": ""
  },
  {
   "property": "C77",
   "status": "proved",
   "theorems": [
    "C77_jump",
    "C77_no_jump",
    "C77_setting",
    "C77_enabled",
    "C77_empty_refuted",
    "C77_enabled_refuted"
   ],
   "note": ""
  },
  {
   "property": "C78",
   "status": "proved",
   "theorems": [
    "C78_whole",
    "C78_cut",
    "C78_overflow_refuted"
   ],
   "note": ""
  },
  {
   "property": "C79",
   "status": "proved",
   "theorems": [
    "C79_cells",
    "C79_seats",
    "C79_gap",
    "C79_seats_refuted"
   ],
   "note": ""
  },
  {
   "property": "C80",
   "status": "proved",
   "theorems": [
    "C80_check",
    "C80_only_first_refuted"
   ],
   "note": ""
  },
  {
   "property": "C81",
   "status": "proved",
   "theorems": [
    "C81_stays_open",
    "C81_closes",
    "C81_cancelled",
    "C81_manual_keeps"
   ],
   "note": ""
  },
  {
   "property": "C82",
   "status": "proved",
   "theorems": [
    "C82_no_effect",
    "C82_bistable",
    "C82_seats",
    "C82_refuted"
   ],
   "note": ""
  },
  {
   "property": "C83",
   "status": "proved",
   "theorems": [
    "C83_never_closes",
    "C83_closes_if_late",
    "C83_reopened_closes",
    "C83_small_left_open",
    "C83_refuted"
   ],
   "note": ""
  },
  {
   "property": "C84",
   "status": "proved",
   "theorems": [
    "C84_exclusive",
    "C84_lower_left_open",
    "C84_refuted"
   ],
   "note": ""
  },
  {
   "property": "C85",
   "status": "proved",
   "theorems": [
    "C85_reported",
    "C85_from_start",
    "C85_reversed",
    "C85_questions",
    "C85_refuted"
   ],
   "note": ""
  },
  {
   "property": "C86",
   "status": "proved",
   "theorems": [
    "C86_open_pulse",
    "C86_close_pulse",
    "C86_jam",
    "C86_stop_hides_errors",
    "C86_fresh",
    "C86_refuted"
   ],
   "note": ""
  },
  {
   "property": "C87",
   "status": "proved",
   "theorems": [
    "C87_no_short_signal",
    "C87_lasting_signal",
    "C87_filter_forever_refuted"
   ],
   "note": ""
  },
  {
   "property": "C88",
   "status": "proved",
   "theorems": [
    "C88_lost_link",
    "C88_broken_wire"
   ],
   "note": ""
  },
  {
   "property": "C89",
   "status": "proved",
   "theorems": [
    "C89_total",
    "C89_value",
    "C89_catches_up",
    "C89_monotone_refuted",
    "C89_from_zero_refuted"
   ],
   "note": ""
  },
  {
   "property": "C90",
   "status": "proved",
   "theorems": [
    "C90_ceiling",
    "C90_keeps_counting_refuted"
   ],
   "note": ""
  },
  {
   "property": "C91",
   "status": "proved",
   "theorems": [
    "C91_error_time",
    "C91_recovers",
    "C91_latched",
    "C91_waits_refuted",
    "C91_start_anew",
    "C91_plain_counter_refuted"
   ],
   "note": ""
  },
  {
   "property": "C92",
   "status": "proved",
   "theorems": [
    "C92_fault",
    "C92_only_faults_refuted"
   ],
   "note": ""
  },
  {
   "property": "C93",
   "status": "proved",
   "theorems": [
    "C93_day",
    "C93_before",
    "C93_switched_off",
    "C93_commands",
    "C93_garbage_refuted"
   ],
   "note": ""
  },
  {
   "property": "C94",
   "status": "proved",
   "theorems": [
    "C94_range"
   ],
   "note": ""
  },
  {
   "property": "C95",
   "status": "proved",
   "theorems": [
    "C95_rises",
    "C95_pause_refuted",
    "C95_keeps_counting_refuted"
   ],
   "note": ""
  },
  {
   "property": "C96",
   "status": "proved",
   "theorems": [
    "C96_display",
    "C96_blue",
    "C96_manual",
    "C96_order_refuted"
   ],
   "note": ""
  },
  {
   "property": "C97",
   "status": "proved",
   "theorems": [
    "C97_blinks",
    "C97_shared_refuted",
    "C97_one_command_refuted"
   ],
   "note": ""
  },
  {
   "property": "C98",
   "status": "proved",
   "theorems": [
    "C98_report",
    "C98_command",
    "C98_setting"
   ],
   "note": ""
  },
  {
   "property": "C99",
   "status": "proved",
   "theorems": [
    "C99_sequence",
    "C99_discrete",
    "C99_twice_refuted"
   ],
   "note": ""
  },
  {
   "property": "C100",
   "status": "proved",
   "theorems": [
    "C100_follow",
    "C100_one",
    "C100_sent",
    "C100_numbers"
   ],
   "note": ""
  },
  {
   "property": "C101",
   "status": "proved",
   "theorems": [
    "C101_report",
    "C101_errors",
    "C101_questions"
   ],
   "note": ""
  },
  {
   "property": "C102",
   "status": "proved",
   "theorems": [
    "C102_stuck"
   ],
   "note": ""
  },
  {
   "property": "C103",
   "status": "proved",
   "theorems": [
    "C103_terminal_safe",
    "C103_terminal_unset",
    "C103_gateway_crash"
   ],
   "note": ""
  },
  {
   "property": "C104",
   "status": "proved",
   "theorems": [
    "C104_gateway_bytes",
    "C104_number_refuted",
    "C104_same_number_refuted",
    "C104_unknown_state_refuted"
   ],
   "note": ""
  },
  {
   "property": "C105",
   "status": "proved",
   "theorems": [
    "C105_follow",
    "C105_first_cycle_refuted",
    "C105_gea_crash",
    "C105_channel_crash"
   ],
   "note": ""
  },
  {
   "property": "C106",
   "status": "proved",
   "theorems": [
    "C106_report",
    "C106_head_error"
   ],
   "note": ""
  },
  {
   "property": "C107",
   "status": "proved",
   "theorems": [
    "C107_once",
    "C107_repeated_refuted",
    "C107_closing",
    "C107_gea_refuted",
    "C107_seat_refuted",
    "C107_seat_time"
   ],
   "note": ""
  },
  {
   "property": "C108",
   "status": "proved",
   "theorems": [
    "C108_shut_off",
    "C108_mixproof_refuted",
    "C108_position"
   ],
   "note": ""
  },
  {
   "property": "C109",
   "status": "proved",
   "theorems": [
    "C109_follow",
    "C109_stop",
    "C109_numbers_refuted"
   ],
   "note": ""
  },
  {
   "property": "C110",
   "status": "proved",
   "theorems": [
    "C110_report",
    "C110_error",
    "C110_direction_refuted"
   ],
   "note": ""
  },
  {
   "property": "C111",
   "status": "proved",
   "theorems": [
    "C111_stuck",
    "C111_unread_refuted"
   ],
   "note": ""
  },
  {
   "property": "C112",
   "status": "proved",
   "theorems": [
    "C112_words",
    "C112_sent",
    "C112_refused_refuted"
   ],
   "note": ""
  },
  {
   "property": "C113",
   "status": "proved",
   "theorems": [
    "C113_state",
    "C113_lost",
    "C113_silent_refuted",
    "C113_off_refuted",
    "C113_direction_refuted"
   ],
   "note": ""
  },
  {
   "property": "C114",
   "status": "proved",
   "theorems": [
    "C114_frequency",
    "C114_read_back",
    "C114_early_refuted",
    "C114_large_refuted"
   ],
   "note": ""
  },
  {
   "property": "C115",
   "status": "proved",
   "theorems": [
    "C115_command",
    "C115_idle",
    "C115_only",
    "C115_repeated",
    "C115_early",
    "C115_stale_refuted",
    "C115_lost_refuted",
    "C115_defined"
   ],
   "note": ""
  },
  {
   "property": "C116",
   "status": "proved",
   "theorems": [
    "C116_all",
    "C116_one",
    "C116_take",
    "C116_reconnect",
    "C116_state",
    "C116_reconnect_refuted",
    "C116_start_refuted"
   ],
   "note": ""
  },
  {
   "property": "C117",
   "status": "proved",
   "theorems": [
    "C117_state",
    "C117_value"
   ],
   "note": ""
  },
  {
   "property": "C118",
   "status": "proved",
   "theorems": [
    "C118_work",
    "C118_up",
    "C118_up_cut",
    "C118_group",
    "C118_stays_refuted",
    "C118_long_refuted",
    "C118_paused_refuted",
    "C118_wrong_refuted"
   ],
   "note": ""
  },
  {
   "property": "C119",
   "status": "proved",
   "theorems": [
    "C119_above",
    "C119_below",
    "C119_nan",
    "C119_off",
    "C119_off_call",
    "C119_value_refuted",
    "C119_restart_refuted"
   ],
   "note": ""
  },
  {
   "property": "C120",
   "status": "proved",
   "theorems": [
    "C120_pressure",
    "C120_not_ready",
    "C120_missed_cycles",
    "C120_missed_cycles_refuted"
   ],
   "note": ""
  },
  {
   "property": "C121",
   "status": "proved",
   "theorems": [
    "C121_level",
    "C121_lost_node_refuted"
   ],
   "note": ""
  },
  {
   "property": "C122",
   "status": "proved",
   "theorems": [
    "C122_concentration",
    "C122_cold_refuted",
    "C122_level_switch_LMT",
    "C122_level_switch_FTL",
    "C122_flow"
   ],
   "note": ""
  },
  {
   "property": "C123",
   "status": "proved",
   "theorems": [
    "C123_temperature",
    "C123_signed_char",
    "C123_signed_char_refuted"
   ],
   "note": ""
  },
  {
   "property": "C124",
   "status": "proved",
   "theorems": [
    "C124_scale",
    "C124_tare",
    "C124_missed_cycles",
    "C124_missed_cycles_refuted",
    "C124_fault_value"
   ],
   "note": ""
  },
  {
   "property": "C125",
   "status": "proved",
   "theorems": [
    "C125_order",
    "C125_completes",
    "C125_refuted"
   ],
   "note": ""
  },
  {
   "property": "C126",
   "status": "proved",
   "theorems": [
    "C126_locked",
    "C126_stopped",
    "C126_pause",
    "C126_reset",
    "C126_skip_mixing",
    "C126_needs_program",
    "C126_refuted",
    "C126_resume_refuted"
   ],
   "note": ""
  },
  {
   "property": "C127",
   "status": "proved",
   "theorems": [
    "C127_service",
    "C127_washes",
    "C127_starts",
    "C127_refuted",
    "C127_unlock_refuted",
    "C127_washes_refuted"
   ],
   "note": ""
  },
  {
   "property": "C128",
   "status": "proved",
   "theorems": [
    "C128_no_conflict",
    "C128_refuted"
   ],
   "note": ""
  },
  {
   "property": "C129",
   "status": "proved",
   "theorems": [
    "C129_routes",
    "C129_one_return",
    "C129_separate",
    "C129_one_return_refuted",
    "C129_neutralised_refuted"
   ],
   "note": ""
  },
  {
   "property": "C130",
   "status": "proved",
   "theorems": [
    "C130_sorting",
    "C130_full_refuted"
   ],
   "note": ""
  },
  {
   "property": "C131",
   "status": "proved",
   "theorems": [
    "C131_returns",
    "C131_takes"
   ],
   "note": ""
  },
  {
   "property": "C132",
   "status": "proved",
   "theorems": [
    "C132_feedings",
    "C132_minute",
    "C132_limit_refuted"
   ],
   "note": ""
  },
  {
   "property": "C133",
   "status": "proved",
   "theorems": [
    "C133_book",
    "C133_others",
    "C133_shutdown",
    "C133_refuted_dash",
    "C133_refuted_wide",
    "C133_refuted_index",
    "C133_erased",
    "C133_refuted_copy"
   ],
   "note": ""
  },
  {
   "property": "C134",
   "status": "proved",
   "theorems": [
    "C134_saved",
    "C134_refuted_busy",
    "C134_refuted_name"
   ],
   "note": ""
  },
  {
   "property": "C135",
   "status": "proved",
   "theorems": [
    "C135_reset",
    "C135_refuted_all"
   ],
   "note": ""
  },
  {
   "property": "C136",
   "status": "proved",
   "theorems": [
    "C136_plain",
    "C136_refuted_wide",
    "C136_refuted_rename"
   ],
   "note": ""
  },
  {
   "property": "C137",
   "status": "proved",
   "theorems": [
    "C137_select",
    "C137_refuted_small",
    "C137_refuted_number"
   ],
   "note": ""
  },
  {
   "property": "C138",
   "status": "proved",
   "theorems": [
    "C138_fresh",
    "C138_refuted_stale",
    "C138_absent"
   ],
   "note": ""
  },
  {
   "property": "C139",
   "status": "proved",
   "theorems": [
    "C139_last",
    "C139_refuted_lost",
    "C139_refuted_sign",
    "C139_refuted_part"
   ],
   "note": ""
  },
  {
   "property": "C140",
   "status": "proved",
   "theorems": [
    "C140_number",
    "C140_hold",
    "C140_sample",
    "C140_tare",
    "C140_refuted_error"
   ],
   "note": ""
  },
  {
   "property": "C141",
   "status": "proved",
   "theorems": [
    "C141_cylinder",
    "C141_cone",
    "C141_iolink"
   ],
   "note": ""
  },
  {
   "property": "C142",
   "status": "proved",
   "theorems": [
    "C142_cylinder",
    "C142_cone",
    "C142_refuted_step"
   ],
   "note": ""
  },
  {
   "property": "C143",
   "status": "proved",
   "theorems": [
    "C143_error",
    "C143_refuted_nan",
    "C143_negative"
   ],
   "note": ""
  },
  {
   "property": "C144",
   "status": "proved",
   "theorems": [
    "C144_open",
    "C144_opens",
    "C144_refuted_direct"
   ],
   "note": ""
  },
  {
   "property": "C145",
   "status": "proved",
   "theorems": [
    "C145_stop",
    "C145_restart",
    "C145_report"
   ],
   "note": ""
  },
  {
   "property": "C146",
   "status": "proved",
   "theorems": [
    "C146_range",
    "C146_nan_stays",
    "C146_refuted_manual"
   ],
   "note": ""
  },
  {
   "property": "C147",
   "status": "proved",
   "theorems": [
    "C147_law",
    "C147_interval",
    "C147_output"
   ],
   "note": ""
  },
  {
   "property": "C148",
   "status": "proved",
   "theorems": [
    "C148_manual",
    "C148_refuted_reset"
   ],
   "note": ""
  },
  {
   "property": "C149",
   "status": "proved",
   "theorems": [
    "C149_average",
    "C149_restart",
    "C149_refuted_constant"
   ],
   "note": ""
  },
  {
   "property": "C150",
   "status": "proved",
   "theorems": [
    "C150_text",
    "C150_refuted_camera",
    "C150_refuted_number"
   ],
   "note": ""
  },
  {
   "property": "C151",
   "status": "proved",
   "theorems": [
    "C151_command",
    "C151_history",
    "C151_read",
    "C151_refuted_unnamed"
   ],
   "note": ""
  },
  {
   "property": "C152",
   "status": "proved",
   "theorems": [
    "C152_names"
   ],
   "note": ""
  },
  {
   "property": "C153",
   "status": "proved",
   "theorems": [
    "C153_manual",
    "C153_defined",
    "C153_locked",
    "C153_answer",
    "C153_refuted_state",
    "C153_refuted_letter"
   ],
   "note": ""
  },
  {
   "property": "C154",
   "status": "proved",
   "theorems": [
    "C154_restore",
    "C154_refuted_same_name"
   ],
   "note": ""
  },
  {
   "property": "C155",
   "status": "proved",
   "theorems": [
    "C155_litres",
    "C155_refuted_pause",
    "C155_pause_ignored",
    "C155_refuted_large"
   ],
   "note": ""
  },
  {
   "property": "C156",
   "status": "proved",
   "theorems": [
    "C156_total",
    "C156_flow",
    "C156_state",
    "C156_answer",
    "C156_defined",
    "C156_refuted_restart"
   ],
   "note": ""
  },
  {
   "property": "C157",
   "status": "proved",
   "theorems": [
    "C157_output",
    "C157_refuted_off",
    "C157_state",
    "C157_refuted_uptime"
   ],
   "note": ""
  },
  {
   "property": "C158",
   "status": "proved",
   "theorems": [
    "C158_ready",
    "C158_refuted_result",
    "C158_defined"
   ],
   "note": ""
  },
  {
   "property": "C159",
   "status": "proved",
   "theorems": [
    "C159_sent",
    "C159_defined",
    "C159_refuted_limit",
    "C159_refuted_early",
    "C159_refuted_state"
   ],
   "note": ""
  },
  {
   "property": "C160",
   "status": "proved",
   "theorems": [
    "C160_reported",
    "C160_before",
    "C160_light",
    "C160_refuted_light"
   ],
   "note": ""
  }
 ]
}