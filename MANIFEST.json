{
 "claims": [
  {
   "property": "C01",
   "status": "proved",
   "theorems": [
    "C01_pid_output_in_limits",
    "C01_controller_output_in_limits",
    "C01_positive_slewNeg_refuted",
    "C01_setpoint_hysteresis_refuted"
   ],
   "note": "Proved for the bare loop and for controllers without setpoint hysteresis; the two _refuted theorems show the sign condition on slewNeg and the exclusion of setpoint hysteresis are needed."
  },
  {
   "property": "C02",
   "status": "proved",
   "theorems": [
    "C02_integral_in_limits",
    "C02_controller_integral_in_limits"
   ],
   "note": ""
  },
  {
   "property": "C03",
   "status": "proved",
   "theorems": [
    "C03_slew_increase",
    "C03_slew_decrease"
   ],
   "note": ""
  },
  {
   "property": "C04",
   "status": "proved",
   "theorems": [
    "C04_pid_formula"
   ],
   "note": ""
  },
  {
   "property": "C05",
   "status": "proved",
   "theorems": [
    "C05_monotone_response"
   ],
   "note": ""
  },
  {
   "property": "C06",
   "status": "proved",
   "theorems": [
    "C06_no_nan",
    "C06_zero_period_refuted"
   ],
   "note": "The _refuted theorem shows that a zero sample period produces NaN."
  },
  {
   "property": "C07",
   "status": "proved",
   "theorems": [
    "C07_input_hysteresis",
    "C07_used_value_within_band"
   ],
   "note": ""
  },
  {
   "property": "C08",
   "status": "proved",
   "theorems": [
    "C08_above_band",
    "C08_below_band",
    "C08_inside_band"
   ],
   "note": ""
  },
  {
   "property": "C09",
   "status": "proved",
   "theorems": [
    "C09_lookup",
    "C09_lookup_determines_value",
    "C09_highest_point_not_above_input",
    "C09_below_all_points",
    "C09_points_after_nan_unused",
    "C09_monotone"
   ],
   "note": ""
  },
  {
   "property": "C10",
   "status": "proved",
   "theorems": [
    "C10_stepwise_hysteresis",
    "C10_outputs_are_table_entries"
   ],
   "note": ""
  },
  {
   "property": "C11",
   "status": "proved",
   "theorems": [
    "C11_margin_is_minimum",
    "C11_absolute_is_maximum",
    "C11_power_is_sum",
    "C11_nothing_readable_gives_setpoint"
   ],
   "note": ""
  },
  {
   "property": "C12",
   "status": "proved",
   "theorems": [
    "C12_fan_feedback_is_lowest_running_fan"
   ],
   "note": ""
  },
  {
   "property": "C13",
   "status": "proved",
   "theorems": [
    "C13_zone_setpoint",
    "C13_nan_ceiling_refuted"
   ],
   "note": "Ceilings must not be NaN; the _refuted theorem shows why."
  },
  {
   "property": "C14",
   "status": "proved",
   "theorems": [
    "C14_zone_setpoint_accumulated",
    "C14_largest_profile_total",
    "C14_profile_is_suffix",
    "C14_negative_request_refuted"
   ],
   "note": "Running sums in general, profile totals when no request is negative; the _refuted theorem shows the difference."
  },
  {
   "property": "C15",
   "status": "proved",
   "theorems": [
    "C15_disabled_controller_has_no_influence",
    "C15_enabled_is_last_written",
    "C15_disabled_ceiling_refuted"
   ],
   "note": "Setpoint controllers only: the _refuted theorem shows that a disabled ceiling controller still caps. The requester name is compared without accumulation."
  },
  {
   "property": "C16",
   "status": "proved",
   "theorems": [
    "C16_setpoint_never_below_minimum",
    "C16_one_cycle",
    "C16_tuning_refuted"
   ],
   "note": "Tuning off; the _refuted theorem shows the tuning file overrides the minimum."
  },
  {
   "property": "C17",
   "status": "proved",
   "theorems": [
    "C17_failsafe_sensors_are_the_failing_ones",
    "C17_failsafe_property",
    "C17_fan_after_wakeup",
    "C17_thermal_after_wakeup"
   ],
   "note": ""
  },
  {
   "property": "C18",
   "status": "proved",
   "theorems": [
    "C18_starts_in_failsafe",
    "C18_stays_until_first_good_poll"
   ],
   "note": ""
  },
  {
   "property": "C19",
   "status": "proved",
   "theorems": [
    "C19_percent_is_the_largest",
    "C19_percent_without_failure",
    "C19_zone_setting_is_not_a_floor_refuted"
   ],
   "note": "The _refuted theorem shows that a sensor percent below the zone's setting lowers the floor."
  },
  {
   "property": "C20",
   "status": "proved",
   "theorems": [
    "C20_failsafe_floor",
    "C20_nan_output_refuted"
   ],
   "note": "Writes that are not NaN; the _refuted theorem shows a NaN output being written in failsafe."
  },
  {
   "property": "C21",
   "status": "proved",
   "theorems": [
    "C21_strict_failsafe",
    "C21_strict_failsafe_any_percents"
   ],
   "note": ""
  },
  {
   "property": "C22",
   "status": "proved",
   "theorems": [
    "C22_output_written_unchanged",
    "C22_every_fan_once_in_order"
   ],
   "note": ""
  },
  {
   "property": "C23",
   "status": "proved",
   "theorems": [
    "C23_missing_acceptable_never_failsafe"
   ],
   "note": ""
  },
  {
   "property": "C24",
   "status": "proved",
   "theorems": [
    "C24_stale_sensor_is_in_failsafe",
    "C24_fresh_sensor_is_not"
   ],
   "note": ""
  },
  {
   "property": "C25",
   "status": "proved",
   "theorems": [
    "C25_manual_mode_does_nothing"
   ],
   "note": ""
  },
  {
   "property": "C26",
   "status": "proved",
   "theorems": [
    "C26_one_forced_rewrite"
   ],
   "note": ""
  },
  {
   "property": "C27",
   "status": "proved",
   "theorems": [
    "C27_cycle_ratio",
    "C27_cycle_ratio_short"
   ],
   "note": "Thermal cycle counter without overflow (T+F < 2^64, or n*F < 2^64 when T <= F)."
  },
  {
   "property": "C28",
   "status": "proved",
   "theorems": [
    "C28_no_drift"
   ],
   "note": ""
  },
  {
   "property": "C29",
   "status": "proved",
   "theorems": [
    "C29_message_beats_initial_property",
    "C29_interface_names",
    "C29_other_interfaces",
    "C29_failed_iff",
    "C29_reason_given",
    "C29_texts",
    "C29_redundancy_reason_refuted",
    "C29_warning_hides_critical_refuted"
   ],
   "note": "Sensors that were built (createDbusPassive succeeded) and histories whose messages carry the expected types. The _refuted theorems show the missing reason for redundancy failures and a warning de-assertion hiding a critical alarm."
  },
  {
   "property": "C30",
   "status": "proved",
   "theorems": [
    "C30_value_is_last_accepted",
    "C30_bad_reading_keeps_value",
    "C30_missing_value_reads_zero_refuted"
   ],
   "note": "The _refuted theorem shows that an object without a Value property reads as 0."
  },
  {
   "property": "C31",
   "status": "proved",
   "theorems": [
    "C31_critical_message_decides",
    "C31_empty_message_changes_nothing"
   ],
   "note": ""
  },
  {
   "property": "C32",
   "status": "proved",
   "theorems": [
    "C32_dbus_raw_in_range",
    "C32_dbus_ends_of_range",
    "C32_dbus_raw_monotone",
    "C32_sysfs_raw_in_range",
    "C32_sysfs_same_as_dbus",
    "C32_huge_bounds_refuted",
    "C32_nan_refuted"
   ],
   "note": "Bounds that doubles represent exactly; the _refuted theorems show undefined conversions for bounds near 2^63 and for NaN."
  },
  {
   "property": "C33",
   "status": "proved",
   "theorems": [
    "C33_only_changes_are_sent",
    "C33_fan_holds_last_command"
   ],
   "note": ""
  },
  {
   "property": "C34",
   "status": "proved",
   "theorems": [
    "C34_lost_write",
    "C34_unforced_repeat_refuted"
   ],
   "note": "The _refuted theorem shows that an unforced repeat of a lost write is never sent."
  },
  {
   "property": "C35",
   "status": "proved",
   "theorems": [
    "C35_normalised_in_unit_interval",
    "C35_normalised_monotone",
    "C35_no_range_passes_unchanged",
    "C35_range_overflow_refuted"
   ],
   "note": "Ranges max - min that do not overflow; the _refuted theorem shows why."
  },
  {
   "property": "C36",
   "status": "proved",
   "theorems": [
    "C36_numbers_are_unique",
    "C36_numbers_are_stable",
    "C36_first_free_number_is_granted",
    "C36_lookup_of_unknown_asks_for_0",
    "C36_always_terminates_below_the_limit",
    "C36_overflow_refuted"
   ],
   "note": "Map of names to numbers starting empty. The _refuted theorem shows signed overflow at 2^63-1."
  },
  {
   "property": "C37",
   "status": "proved",
   "theorems": [
    "C37_each_input_gets_its_own_settings",
    "C37_split_inverts_splice"
   ],
   "note": ""
  },
  {
   "property": "C38",
   "status": "proved",
   "theorems": [
    "C38_at_most_max_lines_per_second",
    "C38_clock_going_back_refuted",
    "C38_no_limit_with_32_bits",
    "C38_32_bits_refuted"
   ],
   "note": "Clock that does not go back and whose milliseconds fit a size_t (64 bits); the _refuted theorems show the limit failing when the clock goes back and, always, with a 32-bit size_t."
  },
  {
   "property": "C39",
   "status": "proved",
   "theorems": [
    "C39_silent_outside_failsafe",
    "C39_line_tells_the_attempt",
    "C39_once_between_state_changes",
    "C39_nothing_else_is_dropped",
    "C39_silent_attempts_use_the_budget_refuted",
    "C39_leaving_line_lost_refuted"
   ],
   "note": "The _refuted theorems show silent attempts using up the budget and a lost 'leaves' line."
  },
  {
   "property": "C40",
   "status": "proved",
   "theorems": [
    "C40_line_iff_due",
    "C40_no_change_is_lost"
   ],
   "note": "Clock readings above 0 ms; 0 marks 'never logged' in the code."
  },
  {
   "property": "C41",
   "status": "proved",
   "theorems": [
    "C41_a_file_has_one_writer",
    "C41_nothing_written_is_truncated",
    "C41_files_named_after_the_loop"
   ],
   "note": ""
  },
  {
   "property": "C42",
   "status": "proved",
   "theorems": [
    "C42_reads_stay_inside_the_request",
    "C42_mode_changes_only_on_set",
    "C42_set_asks_once_and_reports",
    "C42_get_answers_one_byte",
    "C42_everything_else_is_rejected",
    "C42_zone_byte_names_the_zone",
    "C42_reply_is_the_answer_of_the_zone",
    "C42_high_zones_throw",
    "C42_always_a_completion_code_refuted",
    "C42_high_zones_unreachable_refuted",
    "C42_absent_property_reads_as_false_refuted",
    "C42_calls_need_an_object_path"
   ],
   "note": "The _refuted theorems: zone bytes 128-255 name negative zone paths and end in an exception; a missing property reads as off."
  },
  {
   "property": "C43",
   "status": "proved",
   "theorems": [
    "C43_reader_kind",
    "C43_writer_kind"
   ],
   "note": ""
  },
  {
   "property": "C44",
   "status": "proved",
   "theorems": [
    "C44_dbus_at_least_1ms",
    "C44_dbus_value",
    "C44_json_at_least_1ms",
    "C44_json_value",
    "C44_dbus_period_is_positive",
    "C44_json_period_is_positive",
    "C44_json_negative_refuted",
    "C44_period_of_every_interval"
   ],
   "note": "D-Bus source: every value. JSON source: non-negative integers; the _refuted theorem shows a negative number giving a negative timer period. Periods above 9223372036854 ms overflow."
  },
  {
   "property": "C45",
   "status": "proved",
   "theorems": [
    "C45_no_cycle_after_stop",
    "C45_one_loop_per_zone",
    "C45_restart_starts_each_zone_once",
    "C45_at_most_one_cycle_while_stopping",
    "C45_stopping_is_retried_until_done",
    "C45_nothing_after_exit",
    "C45_running_loops_make_the_first_attempt_fail",
    "C45_overlapping_attempts_refuted",
    "C45_attempts_are_requests_or_retries"
   ],
   "note": "Proved for schedules in which stop attempts do not overlap, and for every schedule with one zone. The _refuted theorem shows overlapping attempts leaving an old loop running with two zones."
  },
  {
   "property": "C46",
   "status": "proved",
   "theorems": [
    "C46_pluggable_sensor",
    "C46_host_sensor"
   ],
   "note": ""
  },
  {
   "property": "C47",
   "status": "proved",
   "theorems": [
    "C47_failing_queries",
    "C47_failed_set",
    "C47_initial_set"
   ],
   "note": ""
  },
  {
   "property": "C48",
   "status": "proved",
   "theorems": [
    "C48_warning_iff_pace_elapsed",
    "C48_warnings_three_seconds_apart",
    "C48_warning_iff_three_seconds"
   ],
   "note": ""
  },
  {
   "property": "C49",
   "status": "proved",
   "theorems": [
    "C49_built_as_configured",
    "C49_when_construction_succeeds",
    "C49_construction_is_defined",
    "C49_controllers_stay",
    "C49_inputs_polled_once",
    "C49_thermal_cycle_is_defined",
    "C49_no_undefined_behaviour",
    "C49_loop_keeps_running",
    "C49_empty_fan_pid_refuted"
   ],
   "note": "Construction and the thermal cycle: every configuration. Whole wake-ups: no fan PID may have an empty input list (the _refuted theorem shows the null dereference), writers must be defined and tuning files readable."
  },
  {
   "property": "C50",
   "status": "proved",
   "theorems": [
    "C50_offline_failsafe",
    "C50_uninitialised_raw_refuted"
   ],
   "note": "Executions without undefined behaviour; the _refuted theorem shows the uninitialised read for writers that report no raw value."
  },
  {
   "property": "C51",
   "status": "proved",
   "theorems": [
    "C51_reaction_time"
   ],
   "note": "Writes that are not NaN, tuning off, F <= T."
  },
  {
   "property": "C52",
   "status": "proved",
   "theorems": [
    "C52_zones_are_independent"
   ],
   "note": ""
  },
  {
   "property": "C53",
   "status": "proved",
   "theorems": [
    "C53_every_input_is_polled"
   ],
   "note": ""
  },
  {
   "property": "C54",
   "status": "proved",
   "theorems": [
    "C54_requester_name"
   ],
   "note": ""
  },
  {
   "property": "C55",
   "status": "proved",
   "theorems": [
    "C55_raw_output",
    "C55_log_file",
    "C55_row_content",
    "C55_rows_match_header"
   ],
   "note": ""
  },
  {
   "property": "C56",
   "status": "proved",
   "theorems": [
    "C56_zone_log_sees_exactly_its_own",
    "C56_no_other_zone_is_named"
   ],
   "note": ""
  },
  {
   "property": "C57",
   "status": "proved",
   "theorems": [
    "C57_logging_never_changes_the_loop",
    "C57_nothing_written_when_off"
   ],
   "note": ""
  },
  {
   "property": "C58",
   "status": "proved",
   "theorems": [
    "C58_own_percent_is_the_largest"
   ],
   "note": "Percentages that are not NaN."
  },
  {
   "property": "C59",
   "status": "proved",
   "theorems": [
    "C59_acceptable_if_any_pid_says_so"
   ],
   "note": ""
  },
  {
   "property": "C60",
   "status": "proved",
   "theorems": [
    "C60_what_can_be_set_up",
    "C60_what_a_bus_sensor_needs",
    "C60_sensors_as_configured",
    "C60_when_sensors_can_be_built",
    "C60_external_fan_refuted",
    "C60_external_host_off_option_refuted"
   ],
   "note": "The _refuted theorems: a fan with an external read path is built with a null reader; the host-off option has no effect on external sensors."
  },
  {
   "property": "C61",
   "status": "proved",
   "theorems": [
    "C61_polls_of_a_wakeup",
    "C61_every_poll_is_defined_refuted",
    "C61_fan_without_source",
    "C61_reason",
    "C61_reason_of_others",
    "C61_failed_iff",
    "C61_value",
    "C61_external",
    "C61_sysfs",
    "C61_age"
   ],
   "note": "Values of D-Bus sensors: scaled bounds not NaN. Sysfs: file holds a number."
  },
  {
   "property": "C62",
   "status": "proved",
   "theorems": [
    "C62_device_reaction",
    "C62_configured_reaction"
   ],
   "note": "Tuning off, F <= T, percentages 0..100, fan limits within 0..2^53, writes reach the device, the fan is the only one with its write path."
  },
  {
   "property": "C63",
   "status": "proved",
   "theorems": [
    "C63_daemon_starts",
    "C63_daemon_keeps_running"
   ],
   "note": "Conversion of a fan command (NaN or out of range) is the one outcome left open; C32 says when it is defined."
  },
  {
   "property": "C64",
   "status": "proved",
   "theorems": [
    "C64_device_holds_last_command",
    "C64_only_delivered_commands_count",
    "C64_only_wakeups_write"
   ],
   "note": "Commands with non-negative raw value, writes that reach the device."
  },
  {
   "property": "C65",
   "status": "proved",
   "theorems": [
    "C65_loaded_as_written",
    "C65_fractional_percent_refuted",
    "C65_long_table_refuted",
    "C65_documented_timeout_refuted"
   ],
   "note": "Names and numbers distinct, FailSafePercent an integer, tables of at most 20 points. The _refuted theorems: fractions cut off, a 21st point dropped, the documented default timeouts."
  },
  {
   "property": "C66",
   "status": "proved",
   "theorems": [
    "C66_accepted_documents",
    "C66_optional_read_path_refuted"
   ],
   "note": "The _refuted theorem: configure.md calls readPath optional."
  },
  {
   "property": "C67",
   "status": "proved",
   "theorems": [
    "C67_always_answered",
    "C67_missing_zone_number_refuted",
    "C67_missing_sensor_name_refuted"
   ],
   "note": "The _refuted theorems: a zone without id or a sensor without name is undefined behaviour."
  },
  {
   "property": "C68",
   "status": "proved",
   "theorems": [
    "C68_document_runs"
   ],
   "note": "As C63, leaves open the conversion of a fan command."
  },
  {
   "property": "C69",
   "status": "proved",
   "theorems": [
    "C69_loaded_from_the_bus",
    "C69_order_refuted",
    "C69_stepwise_percent_refuted",
    "C69_margin_order_refuted",
    "C69_margin_shift_refuted",
    "C69_stepwise_missing_refuted",
    "C69_integer_index_refuted",
    "C69_interface_names"
   ],
   "note": "The regular-expression engine and the selected profiles are parameters. The _refuted theorems: dependence on the order of objects, stepwise percentages ignored, zeros given to the wrong input, stepwise inputs lost after a missing one, integer zone numbers ignored."
  },
  {
   "property": "C70",
   "status": "proved",
   "theorems": [
    "C70_complete_configuration_loads",
    "C70_one_bad_object_refuted"
   ],
   "note": "The _refuted theorem: one incomplete object and nothing is loaded."
  },
  {
   "property": "C71",
   "status": "proved",
   "theorems": [
    "C71_always_answered",
    "C71_percent_refuted",
    "C71_zone_number_refuted"
   ],
   "note": "The _refuted theorems: percentages and zone numbers out of range."
  },
  {
   "property": "C72",
   "status": "proved",
   "theorems": [
    "C72_configuration_runs",
    "C72_zone_not_described_refuted"
   ],
   "note": "As C63, leaves open the conversion of a fan command. The _refuted theorem: a controller in a zone without object."
  },
  {
   "property": "C73",
   "status": "proved",
   "theorems": [
    "C73_object_paths_are_distinct",
    "C73_no_other_path_is_used",
    "C73_every_path_is_needed"
   ],
   "note": "Ids and names are keys of std::map, hence the NoDup hypotheses. Whether the bus grants a path is an argument."
  },
  {
   "property": "C74",
   "status": "proved",
   "theorems": [
    "C74_object_shows_the_cycle",
    "C74_stepwise_object_is_not_updated",
    "C74_input_is_current_refuted"
   ],
   "note": "Inputs must have names (an empty name is taken for \"no leader\"). The _refuted theorem: the shown input can be an old reading."
  },
  {
   "property": "C75",
   "status": "proved",
   "theorems": [
    "C75_mode_changes_are_printed"
   ],
   "note": "The hypothesis that fan controllers start with the transition mark is what construction gives (C49, fan_for)."
  },
  {
   "property": "C76",
   "status": "proved",
   "theorems": [
    "C76_new_requester_is_printed",
    "C76_first_requester_is_printed",
    "C76_every_takeover_is_printed_refuted"
   ],
   "note": "The hypothesis of an empty previous name is what construction gives (C49, zo_quiet). Fans are recognised as in the code, by \"Fan\" in the name. The _refuted theorem: a controller that takes over from the minimum is not always announced."
  },
  {
   "property": "C77",
   "status": "proved",
   "theorems": [
    "C77_tuning_files_only_set_the_setpoint",
    "C77_readable_files_do_not_stop_a_cycle",
    "C77_empty_file_refuted"
   ],
   "note": "Files are read once per cycle. The _refuted theorem: an empty file is undefined behaviour."
  },
  {
   "property": "C78",
   "status": "proved",
   "theorems": [
    "C78_failsafe_log_attempts",
    "C78_state_is_the_property",
    "C78_log_follows_the_zone_refuted"
   ],
   "note": "What the log prints of these attempts: C37-C39. The _refuted theorem: the sensors write to the same log, so it can say that the zone leaves failsafe while it does not."
  },
  {
   "property": "C79",
   "status": "proved",
   "theorems": [
    "C79_commands_in_range",
    "C79_last_command_in_range",
    "C79_infinite_output_refuted"
   ],
   "note": "Bounds: 2^100 for outputs of thermal and stepwise controllers, 2^200 for fan speeds, 2^40 controllers per zone; temperatures are unbounded. The _refuted theorem: with an infinite stepwise output the fans are commanded to NaN."
  },
  {
   "property": "C80",
   "status": "proved",
   "theorems": [
    "C80_daemon_never_stops",
    "C80_devices_in_range",
    "C80_json_document",
    "C80_dbus_configuration",
    "C80_negative_minimum_refuted"
   ],
   "note": "\"Can be served\" as in C63: files parse as numbers, messages have the announced shape. The _refuted theorem: a fan with a negative minimum makes an ordinary command undefined behaviour."
  },
  {
   "property": "C81",
   "status": "proved",
   "theorems": [
    "C81_which_signals",
    "C81_no_change_is_lost",
    "C81_running_zones_are_current",
    "C81_no_reload_without_cause",
    "C81_burst_is_one_reload",
    "C81_new_controller_refuted"
   ],
   "note": "Safety: what holds once nothing is pending; that retries come to an end is C45. Running zones: attempts to stop do not overlap, or one zone (C45). The _refuted theorem: a new controller or zone object is not noticed."
  },
  {
   "property": "C82",
   "status": "proved",
   "theorems": [
    "C82_hup_is_not_lost",
    "C82_term_is_not_lost"
   ],
   "note": "Safety: what holds once nothing is pending."
  },
  {
   "property": "C83",
   "status": "proved",
   "theorems": [
    "C83_current_mode_selects",
    "C83_unreadable_mode",
    "C83_order_does_not_matter"
   ],
   "note": ""
  },
  {
   "property": "C84",
   "status": "proved",
   "theorems": [
    "C84_rounding_error",
    "C84_no_memory_no_drift",
    "C84_controller",
    "C84_one_year",
    "C84_exactness_refuted"
   ],
   "note": "The _refuted theorem shows that the outputs are not exact."
  },
  {
   "property": "C85",
   "status": "proved",
   "theorems": [
    "C85_which_file",
    "C85_missing_directory",
    "C85_polls_read_that_file",
    "C85_other_devices_are_never_written",
    "C85_order_does_not_matter_refuted",
    "C85_wildcards_are_resolved_refuted",
    "C85_own_paths_own_devices_refuted"
   ],
   "note": "The _refuted theorems show that the order of the entries matters, that an empty directory leaves the stars in the path, and that two fans can share one file."
  },
  {
   "property": "C86",
   "status": "proved",
   "theorems": [
    "C86_accumulated_requester",
    "C86_contributors_are_named",
    "C86_only_contributors_are_named_refuted",
    "C86_ceiling_is_named_refuted"
   ],
   "note": "The _refuted theorems show that controllers of other profiles can be named too, and that nobody is named when a ceiling decides."
  },
  {
   "property": "C87",
   "status": "proved",
   "theorems": [
    "C87_document_runs",
    "C87_bad_file_ends",
    "C87_only_the_file_counts",
    "C87_bus_runs",
    "C87_bus_failure_is_retried",
    "C87_missing_named_file_refuted"
   ],
   "note": "Keeps running: as in C63, apart from commands out of range. The _refuted theorem: a file named with -c that is gone is not an error, and the bus is used."
  },
  {
   "property": "C88",
   "status": "proved",
   "theorems": [
    "C88_started",
    "C88_not_started"
   ],
   "note": "The attempts and what they find are those of C87."
  },
  {
   "property": "C89",
   "status": "proved",
   "theorems": [
    "C89_switches",
    "C89_refused",
    "C89_core_log_refuted",
    "C89_folder_refuted",
    "C89_no_temporary_folder_refuted"
   ],
   "note": "For a folder that is not the empty string. The _refuted theorems: core log without log, a file named as folder, no folder for temporary files."
  },
  {
   "property": "C90",
   "status": "proved",
   "theorems": [
    "C90_running_system",
    "C90_host_state"
   ],
   "note": "The restriction to attempts that do not overlap, or one zone, is that of C45 (C45_overlapping_attempts_refuted)."
  },
  {
   "property": "C91",
   "status": "proved",
   "theorems": [
    "C91_only_cycles_write"
   ],
   "note": "For every state, reachable or not."
  },
  {
   "property": "C92",
   "status": "proved",
   "theorems": [
    "C92_no_undefined_behaviour",
    "C92_what_ends_it"
   ],
   "note": "With OFFLINE_FAILSAFE_PWM all fans must be on D-Bus: C95_sysfs_refuted. A life with that switch: C95_sensible_example."
  },
  {
   "property": "C93",
   "status": "proved",
   "theorems": [
    "C93_sensible_life",
    "C93_devices_in_range"
   ],
   "note": "With OFFLINE_FAILSAFE_PWM all fans must be on D-Bus: C95_sysfs_refuted. Hypotheses: C92_example and C93_example, and C95_sensible_example with that switch."
  },
  {
   "property": "C94",
   "status": "proved",
   "theorems": [
    "C94_reload_resumes",
    "C94_published_sensors_block_reloads",
    "C94_reload_refuted"
   ],
   "note": "That a second object with the same path throws is taken from sdbusplus. The _refuted theorem: after reloading an unchanged configuration with an external sensor nothing drives the fans any more, whatever happens."
  },
  {
   "property": "C95",
   "status": "proved",
   "theorems": [
    "C95_offline_failsafe",
    "C95_sysfs_refuted"
   ],
   "note": "If several zones drive a fan they must agree on the percentage; nothing is said about a scaled value below 0. The _refuted theorem: a fan in sysfs makes the reload undefined behaviour (the variable for the raw value is never set, C50)."
  },
  {
   "property": "C96",
   "status": "proved",
   "theorems": [
    "C96_two_attempts",
    "C96_term_ends",
    "C96_reload_between_refuted"
   ],
   "note": "That the timer expires and that queued handlers are run are hypotheses about the event loop. The _refuted theorem: a reload between the attempts makes the second one fail, too."
  },
  {
   "property": "C97",
   "status": "proved",
   "theorems": [
    "C97_reload_is_served"
   ],
   "note": "That the timer expires and that queued handlers are run are hypotheses about the event loop. Whether the configuration read then works: C94."
  },
  {
   "property": "C98",
   "status": "proved",
   "theorems": [
    "C98_hotter_history",
    "C98_never_drops",
    "C98_rate_limit_refuted",
    "C98_derivative_refuted",
    "C98_hysteresis_refuted"
   ],
   "note": "The _refuted theorems: the claim fails with a rate limit, a derivative term or hysteresis."
  },
  {
   "property": "C99",
   "status": "proved",
   "theorems": [
    "C99_hotter_zone"
   ],
   "note": "With the tuning files off. What the fans make of the setpoint: C22, C79; fan loops with feedback from the tachometer are not compared."
  },
  {
   "property": "C100",
   "status": "proved",
   "theorems": [
    "C100_manual_untouched",
    "C100_mode"
   ],
   "note": "C100_mode: for orderly lives as in C90."
  },
  {
   "property": "C101",
   "status": "proved",
   "theorems": [
    "C101_life_reaction"
   ],
   "note": "For orderly lives as in C90; tuning files off, percents between 0 and 100, a thermal interval that is at least the cycle interval and below the wrap-around, writes to devices succeed."
  },
  {
   "property": "C102",
   "status": "proved",
   "theorems": [
    "C102_reports_the_zone",
    "C102_no_such_zone",
    "C102_failing_sensor_is_reported",
    "C102_set_sends",
    "C102_queries_change_nothing",
    "C102_set_takes_effect",
    "C102_manual_was_requested",
    "C102_success_means_set_refuted",
    "C102_set_then_ask_refuted"
   ],
   "note": "Reports: for orderly lives as in C90. \"Success means that the mode is set\" does not hold, see the refuted theorems: success is answered for zones that do not exist, and a query right after a set request can show the mode of before."
  },
  {
   "property": "C103",
   "status": "proved",
   "theorems": [
    "C103_recovery_ends_failsafe"
   ],
   "note": "For orderly lives as in C90; a thermal interval that is at least the cycle interval and below the wrap-around; zone numbers below 128 (see C42)."
  },
  {
   "property": "C104",
   "status": "proved",
   "theorems": [
    "C104_file_means_no_watching",
    "C104_no_change_is_lost",
    "C104_change_is_served"
   ],
   "note": "\"When the timer expires\" is an event of the execution; that the event loop gets round to it is an assumption, as in C96 and C97."
  },
  {
   "property": "C105",
   "status": "proved",
   "theorems": [
    "C105_hotter_fans",
    "C105_strict_refuted"
   ],
   "note": "C105_strict_refuted: in a strict build a failing sensor lowers the fans from full speed to its failsafe percentage. Fan loops with P, I or D terms react to the measured fan speed and are left out."
  },
  {
   "property": "C106",
   "status": "proved",
   "theorems": [
    "C106_comes_to_rest",
    "C106_rate_limit_only_delays",
    "C106_integral_saturates",
    "C106_clear_rates",
    "C106_clear_gain",
    "C106_tiny_rate_refuted",
    "C106_unused_rate_limit_refuted"
   ],
   "note": "C106_tiny_rate_refuted: a rate lost in rounding keeps the output for ever. C106_unused_rate_limit_refuted: with integral and feed-forward a rate limit that is never reached makes the output climb from 10 to 60 at the setpoint."
  },
  {
   "property": "C107",
   "status": "proved",
   "theorems": [
    "C107_zone_comes_to_rest"
   ],
   "note": "Tuning disabled. Says nothing about a zone whose fans answer to the commands: fan speeds are part of what stays the same."
  },
  {
   "property": "C108",
   "status": "proved",
   "theorems": [
    "C108_other_fans"
   ],
   "note": "Any configuration that loads; any build flags. Health matters because a bad fan puts the whole zone into failsafe (C58)."
  },
  {
   "property": "C109",
   "status": "proved",
   "theorems": [
    "C109_own_sensors"
   ],
   "note": "Both histories must run without an exception. Redundancy and host-power news count as concerning every zone."
  },
  {
   "property": "C110",
   "status": "proved",
   "theorems": [
    "C110_clock",
    "C110_same_life",
    "C110_same_end"
   ],
   "note": "The clock of the model is unbounded."
  },
  {
   "property": "C111",
   "status": "proved",
   "theorems": [
    "C111_daemon_comes_to_rest",
    "C111_bus_goes_quiet"
   ],
   "note": "Temperatures below 2^200 in magnitude; tuning off; the zone lists each fan once."
  }
 ]
}