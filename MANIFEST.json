{
 "claims": [
  {
   "property": "C01",
   "status": "proved",
   "theorems": [
    "C01_whole_line",
    "C01_whole_address",
    "C01_bare_line",
    "C01_unfold_undoes_fold",
    "C01_empty_value",
    "C01_text"
   ],
   "note": ""
  },
  {
   "property": "C02",
   "status": "proved",
   "theorems": [
    "C02_physical_line_length",
    "C02_rfc_bound_refuted"
   ],
   "note": ""
  },
  {
   "property": "C03",
   "status": "proved",
   "theorems": [
    "C03_fold_panics_iff",
    "C03_no_error"
   ],
   "note": ""
  },
  {
   "property": "C04",
   "status": "proved",
   "theorems": [
    "C04_escape",
    "C04_injective_without_backslash",
    "C04_backslash_refuted"
   ],
   "note": ""
  },
  {
   "property": "C05",
   "status": "proved",
   "theorems": [
    "C05_never_unescapes",
    "C05_grows_for_ever",
    "C05_stable_without_specials"
   ],
   "note": ""
  },
  {
   "property": "C06",
   "status": "proved",
   "theorems": [
    "C06_content_line_syntax",
    "C06_rejection"
   ],
   "note": ""
  },
  {
   "property": "C07",
   "status": "proved",
   "theorems": [
    "C07_reading_lines_total",
    "C07_longest"
   ],
   "note": ""
  },
  {
   "property": "C08",
   "status": "proved",
   "theorems": [
    "C08_last_parameter_wins"
   ],
   "note": ""
  },
  {
   "property": "C09",
   "status": "proved",
   "theorems": [
    "C09_safe_line_round_trip",
    "C09_colon_not_preserved"
   ],
   "note": ""
  },
  {
   "property": "C10",
   "status": "proved",
   "theorems": [
    "C10_audio_last",
    "C10_audio_earlier",
    "C10_audio_missing",
    "C10_display_last",
    "C10_display_earlier",
    "C10_display_missing",
    "C10_email_last",
    "C10_email_earlier",
    "C10_email_missing",
    "C10_vevent_last",
    "C10_vevent_earlier",
    "C10_vevent_missing",
    "C10_vfreebusy_last",
    "C10_vfreebusy_earlier",
    "C10_vfreebusy_missing",
    "C10_vjournal_last",
    "C10_vjournal_earlier",
    "C10_vjournal_missing",
    "C10_vtodo_last",
    "C10_vtodo_earlier",
    "C10_vtodo_missing",
    "C10_standard_last",
    "C10_standard_earlier",
    "C10_standard_missing",
    "C10_daylight_last",
    "C10_daylight_earlier",
    "C10_daylight_missing",
    "C10_vtimezone_last",
    "C10_vtimezone_earlier",
    "C10_vtimezone_missing",
    "C10_vcalendar_last",
    "C10_vcalendar_earlier",
    "C10_vcalendar_missing",
    "C10_alarm_missing"
   ],
   "note": ""
  },
  {
   "property": "C11",
   "status": "proved",
   "theorems": [
    "C11_audio_read",
    "C11_display_read",
    "C11_email_read",
    "C11_vevent_read",
    "C11_vfreebusy_read",
    "C11_vjournal_read",
    "C11_vtodo_read",
    "C11_standard_read",
    "C11_daylight_read",
    "C11_vtimezone_read",
    "C11_vcalendar_read"
   ],
   "note": ""
  },
  {
   "property": "C12",
   "status": "proved",
   "theorems": [
    "C12_audio_others",
    "C12_display_others",
    "C12_email_others",
    "C12_vevent_others",
    "C12_vfreebusy_others",
    "C12_vjournal_others",
    "C12_vtodo_others",
    "C12_standard_others",
    "C12_daylight_others",
    "C12_vtimezone_others",
    "C12_vcalendar_others"
   ],
   "note": ""
  },
  {
   "property": "C13",
   "status": "proved",
   "theorems": [
    "C13_vevent_read",
    "C13_vevent_written",
    "C13_vfreebusy_read",
    "C13_vfreebusy_written",
    "C13_vjournal_read",
    "C13_vjournal_written",
    "C13_vtodo_read",
    "C13_vtodo_written"
   ],
   "note": ""
  },
  {
   "property": "C14",
   "status": "proved",
   "theorems": [
    "C14_children"
   ],
   "note": ""
  },
  {
   "property": "C15",
   "status": "proved",
   "theorems": [
    "C15_calendar_grammar",
    "C15_event_grammar",
    "C15_timezone_grammar",
    "C15_todo_grammar",
    "C15_journal_grammar",
    "C15_freebusy_grammar",
    "C15_standard_grammar",
    "C15_daylight_grammar",
    "C15_alarm_grammar",
    "C15_calendar_unique"
   ],
   "note": ""
  },
  {
   "property": "C16",
   "status": "proved",
   "theorems": [
    "C16_rule_exact",
    "C16_freebusy_exact",
    "C16_rdate_exact",
    "C16_duration_exact",
    "C16_trigger_exact",
    "C16_event_lines",
    "C16_todo_lines",
    "C16_journal_lines",
    "C16_freebusy_lines",
    "C16_standard_lines",
    "C16_daylight_lines",
    "C16_alarm_lines",
    "C16_calendar_exact",
    "C16_event_exact",
    "C16_timezone_exact",
    "C16_alarm_exact",
    "C16_todo_exact",
    "C16_journal_exact",
    "C16_freebusy_text_exact",
    "C16_standard_exact",
    "C16_daylight_exact",
    "C16_one_line_crashes",
    "C16_panics_confined",
    "C16_examples",
    "C16_rule_always"
   ],
   "note": ""
  },
  {
   "property": "C17",
   "status": "proved",
   "theorems": [
    "C17_kinds_not_parsable",
    "C17_dispatch"
   ],
   "note": ""
  },
  {
   "property": "C18",
   "status": "proved",
   "theorems": [
    "C18_gregorian_calendar",
    "C18_from_ymd"
   ],
   "note": ""
  },
  {
   "property": "C19",
   "status": "proved",
   "theorems": [
    "C19_date_round_trip",
    "C19_other_years_rejected"
   ],
   "note": ""
  },
  {
   "property": "C20",
   "status": "proved",
   "theorems": [
    "C20_only_real_dates",
    "C20_naive_value",
    "C20_dates_accepted",
    "C20_times_accepted",
    "C20_zoned_value",
    "C20_exact",
    "C20_from_str_exact",
    "C20_in_components"
   ],
   "note": ""
  },
  {
   "property": "C21",
   "status": "proved",
   "theorems": [
    "C21_naive_round_trip"
   ],
   "note": ""
  },
  {
   "property": "C22",
   "status": "proved",
   "theorems": [
    "C22_property_parser_shifts",
    "C22_from_str"
   ],
   "note": ""
  },
  {
   "property": "C23",
   "status": "proved",
   "theorems": [
    "C23_duration_round_trip",
    "C23_fraction_lost"
   ],
   "note": ""
  },
  {
   "property": "C24",
   "status": "proved",
   "theorems": [
    "C24_duration_grammar",
    "C24_any_text",
    "C24_panics_iff",
    "C24_in_components"
   ],
   "note": ""
  },
  {
   "property": "C25",
   "status": "proved",
   "theorems": [
    "C25_digits_accumulate",
    "C25_single_part",
    "C25_two_parts_refuted",
    "C25_weeks_rejected",
    "C25_any_text"
   ],
   "note": ""
  },
  {
   "property": "C26",
   "status": "proved",
   "theorems": [
    "C26_rule_round_trip"
   ],
   "note": ""
  },
  {
   "property": "C27",
   "status": "proved",
   "theorems": [
    "C27_last_value_of_known_names",
    "C27_order_insensitive",
    "C27_accepted_rule",
    "C27_out_of_range_rejected",
    "C27_missing_freq_panics",
    "C27_any_text",
    "C27_in_components"
   ],
   "note": ""
  },
  {
   "property": "C28",
   "status": "proved",
   "theorems": [
    "C28_closed_vocabularies",
    "C28_weekday",
    "C28_class",
    "C28_in_components"
   ],
   "note": ""
  },
  {
   "property": "C29",
   "status": "proved",
   "theorems": [
    "C29_exact",
    "C29_weekday_number_round_trip"
   ],
   "note": ""
  },
  {
   "property": "C30",
   "status": "proved",
   "theorems": [
    "C30_exact",
    "C30_utc_offset_round_trip",
    "C30_in_components"
   ],
   "note": ""
  },
  {
   "property": "C31",
   "status": "proved",
   "theorems": [
    "C31_vevent_rdate_lost",
    "C31_vjournal_rdate_lost",
    "C31_vtodo_rdate_lost",
    "C31_standard_rdate_lost",
    "C31_daylight_rdate_lost",
    "C31_period_round_trip",
    "C31_negative_duration_rejected",
    "C31_no_slash_panics",
    "C31_rdate_never_read_back",
    "C31_rdate_line",
    "C31_period_exact",
    "C31_rdate_exact",
    "C31_in_components"
   ],
   "note": ""
  },
  {
   "property": "C32",
   "status": "proved",
   "theorems": [
    "C32_integers",
    "C32_round_trip",
    "C32_in_components"
   ],
   "note": ""
  },
  {
   "property": "C33",
   "status": "proved",
   "theorems": [
    "C33_trigger_round_trip",
    "C33_kinds_never_confused",
    "C33_exact",
    "C33_from_str_exact",
    "C33_in_components"
   ],
   "note": ""
  },
  {
   "property": "C34",
   "status": "proved",
   "theorems": [
    "C34_text_lists",
    "C34_commas_split",
    "C34_exdate",
    "C34_freebusy",
    "C34_exact",
    "C34_in_components"
   ],
   "note": ""
  },
  {
   "property": "C35",
   "status": "proved",
   "theorems": [
    "C35_datetime_order",
    "C35_mixed_equal_not_identical"
   ],
   "note": ""
  },
  {
   "property": "C36",
   "status": "proved",
   "theorems": [
    "C36_one_kind",
    "C36_mixed_refuted",
    "C36_mixed_before",
    "C36_mixed_laws",
    "C36_mixed_equal",
    "C36_mixed_minimum"
   ],
   "note": ""
  },
  {
   "property": "C37",
   "status": "proved",
   "theorems": [
    "C37_period_order",
    "C37_equal_not_identical"
   ],
   "note": ""
  },
  {
   "property": "C38",
   "status": "proved",
   "theorems": [
    "C38_three_kinds",
    "C38_no_rule",
    "C38_kind"
   ],
   "note": ""
  },
  {
   "property": "C39",
   "status": "proved",
   "theorems": [
    "C39_kind",
    "C39_kth_occurrence",
    "C39_kth_steps"
   ],
   "note": ""
  },
  {
   "property": "C40",
   "status": "proved",
   "theorems": [
    "C40_at_most_count",
    "C40_exactly_count",
    "C40_kind",
    "C40_count_complete"
   ],
   "note": ""
  },
  {
   "property": "C41",
   "status": "proved",
   "theorems": [
    "C41_until_bounds",
    "C41_until_complete",
    "C41_last_lost",
    "C41_kind"
   ],
   "note": ""
  },
  {
   "property": "C42",
   "status": "proved",
   "theorems": [
    "C42_exdates_skipped",
    "C42_first_always",
    "C42_only_exdates_skipped",
    "C42_kind"
   ],
   "note": ""
  },
  {
   "property": "C43",
   "status": "proved",
   "theorems": [
    "C43_kind",
    "C43_strictly_increasing"
   ],
   "note": ""
  },
  {
   "property": "C44",
   "status": "proved",
   "theorems": [
    "C44_outcome_unique",
    "C44_kind",
    "C44_hang_kind",
    "C44_returns",
    "C44_zero_interval_hangs",
    "C44_any_number_of_calls",
    "C44_turns_kind"
   ],
   "note": ""
  },
  {
   "property": "C45",
   "status": "proved",
   "theorems": [
    "C45_ended_stays_ended",
    "C45_run_stays_ended",
    "C45_windows_stay_ended"
   ],
   "note": ""
  },
  {
   "property": "C46",
   "status": "proved",
   "theorems": [
    "C46_event_unchanged",
    "C46_journal_unchanged",
    "C46_todo_unchanged"
   ],
   "note": ""
  },
  {
   "property": "C47",
   "status": "proved",
   "theorems": [
    "C47_length_kept"
   ],
   "note": ""
  },
  {
   "property": "C48",
   "status": "proved",
   "theorems": [
    "C48_kind",
    "C48_by_parts_ignored"
   ],
   "note": ""
  },
  {
   "property": "C49",
   "status": "proved",
   "theorems": [
    "C49_zoned",
    "C49_monthly_step",
    "C49_monthly_zoned",
    "C49_drift"
   ],
   "note": ""
  },
  {
   "property": "C50",
   "status": "proved",
   "theorems": [
    "C50_zoned",
    "C50_no_such_hour",
    "C50_yearly_step",
    "C50_panic_before_yield"
   ],
   "note": ""
  },
  {
   "property": "C51",
   "status": "proved",
   "theorems": [
    "C51_days",
    "C51_days_join",
    "C51_at_day",
    "C51_kind",
    "C51_at_kind",
    "C51_after",
    "C51_between",
    "C51_unique",
    "C51_window",
    "C51_at_end",
    "C51_at"
   ],
   "note": ""
  },
  {
   "property": "C52",
   "status": "proved",
   "theorems": [
    "C52_kind",
    "C52_zoned_daily"
   ],
   "note": ""
  },
  {
   "property": "C53",
   "status": "proved",
   "theorems": [
    "C53_audio_field_by_field",
    "C53_display_field_by_field",
    "C53_email_field_by_field",
    "C53_vevent_field_by_field",
    "C53_vfreebusy_field_by_field",
    "C53_vjournal_field_by_field",
    "C53_vtodo_field_by_field",
    "C53_standard_field_by_field",
    "C53_daylight_field_by_field",
    "C53_vtimezone_field_by_field",
    "C53_vcalendar_field_by_field",
    "C53_vtodo_lines",
    "C53_vtodo_serialises",
    "C53_vtodo_read_back",
    "C53_vtodo_round_trip",
    "C53_vjournal_lines",
    "C53_vjournal_serialises",
    "C53_vjournal_read_back",
    "C53_vjournal_round_trip",
    "C53_vfreebusy_lines",
    "C53_vfreebusy_serialises",
    "C53_vfreebusy_read_back",
    "C53_vfreebusy_round_trip",
    "C53_standard_lines",
    "C53_standard_serialises",
    "C53_standard_read_back",
    "C53_standard_round_trip",
    "C53_daylight_lines",
    "C53_daylight_serialises",
    "C53_daylight_read_back",
    "C53_daylight_round_trip",
    "C53_vevent_lines",
    "C53_vevent_serialises",
    "C53_vevent_read_back",
    "C53_vevent_round_trip",
    "C53_valarm_lines",
    "C53_valarm_serialises",
    "C53_valarm_read_back",
    "C53_valarm_round_trip",
    "C53_vtimezone_read_back",
    "C53_vtimezone_round_trip",
    "C53_vcalendar_read_back",
    "C53_vtimezone_serialises",
    "C53_vcalendar_serialises",
    "C53_vcalendar_round_trip"
   ],
   "note": ""
  },
  {
   "property": "C54",
   "status": "proved",
   "theorems": [
    "C54_event_with_alarms",
    "C54_timezone_with_several",
    "C54_calendar_with_several",
    "C54_event_read_back_iff",
    "C54_timezone_read_back_iff",
    "C54_calendar_read_back_iff",
    "C54_event_alarms_property",
    "C54_timezone_parts_property",
    "C54_calendar_children_property"
   ],
   "note": ""
  },
  {
   "property": "C55",
   "status": "proved",
   "theorems": [
    "C55_calendar_of_timezone_with_extension",
    "C55_audio_extensions",
    "C55_display_extensions",
    "C55_email_extensions",
    "C55_vevent_extensions",
    "C55_vfreebusy_extensions",
    "C55_vjournal_extensions",
    "C55_vtodo_extensions",
    "C55_standard_extensions",
    "C55_daylight_extensions",
    "C55_vtimezone_extensions",
    "C55_vcalendar_extensions",
    "C55_vtimezone_extension_after_child",
    "C55_vcalendar_extension_after_child"
   ],
   "note": ""
  },
  {
   "property": "C56",
   "status": "proved",
   "theorems": [
    "C56_audio_collapse",
    "C56_email_collapse",
    "C56_vevent_collapse",
    "C56_vfreebusy_collapse",
    "C56_vjournal_collapse",
    "C56_vtodo_collapse",
    "C56_standard_collapse",
    "C56_daylight_collapse"
   ],
   "note": ""
  },
  {
   "property": "C57",
   "status": "proved",
   "theorems": [
    "C57_audio_vanish",
    "C57_audio_required",
    "C57_display_required",
    "C57_email_vanish",
    "C57_email_required",
    "C57_vevent_vanish",
    "C57_vevent_required",
    "C57_vfreebusy_vanish",
    "C57_vfreebusy_required",
    "C57_vjournal_vanish",
    "C57_vjournal_required",
    "C57_vtodo_vanish",
    "C57_vtodo_required",
    "C57_standard_vanish",
    "C57_daylight_vanish",
    "C57_vtimezone_vanish",
    "C57_vtimezone_required",
    "C57_vcalendar_vanish",
    "C57_vcalendar_required",
    "C57_alarm_without_action_panics"
   ],
   "note": ""
  },
  {
   "property": "C58",
   "status": "proved",
   "theorems": [
    "C58_alarm_frame",
    "C58_alarm_fails"
   ],
   "note": ""
  },
  {
   "property": "C59",
   "status": "proved",
   "theorems": [
    "C59_string",
    "C59_owned_string",
    "C59_integer",
    "C59_float",
    "C59_variant",
    "C59_value",
    "C59_some_value",
    "C59_option_value",
    "C59_alarm_value",
    "C59_alarm_display_value",
    "C59_alarm_email_value",
    "C59_value_types",
    "C59_list",
    "C59_object",
    "C59_compiles",
    "C59_fields",
    "C59_error",
    "C59_panic"
   ],
   "note": "Model of derive/src/macros.rs in Macros.v: expansion by field name, then typing and evaluation of the expansion. None = does not compile. The exceptions are part of the statements."
  },
  {
   "property": "C60",
   "status": "proved",
   "theorems": [
    "C60_default",
    "C60_vevent_new",
    "C60_vfreebusy_new",
    "C60_vjournal_new",
    "C60_vtodo_new",
    "C60_vtimezone_new",
    "C60_vcalendar_new"
   ],
   "note": "default_of is the derived Default of each struct, written field by field; C60_default checks it against the default of each type."
  },
  {
   "property": "C61",
   "status": "proved",
   "theorems": [
    "C61_from_audio",
    "C61_from_display",
    "C61_from_email",
    "C61_valarm_macro",
    "C61_action_decides",
    "C61_reads_same_kind"
   ],
   "note": "C61_reads_same_kind is for tidy contents (no CR in texts, encodable parameters), as C53."
  },
  {
   "property": "C62",
   "status": "proved",
   "theorems": [
    "C62_date",
    "C62_trigger",
    "C62_dates"
   ],
   "note": ""
  },
  {
   "property": "C63",
   "status": "proved",
   "theorems": [
    "C63_trailing_text",
    "C63_quote_refuted",
    "C63_end_line"
   ],
   "note": ""
  },
  {
   "property": "C64",
   "status": "proved",
   "theorems": [
    "C64_folding_is_invisible",
    "C64_any_folding",
    "C64_nested_refuted",
    "C64_only_one_kind_of_fold"
   ],
   "note": ""
  },
  {
   "property": "C65",
   "status": "proved",
   "theorems": [
    "C65_line_endings",
    "C65_unix_file_is_rejected"
   ],
   "note": ""
  },
  {
   "property": "C66",
   "status": "proved",
   "theorems": [
    "C66_lower_case_names",
    "C66_lower_case_keywords"
   ],
   "note": ""
  },
  {
   "property": "C67",
   "status": "proved",
   "theorems": [
    "C67_parameter_over_lines"
   ],
   "note": ""
  },
  {
   "property": "C69",
   "status": "proved",
   "theorems": [
    "C69_kind",
    "C69_reading",
    "C69_writing",
    "C69_zoned_writing",
    "C69_occurrences",
    "C69_zoned_occurrences_refuted"
   ],
   "note": "A zone is any pair of functions (offset at an instant, instants of a wall clock time). C69_zoned_occurrences_refuted shows the restriction to floating starts is needed."
  },
  {
   "property": "C68",
   "status": "proved",
   "theorems": [
    "C68_values_cycle",
    "C68_calendar_date_rejected",
    "C68_trigger_rejected",
    "C68_text"
   ],
   "note": ""
  },
  {
   "property": "C70",
   "status": "proved",
   "theorems": [
    "C70_add_naive",
    "C70_add_zoned",
    "C70_sub_duration",
    "C70_difference",
    "C70_elapsed",
    "C70_add_then_sub",
    "C70_add_then_sub_zoned",
    "C70_add_date",
    "C70_add_less_than_a_day",
    "C70_add_date_time",
    "C70_conversions",
    "C70_to_local",
    "C70_to_local_and_back",
    "C70_leap_second_refuted",
    "C70_add_leap",
    "C70_difference_opposite",
    "C70_difference_leap",
    "C70_add_then_sub_leap",
    "C70_sub_duration_leap"
   ],
   "note": "regular = seconds of day in range, nanoseconds below one second (no leap second); the theorems named _leap are about date-times in a leap second; C70_leap_second_refuted shows that a difference over a day's end does not count it. Durations are signed nanosecond counts."
  },
  {
   "property": "C71",
   "status": "proved",
   "theorems": [
    "C71_start_minus_duration",
    "C71_panics",
    "C71_opposite_of_period"
   ],
   "note": ""
  },
  {
   "property": "C72",
   "status": "proved",
   "theorems": [
    "C72_kind",
    "C72_resume",
    "C72_continue",
    "C72_first"
   ],
   "note": ""
  },
  {
   "property": "C75",
   "status": "proved",
   "theorems": [
    "C75_kind",
    "C75_exclusions",
    "C75_a_set",
    "C75_other_kind"
   ],
   "note": ""
  },
  {
   "property": "C73",
   "status": "proved",
   "theorems": [
    "C73_calendar",
    "C73_event",
    "C73_todo",
    "C73_journal",
    "C73_freebusy",
    "C73_timezone",
    "C73_standard",
    "C73_daylight",
    "C73_alarm",
    "C73_refuted"
   ],
   "note": ""
  },
  {
   "property": "C76",
   "status": "proved",
   "theorems": [
    "C76_geo",
    "C76_request_status"
   ],
   "note": ""
  },
  {
   "property": "C77",
   "status": "proved",
   "theorems": [
    "C77_audio",
    "C77_display",
    "C77_email",
    "C77_vcalendar",
    "C77_vevent",
    "C77_vfreebusy",
    "C77_vjournal",
    "C77_vtimezone",
    "C77_vtodo",
    "C77_standard",
    "C77_daylight",
    "C77_recur",
    "C77_types",
    "C77_accepted",
    "C77_error",
    "C77_panic",
    "C77_fields",
    "C77_names",
    "C77_distinct",
    "C77_readable",
    "C77_parts",
    "C77_parts_refused"
   ],
   "note": "Declarations are transcribed in Generator.v; C77_types checks their types against the model's. Generics and spans of declarations are not modelled."
  },
  {
   "property": "C78",
   "status": "proved",
   "theorems": [
    "C78_reads",
    "C78_unique",
    "C78_optional_comma",
    "C78_two_commas",
    "C78_shorthand_comma",
    "C78_key_alone",
    "C78_not_a_key",
    "C78_no_value",
    "C78_items_comma",
    "C78_written",
    "C78_every_list",
    "C78_call",
    "C78_compiles",
    "C78_order",
    "C78_valarm"
   ],
   "note": "The tokens that syn reads as one expression are one token in the model; an identifier carries the expression it stands for."
  },
  {
   "property": "C74",
   "status": "proved",
   "theorems": [
    "C74_audio",
    "C74_display",
    "C74_email",
    "C74_vevent",
    "C74_vfreebusy",
    "C74_vjournal",
    "C74_vtodo",
    "C74_standard",
    "C74_daylight",
    "C74_valarm",
    "C74_vtimezone",
    "C74_vcalendar"
   ],
   "note": ""
  },
  {
   "property": "C79",
   "status": "proved",
   "theorems": [
    "C79_audio_lines",
    "C79_display_lines",
    "C79_email_lines",
    "C79_vevent_lines",
    "C79_vfreebusy_lines",
    "C79_vjournal_lines",
    "C79_vtodo_lines",
    "C79_standard_lines",
    "C79_daylight_lines",
    "C79_valarm_lines",
    "C79_vtimezone_lines",
    "C79_vcalendar_lines",
    "C79_vfreebusy_cr",
    "C79_vjournal_cr",
    "C79_vtodo_cr",
    "C79_standard_cr",
    "C79_daylight_cr",
    "C79_valarm_cr",
    "C79_vevent_cr",
    "C79_vtimezone_cr",
    "C79_vcalendar_cr"
   ],
   "note": ""
  },
  {
   "property": "C80",
   "status": "proved",
   "theorems": [
    "C80_order_of_lines",
    "C80_order_of_children"
   ],
   "note": ""
  },
  {
   "property": "C81",
   "status": "proved",
   "theorems": [
    "C81_schedule_fields",
    "C81_after",
    "C81_between",
    "C81_end_decides_no_start"
   ],
   "note": ""
  },
  {
   "property": "C82",
   "status": "proved",
   "theorems": [
    "C82_component_error",
    "C82_vocabularies",
    "C82_values",
    "C82_duration",
    "C82_macros",
    "C82_writing_never_errs",
    "C82_never_given",
    "C82_message"
   ],
   "note": ""
  },
  {
   "property": "C83",
   "status": "proved",
   "theorems": [
    "C83_datetime_panics",
    "C83_date_panics",
    "C83_text",
    "C83_concat",
    "C83_wall_clock",
    "C83_midnight",
    "C83_display",
    "C83_date_fields",
    "C83_weeks",
    "C83_iso_weeks",
    "C83_time_fields",
    "C83_offset",
    "C83_timestamp",
    "C83_abbreviations"
   ],
   "note": ""
  },
  {
   "property": "C84",
   "status": "proved",
   "theorems": [
    "C84_text_order",
    "C84_other_years",
    "C84_from_date",
    "C84_day"
   ],
   "note": ""
  },
  {
   "property": "C85",
   "status": "proved",
   "theorems": [
    "C85_loaded_calendar",
    "C85_loaded_event",
    "C85_loaded_timezone",
    "C85_loaded_alarm",
    "C85_loaded_todo",
    "C85_loaded_journal",
    "C85_loaded_freebusy",
    "C85_loaded_standard",
    "C85_loaded_daylight",
    "C85_event_stays",
    "C85_timezone_stays",
    "C85_calendar_stays",
    "C85_alarm_stays",
    "C85_todo_stays",
    "C85_journal_stays",
    "C85_freebusy_stays",
    "C85_standard_stays",
    "C85_daylight_stays",
    "C85_calendar_for_ever",
    "C85_event_for_ever",
    "C85_next_generation"
   ],
   "note": ""
  },
  {
   "property": "C86",
   "status": "proved",
   "theorems": [
    "C86_uid_length",
    "C86_summary_length",
    "C86_extensions_wrap",
    "C86_stamp_drifts",
    "C86_drift_ends",
    "C86_calendar_ends",
    "C86_safe_event_for_ever",
    "C86_safe_calendar_for_ever",
    "C86_floating_stays",
    "C86_alarm",
    "C86_todo",
    "C86_journal",
    "C86_freebusy",
    "C86_standard",
    "C86_daylight",
    "C86_event",
    "C86_timezone",
    "C86_calendar",
    "C86_loaded_calendar"
   ],
   "note": ""
  },
  {
   "property": "C87",
   "status": "proved",
   "theorems": [
    "C87_agrees",
    "C87_excluded_start",
    "C87_count_departs",
    "C87_until_departs",
    "C87_month_departs",
    "C87_until_date",
    "C87_until_time",
    "C87_until_midnight"
   ],
   "note": ""
  },
  {
   "property": "C88",
   "status": "proved",
   "theorems": [
    "C88_calendar",
    "C88_event",
    "C88_timezone",
    "C88_todo",
    "C88_journal",
    "C88_freebusy",
    "C88_standard",
    "C88_daylight",
    "C88_alarm"
   ],
   "note": ""
  },
  {
   "property": "C89",
   "status": "proved",
   "theorems": [
    "C89_event",
    "C89_journal",
    "C89_todo",
    "C89_calendar",
    "C89_zoned_event",
    "C89_zoned_journal",
    "C89_zoned_todo",
    "C89_zoned_calendar"
   ],
   "note": ""
  },
  {
   "property": "C90",
   "status": "proved",
   "theorems": [
    "C90_event",
    "C90_timezone",
    "C90_calendar",
    "C90_event_round_trip",
    "C90_timezone_round_trip",
    "C90_calendar_round_trip",
    "C90_event_assembles",
    "C90_timezone_assembles",
    "C90_calendar_assembles"
   ],
   "note": ""
  },
  {
   "property": "C91",
   "status": "proved",
   "theorems": [
    "C91_event",
    "C91_timezone",
    "C91_calendar"
   ],
   "note": ""
  },
  {
   "property": "C92",
   "status": "proved",
   "theorems": [
    "C92_calendar",
    "C92_event",
    "C92_timezone",
    "C92_exact",
    "C92_merge",
    "C92_one_event"
   ],
   "note": ""
  },
  {
   "property": "C93",
   "status": "proved",
   "theorems": [
    "C93_pages",
    "C93_rest",
    "C93_all",
    "C93_days"
   ],
   "note": ""
  },
  {
   "property": "C94",
   "status": "proved",
   "theorems": [
    "C94_finite",
    "C94_open_ended",
    "C94_panic",
    "C94_panic_day",
    "C94_until_ends",
    "C94_zero_interval",
    "C94_windows"
   ],
   "note": ""
  },
  {
   "property": "C95",
   "status": "proved",
   "theorems": [
    "C95_todo",
    "C95_journal",
    "C95_freebusy",
    "C95_standard",
    "C95_daylight",
    "C95_event",
    "C95_timezone",
    "C95_calendar",
    "C95_alarm",
    "C95_event_exact",
    "C95_todo_exact",
    "C95_event_in_calendar",
    "C95_plain_line"
   ],
   "note": ""
  },
  {
   "property": "C96",
   "status": "proved",
   "theorems": [
    "C96_exdate_line",
    "C96_series",
    "C96_walk",
    "C96_remaining",
    "C96_only",
    "C96_no_count",
    "C96_distinct",
    "C96_cancel",
    "C96_lost",
    "C96_count"
   ],
   "note": ""
  },
  {
   "property": "C97",
   "status": "proved",
   "theorems": [
    "C97_cut",
    "C97_incomplete",
    "C97_refused"
   ],
   "note": ""
  },
  {
   "property": "C98",
   "status": "proved",
   "theorems": [
    "C98_goes_on",
    "C98_same_length",
    "C98_years",
    "C98_every_other"
   ],
   "note": ""
  },
  {
   "property": "C99",
   "status": "proved",
   "theorems": [
    "C99_written",
    "C99_loaded",
    "C99_same_text",
    "C99_occurrences",
    "C99_identity",
    "C99_alike",
    "C99_lawful",
    "C99_itself",
    "C99_component"
   ],
   "note": "Numbers are bit patterns of IEEE 754 binary32. *_safe: the values that come back unharmed (C53). PartialEq of Error is not modelled. The relation alike_* is proved to be exactly what the comparison decides."
  }
 ]
}