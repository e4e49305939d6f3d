{
 "claims": [
  {
   "property": "C01",
   "status": "proved",
   "theorems": [
    "C01_posix_is_day_count",
    "C01_posix_next_day",
    "C01_posix_error",
    "C01_sharp"
   ],
   "note": "Exact for 1901..2100 and for no other year after 1752; closed error formula."
  },
  {
   "property": "C02",
   "status": "proved",
   "theorems": [
    "C02_weekday",
    "C02_weekday_total"
   ],
   "note": ""
  },
  {
   "property": "C03",
   "status": "proved",
   "theorems": [
    "C03_normalise",
    "C03_normalise_terminates",
    "C03_normalise_valid",
    "C03_offset_day"
   ],
   "note": ""
  },
  {
   "property": "C04",
   "status": "proved",
   "theorems": [
    "C04_add_add",
    "C04_add_sub",
    "C04_add_0",
    "C04_add_date_only",
    "C04_date_only_refuted",
    "C04_sub_dates",
    "C04_difference"
   ],
   "note": "Group laws for date-times; date-only values round whole days down, so the law is refuted for them."
  },
  {
   "property": "C05",
   "status": "proved",
   "theorems": [
    "C05_order_is_civil_time",
    "C05_order_of_dates",
    "C05_trichotomy",
    "C05_transitive",
    "C05_antisymmetric",
    "C05_agrees_with_posix",
    "C05_posix_same_zone_refuted",
    "C05_fixed_zones"
   ],
   "note": "Comparison within one zone vs posix order needs equal offsets; refuted otherwise."
  },
  {
   "property": "C06",
   "status": "proved",
   "theorems": [
    "C06_reflexive",
    "C06_symmetric",
    "C06_hash",
    "C06_transitive_fixed_zones",
    "C06_floating_refuted",
    "C06_skipped_hour_refuted",
    "C06_date_refuted"
   ],
   "note": "The mixed cases are refuted by witnesses; reflexivity, symmetry, hash and transitivity proved on the stated classes."
  },
  {
   "property": "C07",
   "status": "proved",
   "theorems": [
    "C07_posix_never_stale",
    "C07_adjust_refuted",
    "C07_failed_parse_refuted"
   ],
   "note": "Sequences of public calls that do not raise; two refutations for the excluded cases."
  },
  {
   "property": "C08",
   "status": "proved",
   "theorems": [
    "C08_set_year_day",
    "C08_get_year_day",
    "C08_year_day_round_trip",
    "C08_set_month_day",
    "C08_is_month_day"
   ],
   "note": ""
  },
  {
   "property": "C09",
   "status": "proved",
   "theorems": [
    "C09_set_day_of_week_in_month",
    "C09_set_day_of_week_in_year",
    "C09_is_day_of_week_in_month",
    "C09_set_next_day_of_week"
   ],
   "note": ""
  },
  {
   "property": "C10",
   "status": "proved",
   "theorems": [
    "C10_week_number",
    "C10_week_number_total",
    "C10_is_week_number"
   ],
   "note": ""
  },
  {
   "property": "C11",
   "status": "proved",
   "theorems": [
    "C11_week_chosen",
    "C11_same_week",
    "C11_right_exactly",
    "C11_set_week_number",
    "C11_sunday_one_week_early",
    "C11_year_from_sunday_one_week_late",
    "C11_set_week_number_refuted"
   ],
   "note": "C11_week_chosen and C11_same_week: the date that setWeekNo gives, in every case; C11_right_exactly: it is in week n iff the date and 1 January are both Sundays or both not; the claim for all dates is refuted (C11_set_week_number_refuted)."
  },
  {
   "property": "C12",
   "status": "proved",
   "theorems": [
    "C12_text_round_trip",
    "C12_xml_round_trip"
   ],
   "note": ""
  },
  {
   "property": "C13",
   "status": "proved",
   "theorems": [
    "C13_only_value_error",
    "C13_date_not_negative",
    "C13_accepted",
    "C13_accepts_only_dates_refuted"
   ],
   "note": "Also refutes that only real date-times are accepted."
  },
  {
   "property": "C14",
   "status": "proved",
   "theorems": [
    "C14_total_seconds",
    "C14_fields"
   ],
   "note": ""
  },
  {
   "property": "C15",
   "status": "proved",
   "theorems": [
    "C15_round_trip",
    "C15_reparse",
    "C15_only_value_error"
   ],
   "note": ""
  },
  {
   "property": "C16",
   "status": "proved",
   "theorems": [
    "C16_reused_object_refuted",
    "C16_zero_object"
   ],
   "note": "The claim is false for reused objects (refuted); it holds for objects of zero length."
  },
  {
   "property": "C17",
   "status": "proved",
   "theorems": [
    "C17_within",
    "C17_overlap",
    "C17_overlap_empty_refuted",
    "C17_order",
    "C17_gt_refuted",
    "C17_end_is_start_plus_duration",
    "C17_end_is_start_plus_duration_floating",
    "C17_zone_refuted",
    "C17_use_duration"
   ],
   "note": "Overlap of empty periods, the > operator and zones with daylight saving are refuted by witnesses."
  },
  {
   "property": "C18",
   "status": "proved",
   "theorems": [
    "C18_end_text",
    "C18_end_json",
    "C18_duration_text",
    "C18_duration_json",
    "C18_negative_duration_rejected",
    "C18_round_trip_refuted",
    "C18_only_value_error",
    "C18_reuse_refuted",
    "C18_reuse_clean"
   ],
   "note": "Negative durations and reuse of an object are refuted."
  },
  {
   "property": "C19",
   "status": "proved",
   "theorems": [
    "C19_round_trip",
    "C19_only_value_error",
    "C19_xml",
    "C19_large_refuted",
    "C19_accepts_only_offsets_refuted"
   ],
   "note": ""
  },
  {
   "property": "C20",
   "status": "proved",
   "theorems": [
    "C20_round_trip",
    "C20_escaped_form",
    "C20_plain_unchanged"
   ],
   "note": ""
  },
  {
   "property": "C21",
   "status": "proved",
   "theorems": [
    "C21_reading",
    "C21_result",
    "C21_lenient_total"
   ],
   "note": ""
  },
  {
   "property": "C22",
   "status": "proved",
   "theorems": [
    "C22_round_trip",
    "C22_exact_without_cr",
    "C22_clean",
    "C22_reads"
   ],
   "note": ""
  },
  {
   "property": "C23",
   "status": "proved",
   "theorems": [
    "C23_round_trip",
    "C23_vcard_round_trip",
    "C23_text_stable",
    "C23_backslash_refuted"
   ],
   "note": "The unconditional claim is refuted for a quoted value ending in an odd number of backslashes."
  },
  {
   "property": "C24",
   "status": "proved",
   "theorems": [
    "C24_written_lines",
    "C24_unfold",
    "C24_file_round_trip",
    "C24_no_loss"
   ],
   "note": ""
  },
  {
   "property": "C25",
   "status": "proved",
   "theorems": [
    "C25_exact",
    "C25_terminates_refuted"
   ],
   "note": "Exact condition for divergence proved for lines that start with a non-continuation octet; the unconditional claim is refuted."
  },
  {
   "property": "C26",
   "status": "proved",
   "theorems": [
    "C26_ical_terminates",
    "C26_vcard_terminates_refuted",
    "C26_vcard_dichotomy"
   ],
   "note": "Refuted for vCard, proved for iCalendar."
  },
  {
   "property": "C27",
   "status": "proved",
   "theorems": [
    "C27_list_read_back",
    "C27_list_round_trip",
    "C27_trailing_backslash_refuted",
    "C27_list_only_value_error",
    "C27_nested_round_trip",
    "C27_nested_size"
   ],
   "note": ""
  },
  {
   "property": "C28",
   "status": "proved",
   "theorems": [
    "C28_round_trip",
    "C28_order"
   ],
   "note": ""
  },
  {
   "property": "C29",
   "status": "proved",
   "theorems": [
    "C29_text",
    "C29_stable",
    "C29_any_order",
    "C29_json",
    "C29_equality",
    "C29_hash_refuted"
   ],
   "note": "Text, JSON and any order of parts; equality characterised; hash consistency refuted."
  },
  {
   "property": "C30",
   "status": "proved",
   "theorems": [
    "C30_only_valueerror",
    "C30_ranges",
    "C30_by_once",
    "C30_freq_required_refuted",
    "C30_freq_once_refuted"
   ],
   "note": "FREQ missing or repeated and repeated COUNT are accepted (refuted); everything else strict."
  },
  {
   "property": "C31",
   "status": "proved",
   "theorems": [
    "C31_expand",
    "C31_max_instances",
    "C31_returns_refuted",
    "C31_returns_yearly_refuted"
   ],
   "note": "The two kinds of endless loop are refuted by witnesses; everything else exact."
  },
  {
   "property": "C32",
   "status": "proved",
   "theorems": [
    "C32_bounds",
    "C32_exact",
    "C32_count",
    "C32_until_refuted",
    "C32_once_refuted"
   ],
   "note": "Bounds and exact selection for all rules; UNTIL before the start and repeated instances refuted."
  },
  {
   "property": "C33",
   "status": "proved",
   "theorems": [
    "C33_transparent",
    "C33_offset_refuted",
    "C33_start_refuted",
    "C33_exception_refuted",
    "C33_by_parts_refuted",
    "C33_any_rule"
   ],
   "note": "Rules without BY parts: same items and flag as a new object; rules with BY parts (as in C49): exactly the instances in the window whatever was asked before. Four refutations for the excluded cases."
  },
  {
   "property": "C34",
   "status": "proved",
   "theorems": [
    "C34_month_limit",
    "C34_hour_limit",
    "C34_minute_limit",
    "C34_second_limit",
    "C34_weekno_limit",
    "C34_monthday_limit",
    "C34_day_limit",
    "C34_hour_expand",
    "C34_minute_expand",
    "C34_second_expand",
    "C34_month_expand",
    "C34_monthday_expand",
    "C34_daily",
    "C34_weekly",
    "C34_monthly",
    "C34_yearly_months",
    "C34_yearly_days",
    "C34_yearday_refuted",
    "C34_hourly_yearday_refuted",
    "C34_negative_weekno_refuted",
    "C34_53rd_refuted",
    "C34_yearly_monthday_refuted",
    "C34_once_refuted"
   ],
   "note": "Limits, expansions and the generated sets of all frequencies; BYYEARDAY, negative BYWEEKNO, 53rd weekdays, yearly BYMONTHDAY and repeated dates are refuted."
  },
  {
   "property": "C35",
   "status": "proved",
   "theorems": [
    "C35_positions",
    "C35_set"
   ],
   "note": "For all lists, all positions and all rules."
  },
  {
   "property": "C36",
   "status": "proved",
   "theorems": [
    "C36_expand",
    "C36_window_refuted",
    "C36_order_refuted",
    "C36_equal_exdate_refuted"
   ],
   "note": "Sets expanded any number of times and edited in between; changed() is needed before the float offset or the zone of the start is switched. Values on one scale and in one zone. An RDATE period overlapping the window contributes its start even from before the window, the order is lost when something is excluded, and an EXDATE that is == an instance but has another posix time does not remove it: all three refuted by witnesses."
  },
  {
   "property": "C37",
   "status": "proved",
   "theorems": [
    "C37_offset",
    "C37_history",
    "C37_default_zone",
    "C37_seconds_refuted",
    "C37_utc_new_year_refuted"
   ],
   "note": "From elements as parsed through expansion, table, search and caches, after any history of questions. The seconds missing from the cache key and the table end in questions about UTC are refuted by witnesses."
  },
  {
   "property": "C38",
   "status": "proved",
   "theorems": [
    "C38_opened",
    "C38_inside",
    "C38_siblings",
    "C38_sibling_refuted",
    "C38_dot_refuted",
    "C38_finds"
   ],
   "note": "Positive: path prefix, resolution, containment with a final slash, exact list of siblings without. Refuted: never outside the directory (sibling prefix; \".\" as directory)."
  },
  {
   "property": "C39",
   "status": "proved",
   "theorems": [
    "C39_round_trip",
    "C39_stable",
    "C39_stable_refuted"
   ],
   "note": "Calendars whose properties are in the domain of C52, with any nesting the classes allow; second writing is the same text when sort keys come from properties, refuted otherwise (uuid keys)."
  },
  {
   "property": "C40",
   "status": "proved",
   "theorems": [
    "C40_exactly",
    "C40_balanced_refuted",
    "C40_matching_refuted",
    "C40_one_calendar_refuted",
    "C40_nested_refuted",
    "C40_nesting"
   ],
   "note": "Equivalence between the parser and a grammar, for every text and every result; the balanced claim is refuted in four ways."
  },
  {
   "property": "C41",
   "status": "proved",
   "theorems": [
    "C41_names",
    "C41_components"
   ],
   "note": "All component classes; components also by order (ranks) and stability."
  },
  {
   "property": "C42",
   "status": "proved",
   "theorems": [
    "C42_readonly",
    "C42_fix",
    "C42_converges",
    "C42_raise",
    "C42_same_unfixed_refuted",
    "C42_total_refuted",
    "C42_until_last_refuted"
   ],
   "note": "Every component tree whose property dictionary is as addProperty keeps it, in either mode; fixed and unfixed lists characterised by a table of problems with outcomes, the fixed tree by a relation on its properties. That unfixed problems are exactly those a second run finds is refuted (two DTEND beside DURATION), so are totality (STATUS that is not text) and that the UNTIL repair keeps the last occurrence."
  },
  {
   "property": "C43",
   "status": "proved",
   "theorems": [
    "C43_index",
    "C43_remove",
    "C43_change",
    "C43_instances",
    "C43_two_masters_refuted",
    "C43_same_uid_refuted",
    "C43_used_uid_refuted",
    "C43_remove_all_refuted",
    "C43_key_refuted"
   ],
   "note": "Components are objects with identity; ComponentBase.__eq__ is modelled for list.remove, with an arbitrary property hash. Duplicate keys, same or used UID, removeAllComponent and key collisions are refuted with witnesses."
  },
  {
   "property": "C44",
   "status": "proved",
   "theorems": [
    "C44_clocks",
    "C44_gz_refuted"
   ],
   "note": "Every mode, all offsets. Suffixes g and z refuted."
  },
  {
   "property": "C45",
   "status": "proved",
   "theorems": [
    "C45_day",
    "C45_at_most_raises",
    "C45_at_most_refuted",
    "C45_at_refuted",
    "C45_by_parts",
    "C45_by_parts_refuted"
   ],
   "note": "Positive for lastXxx, Xxx>=n and day numbers; Xxx<=n, 24:00, seconds refuted. BY parts: exact for months of equal length, refuted otherwise."
  },
  {
   "property": "C46",
   "status": "proved",
   "theorems": [
    "C46_utc_offset",
    "C46_save",
    "C46_numeric",
    "C46_sign_refuted"
   ],
   "note": "Zone offset exact for all texts; the other two converters exact on a domain given by an if and only if; refuted outside."
  },
  {
   "property": "C47",
   "status": "proved",
   "theorems": [
    "C47_parse_reuse",
    "C47_text_only_refuted"
   ],
   "note": "Exact effect on a reused object; text-only dependence refuted."
  },
  {
   "property": "C48",
   "status": "proved",
   "theorems": [
    "C48_setter",
    "C48_until_refuted",
    "C48_duplicate_refuted"
   ],
   "note": "setUntil and duplicate refuted."
  },
  {
   "property": "C49",
   "status": "proved",
   "theorems": [
    "C49_by_parts",
    "C49_limits",
    "C49_fixed_zone",
    "C49_dates",
    "C49_any_clock_refuted"
   ],
   "note": "End-to-end: loop over intervals, BY-part sets, UNTIL and window, proved against an RFC-style set. Zones where clock order differs from time order are refuted by a witness."
  },
  {
   "property": "C50",
   "status": "proved",
   "theorems": [
    "C50_before_changes",
    "C50_descriptor_refuted"
   ],
   "note": "Holds when no recurring onset precedes the time in its year; the unconditional claim is refuted (July gets the winter name)."
  },
  {
   "property": "C51",
   "status": "proved",
   "theorems": [
    "C51_lookup",
    "C51_standard",
    "C51_added_refuted"
   ],
   "note": "Over arbitrary histories of lookups, questions and merges. addTimezone makes isStandardTimezone order dependent: refuted by a witness."
  },
  {
   "property": "C52",
   "status": "proved",
   "theorems": [
    "C52_round_trip",
    "C52_types",
    "C52_value_case_refuted",
    "C52_unknown_text_refuted",
    "C52_no_class_refuted",
    "C52_comma_refuted",
    "C52_geo_refuted",
    "C52_no_separator_refuted",
    "C52_utc_zone_refuted",
    "C52_period_zone_refuted",
    "C52_status_refuted",
    "C52_zone_order_refuted"
   ],
   "note": "Round trip for all value classes, type selection for all accepted lines; the cases where the claim fails are refuted one by one."
  },
  {
   "property": "C53",
   "status": "proved",
   "theorems": [
    "C53_rule_line",
    "C53_rule",
    "C53_ruleset",
    "C53_zone_line",
    "C53_zone",
    "C53_ruleset_blank_refuted"
   ],
   "note": "All layouts of blanks; round trips for the four classes."
  },
  {
   "property": "C54",
   "status": "proved",
   "theorems": [
    "C54_until",
    "C54_no_until",
    "C54_forms_refuted"
   ],
   "note": "All supported forms; unsupported forms refuted by witnesses."
  },
  {
   "property": "C55",
   "status": "proved",
   "theorems": [
    "C55_reports",
    "C55_read",
    "C55_asked",
    "C55_start_refuted"
   ],
   "note": "Both directions, against limits written property by property; holds of every calendar that was read from text. Two DTSTART in a VEVENT are not reported (refuted)."
  },
  {
   "property": "C56",
   "status": "proved",
   "theorems": [
    "C56_copy",
    "C56_read",
    "C56_text",
    "C56_alarms_refuted",
    "C56_no_value_refuted",
    "C56_recurring_refuted"
   ],
   "note": "Component trees with their fields; master as object number. Any uuids for the copies. Three refutations."
  },
  {
   "property": "C57",
   "status": "proved",
   "theorems": [
    "C57_copy",
    "C57_exactly",
    "C57_equivalence",
    "C57_simple",
    "C57_count_refuted",
    "C57_hash_refuted"
   ],
   "note": "The greedy pairing of sub-components is shown right for every equivalence; simple_prop is one stock of properties for which the hypotheses hold. hash(property) is an arbitrary function. Two refutations."
  },
  {
   "property": "C58",
   "status": "proved",
   "theorems": [
    "C58_include",
    "C58_enough",
    "C58_again",
    "C58_strip",
    "C58_strip_include",
    "C58_lists_refuted",
    "C58_nested_refuted",
    "C58_lower_case_refuted"
   ],
   "note": "The database is a pair of functions (C51: its answers do not depend on history). For strip, the zones that stay must compare as different from those that go (list.remove uses ==). Three refutations."
  },
  {
   "property": "C59",
   "status": "proved",
   "theorems": [
    "C59_derived",
    "C59_none",
    "C59_start",
    "C59_from_utc",
    "C59_replaces",
    "C59_due_refuted",
    "C59_no_end_refuted",
    "C59_zone_refuted",
    "C59_duration_refuted"
   ],
   "note": "C59_derived: the new component for any calendar with a master; C59_none without one; C59_start, C59_from_utc: where it starts; C59_replaces: instances in a window before and after are the same (masters with DTEND, not to-dos). Refutations: due, no_end, zone, duration. That the copy shares nothing with the master is not modelled."
  },
  {
   "property": "C60",
   "status": "proved",
   "theorems": [
    "C60_recurring",
    "C60_length",
    "C60_single",
    "C60_calendar",
    "C60_recurrence_id",
    "C60_duration_refuted",
    "C60_all_day_refuted",
    "C60_added_refuted",
    "C60_this_and_future_refuted",
    "C60_two_ranges_refuted",
    "C60_period_refuted",
    "C60_empty_refuted",
    "C60_begun_refuted",
    "C60_sorted_refuted",
    "C60_lower_case_refuted",
    "C60_clock_refuted"
   ],
   "note": "The recurrence ids of the overriding components are on the scale and in the zone of the master, with at most one RANGE override of each kind. Eleven refutations; the witnesses are read from text."
  },
  {
   "property": "C61",
   "status": "proved",
   "theorems": [
    "C61_start_end",
    "C61_start_duration",
    "C61_due",
    "C61_none_refuted",
    "C61_order_refuted",
    "C61_one_day_refuted",
    "C61_hours_refuted",
    "C61_to_do_refuted",
    "C61_recurrence_set_refuted",
    "C61_exclude_refuted"
   ],
   "note": "C61_start_end, C61_start_duration, C61_due: the properties, the cached times, and what finalise finds in them. Refutations: none (editTiming), order, one_day, hours, to_do, recurrence_set, exclude. That mStart, mEnd and the property share one date object is not modelled."
  },
  {
   "property": "C62",
   "status": "proved",
   "theorems": [
    "C62_to_utc",
    "C62_utc_posix",
    "C62_to_zone",
    "C62_same",
    "C62_keeps",
    "C62_agree",
    "C62_instant",
    "C62_repeated_refuted",
    "C62_date_refuted",
    "C62_floating_refuted"
   ],
   "note": "C62_agree is about the definition of a zone (onsets as in C37); C62_instant joins it to adjustTimezone for a database that answers as C37 says. Three refutations."
  },
  {
   "property": "C63",
   "status": "proved",
   "theorems": [
    "C63_property",
    "C63_calendar",
    "C63_errors",
    "C63_two_values_refuted",
    "C63_two_parameters_refuted",
    "C63_time_refuted",
    "C63_time_list_refuted",
    "C63_unknown_type_refuted",
    "C63_checks_refuted",
    "C63_status_refuted",
    "C63_extra_values_refuted"
   ],
   "note": "C63_property and C63_calendar: the round trip for any order of members; C63_errors: which exceptions leave parseJSONData. Refutations: two_values, two_parameters, time, time_list, unknown_type, checks, status, extra_values. json.loads and json.dumps are not modelled; a tree is what they take and give. Where Python asks for upper(), int(), float() or str() of a string with characters outside ASCII the model stops (RuntimeError stands for that), and GEO is modelled for two floats only."
  },
  {
   "property": "C64",
   "status": "proved",
   "theorems": [
    "C64_calls",
    "C64_text",
    "C64_read",
    "C64_no_value",
    "C64_json",
    "C64_sub_filters_refuted",
    "C64_json_all_refuted",
    "C64_no_value_refuted",
    "C64_lower_case_refuted"
   ],
   "note": "C64_calls, C64_text, C64_read, C64_no_value, C64_json. Refutations: sub_filters, json_all, no_value, lower_case. The result of a writer that raises is the exception: what it put on the stream before is left out. The filtered XML writers are not modelled."
  },
  {
   "property": "C65",
   "status": "proved",
   "theorems": [
    "C65_made",
    "C65_one_line",
    "C65_lines_refuted",
    "C65_text_lost_refuted",
    "C65_list_text_refuted",
    "C65_zones_refuted",
    "C65_period_zone_refuted"
   ],
   "note": "C65_made: the round trip for every kind of value; C65_one_line: texts stay in one line. Refutations: lines, text_lost, list_text, zones, period_zone. Lists with elements of several kinds, dates in a REQUEST-STATUS and numeric zones are left out; unicode objects are taken as already encoded."
  },
  {
   "property": "C66",
   "status": "proved",
   "theorems": [
    "C66_edits",
    "C66_given",
    "C66_read",
    "C66_key",
    "C66_next_raises",
    "C66_next_refuted",
    "C66_triggered_refuted",
    "C66_unknown_action_refuted",
    "C66_case_refuted",
    "C66_audio_refuted",
    "C66_email_refuted",
    "C66_repeats_refuted"
   ],
   "note": "C66_edits: histories of calls; C66_given: each call; C66_read: written and read; C66_key: the key for the order. Refutations: next, triggered, unknown_action, case, audio, email, repeats. After an exception the properties changed before it stay changed. Aliasing of the lists given to the alarm is not modelled."
  },
  {
   "property": "C67",
   "status": "proved",
   "theorems": [
    "C67_expand",
    "C67_found",
    "C67_free",
    "C67_copy",
    "C67_start_end",
    "C67_start_duration",
    "C67_calendar_raises",
    "C67_items_refuted",
    "C67_duration_refuted",
    "C67_stale_refuted",
    "C67_single_refuted",
    "C67_one_day_refuted",
    "C67_none_refuted"
   ],
   "note": "C67_expand, C67_found, C67_free, C67_copy: windows; C67_start_end, C67_start_duration: edits; C67_calendar_raises. Refutations: items, duration, stale, single, one_day, none. Calendar.getVFreeBusyFB (which uses the type list itself) is not modelled."
  },
  {
   "property": "C68",
   "status": "proved",
   "theorems": [
    "C68_expand",
    "C68_offset",
    "C68_single",
    "C68_no_rule_yet_refuted",
    "C68_saving_refuted",
    "C68_first_rules_refuted",
    "C68_merged_refuted",
    "C68_max_year_refuted"
   ],
   "note": "C68_expand: zones of two or more lines; C68_offset: the offset looked up in the results; C68_single: zones of one line. Refutations: no_rule_yet, saving, first_rules, merged, max_year. Hypotheses: changes of a line in strict order (UTC), no change within the offset difference of UNTIL or of the start of the line (clear_end, clear_start), local times of changes strictly increasing (spaced; C68_merged_refuted shows that it is needed)."
  },
  {
   "property": "C69",
   "status": "proved",
   "theorems": [
    "C69_rule",
    "C69_vtimezone",
    "C69_lookup",
    "C69_zone",
    "C69_open_run_refuted",
    "C69_line_start_refuted",
    "C69_last_forward_refuted",
    "C69_last_saturday_refuted",
    "C69_day_back_refuted",
    "C69_first_back_refuted",
    "C69_memory_refuted",
    "C69_slash_name_refuted"
   ],
   "note": "C69_rule: the component of a run of a rule; C69_vtimezone: the components of a zone announce its changes; C69_lookup: questions to the VTIMEZONE that was read back; C69_zone: with C68, the offset that the tz source defines. Refutations: open_run, line_start, last_forward, last_saturday, day_back, first_back, memory, slash_name. Hypotheses: writable (order, one block per line, runs year by year, day and local date in the same month), and for the lookup the same order in UTC, whole minutes and offsets below a day."
  },
  {
   "property": "C70",
   "status": "proved",
   "theorems": [
    "C70_property",
    "C70_types",
    "C70_card",
    "C70_order",
    "C70_cards",
    "C70_accepted",
    "C70_single",
    "C70_errors",
    "C70_parts",
    "C70_full_name",
    "C70_duplicate",
    "C70_duplicate_refuted",
    "C70_offset_refuted",
    "C70_default_refuted",
    "C70_group_refuted",
    "C70_make_refuted",
    "C70_nested_refuted",
    "C70_ends_refuted"
   ],
   "note": "C70_property, C70_types: lines; C70_card, C70_order, C70_cards: texts of cards; C70_accepted, C70_single, C70_errors: what is read; C70_parts, C70_full_name, C70_duplicate: values. Refutations: duplicate (a sixth part), offset, default, group, make, nested, ends. UTC offsets are left out of the round trip (C70_offset_refuted). JSON and XML of vCards are not modelled."
  },
  {
   "property": "C71",
   "status": "proved",
   "theorems": [
    "C71_given",
    "C71_edits",
    "C71_written",
    "C71_completed",
    "C71_texts",
    "C71_read",
    "C71_state",
    "C71_complete_refuted",
    "C71_none_refuted",
    "C71_case_refuted",
    "C71_stale_refuted",
    "C71_fixed_refuted",
    "C71_same_refuted",
    "C71_utc_refuted",
    "C71_empty_refuted",
    "C71_display_refuted"
   ],
   "note": "C71_given: each call; C71_edits: any sequence; C71_written: through the text of a calendar; C71_completed: UTC; C71_read, C71_state. Refutations: complete, none, case, stale, fixed, same, utc, empty, display. The wall clock (getCompletionState with a due date would need it) is not modelled, since those calls raise before they use it."
  },
  {
   "property": "C72",
   "status": "proved",
   "theorems": [
    "C72_text",
    "C72_calendar",
    "C72_filtered",
    "C72_document",
    "C72_duration_refuted",
    "C72_status_refuted",
    "C72_geo_refuted",
    "C72_not_ascii_refuted",
    "C72_well_formed_refuted",
    "C72_offset_refuted",
    "C72_return_refuted",
    "C72_filtered_subs_refuted"
   ],
   "note": "C72_text: the text of a component tree; C72_calendar: read as the same calendar; C72_filtered; C72_document: any elements. Refutations: duration, status, geo, not_ascii, well_formed, offset, return, filtered_subs. The XML reader and the translation from xCal to jCal are the specification (XmlSpec.v), written from XML 1.0, RFC 6321 and RFC 7265."
  },
  {
   "property": "C73",
   "status": "proved",
   "theorems": [
    "C73_read",
    "C73_written",
    "C73_files",
    "C73_stray",
    "C73_short_link",
    "C73_expand",
    "C73_unknown",
    "C73_order",
    "C73_last_line_refuted",
    "C73_blank_in_zone_refuted",
    "C73_remark_refuted",
    "C73_crlf_refuted"
   ],
   "note": "C73_read: what a file says is learnt; C73_written: the texts of generate(); C73_files, C73_stray; C73_expand, C73_order, C73_unknown: expandZone by C68. Refutations: last_line, blank_in_zone, remark, crlf. The grammar of the files (TzFileSpec.v: says) is written from the manual page of zic, restricted to whole keywords."
  },
  {
   "property": "C74",
   "status": "proved",
   "theorems": [
    "C74_read",
    "C74_order",
    "C74_raises",
    "C74_fine",
    "C74_zone",
    "C74_one_line_refuted",
    "C74_early_refuted"
   ],
   "note": "C74_read: the text is read as the zones; C74_order, C74_raises; C74_fine: changes that fit give sub-components that can be written; C74_zone: composition with C69_zone (and through it C68). Refutations: one_line, early."
  },
  {
   "property": "C75",
   "status": "proved",
   "theorems": [
    "C75_files",
    "C75_unlinked",
    "C75_raises",
    "C75_zone",
    "C75_link",
    "C75_chain_refuted",
    "C75_rename_refuted",
    "C75_broken_refuted",
    "C75_overwritten_refuted"
   ],
   "note": "C75_files, C75_unlinked: which files, with which text; C75_zone, C75_link: how they are read. Names in C75_link have at most 50 bytes, so the lines with them are not folded. Refutations: chain, rename, broken, overwritten."
  },
  {
   "property": "C76",
   "status": "proved",
   "theorems": [
    "C76_property",
    "C76_card",
    "C76_cards",
    "C76_structured",
    "C76_written",
    "C76_unreadable",
    "C76_parts",
    "C76_parts_only",
    "C76_shape",
    "C76_errors",
    "C76_name_refuted",
    "C76_group_refuted",
    "C76_letters_refuted",
    "C76_nested_refuted",
    "C76_short_refuted",
    "C76_offset_refuted",
    "C76_version_refuted"
   ],
   "note": "C76_property, C76_card, C76_cards: what is read back; C76_structured, C76_unreadable: what never is; C76_parts, C76_errors: JSON from elsewhere. An ORG with one part is a str, as reading text makes it. Refutations: name, group, letters, nested, short, offset, version."
  },
  {
   "property": "C77",
   "status": "proved",
   "theorems": [
    "C77_reports",
    "C77_read",
    "C77_tidy",
    "C77_duplicate",
    "C77_default_refuted",
    "C77_version_refuted",
    "C77_total_refuted"
   ],
   "note": "C77_reports, C77_read: validate(); C77_tidy: addProperty keeps the state; C77_duplicate. Refutations: default, version, total."
  },
  {
   "property": "C78",
   "status": "proved",
   "theorems": [
    "C78_date",
    "C78_date_unique",
    "C78_time",
    "C78_time_unique",
    "C78_order",
    "C78_datetime",
    "C78_datetime_unique",
    "C78_zone",
    "C78_descriptor",
    "C78_offset_unique",
    "C78_names",
    "C78_default",
    "C78_default_refuted",
    "C78_seconds_refuted",
    "C78_order_refuted"
   ],
   "note": "C78_date, C78_date_unique: dates; C78_time, C78_time_unique, C78_order: times; C78_datetime, C78_datetime_unique; C78_zone, C78_descriptor, C78_offset_unique: time zones; C78_names; C78_default. Refutations: default, seconds, order."
  },
  {
   "property": "C79",
   "status": "proved",
   "theorems": [
    "C79_calendar",
    "C79_card",
    "C79_refused",
    "C79_ends",
    "C79_escapes_refuted",
    "C79_word_refuted",
    "C79_cards_refuted"
   ],
   "note": "C79_calendar, C79_card: what is printed for files that are read; C79_refused: the others; C79_ends: no other end. Refutations: escapes, word, cards."
  },
  {
   "property": "C80",
   "status": "proved",
   "theorems": [
    "C80_property",
    "C80_regular",
    "C80_component",
    "C80_card",
    "C80_self",
    "C80_group_refuted",
    "C80_rule_refuted",
    "C80_floating_refuted",
    "C80_raises_refuted"
   ],
   "note": "C80_property: keys of what is hashed; C80_regular, C80_component: C57 with it; C80_card, C80_self: vCards. Refutations: group, rule, floating, raises."
  },
  {
   "property": "C81",
   "status": "proved",
   "theorems": [
    "C81_simple",
    "C81_by",
    "C81_refused",
    "C81_whole",
    "C81_ends_refuted",
    "C81_count_refuted"
   ],
   "note": "C81_simple, C81_by: what is printed; C81_refused; C81_whole: all lines or none. Refutations: ends, count."
  },
  {
   "property": "C82",
   "status": "proved",
   "theorems": [
    "C82_start",
    "C82_length",
    "C82_expanded",
    "C82_duration",
    "C82_own",
    "C82_due_refuted",
    "C82_none_refuted",
    "C82_expanded_refuted",
    "C82_value_refuted"
   ],
   "note": "C82_start, C82_length, C82_duration, C82_own: the times afterwards; C82_expanded: as expansion gives them. Refutations: due, none, expanded, value. mStart and mRecurrenceID are then one object; that sharing is not modelled."
  },
  {
   "property": "C83",
   "status": "proved",
   "theorems": [
    "C83_given",
    "C83_edits",
    "C83_written",
    "C83_clock",
    "C83_made",
    "C83_removed_refuted",
    "C83_checked_refuted"
   ],
   "note": "C83_given, C83_edits, C83_written: the calls, in memory, in the properties and in the text; C83_clock; C83_made: UIDs are different. Refutations: removed, checked. The digest is any function that gives hexadecimal digits."
  },
  {
   "property": "C84",
   "status": "proved",
   "theorems": [
    "C84_set",
    "C84_written",
    "C84_no_list",
    "C84_instant_refuted",
    "C84_zone_refuted",
    "C84_unknown_refuted",
    "C84_status_refuted",
    "C84_letters_refuted"
   ],
   "note": "C84_set: in memory; C84_written: in the text (with C52); C84_no_list: the failure. Refutations: instant, zone, unknown, status, letters. Objects that hold a value their class is not meant for are not modelled further."
  },
  {
   "property": "C85",
   "status": "proved",
   "theorems": [
    "C85_edits",
    "C85_written",
    "C85_value_name",
    "C85_zone_refuted",
    "C85_name_refuted"
   ],
   "note": "C85_edits: in memory; C85_written: in the text (with C52); C85_value_name: VALUE. Refutations: zone, name. Parameter objects shared between calls are not modelled."
  },
  {
   "property": "C86",
   "status": "proved",
   "theorems": [
    "C86_removed",
    "C86_undone",
    "C86_object_refuted",
    "C86_rules"
   ],
   "note": "C86_removed, C86_undone: removeProperty; C86_rules: equalsRules. Refutation: object. RecurrenceSet.equals itself always raises AttributeError (comp.self) and is not modelled."
  },
  {
   "property": "C87",
   "status": "proved",
   "theorems": [
    "C87_types",
    "C87_round_trip",
    "C87_written",
    "C87_portable",
    "C87_others",
    "C87_again",
    "C87_errors",
    "C87_case_refuted",
    "C87_reader_refuted",
    "C87_pair_refuted",
    "C87_classes_refuted"
   ],
   "note": "C87_types: reading; C87_round_trip, C87_written, C87_portable: writing; C87_others, C87_again: what does not change. Refutations: case, reader, pair, classes. JSON: C88; the constructor: C89; setValue: C90. The table of the vCard class is not modelled."
  },
  {
   "property": "C88",
   "status": "proved",
   "theorems": [
    "C88_types",
    "C88_parameter",
    "C88_round_trip",
    "C88_portable",
    "C88_others",
    "C88_errors",
    "C88_unknown_refuted",
    "C88_pair_refuted"
   ],
   "note": "C88_types, C88_parameter, C88_round_trip, C88_portable, C88_others, C88_errors. Refutations: unknown, pair. JSON trees as in C63; RuntimeError in C88_errors stands for JSON that JsonModel leaves out."
  },
  {
   "property": "C89",
   "status": "proved",
   "theorems": [
    "C89_made",
    "C89_text",
    "C89_values",
    "C89_value_parameter",
    "C89_others",
    "C89_text_lost_refuted"
   ],
   "note": "C89_made, C89_text, C89_values, C89_value_parameter, C89_others. Refutation: text_lost. C89_value_parameter leaves out GEO and REQUEST-STATUS."
  },
  {
   "property": "C90",
   "status": "proved",
   "theorems": [
    "C90_set",
    "C90_written",
    "C90_others",
    "C90_as_made",
    "C90_as_made_refuted"
   ],
   "note": "C90_set, C90_written, C90_others, C90_as_made. Refutation: as_made. Texts for names without a default are left out, as in C84."
  },
  {
   "property": "C91",
   "status": "proved",
   "theorems": [
    "C91_offset",
    "C91_history",
    "C91_name",
    "C91_unknown",
    "C91_read",
    "C91_duplicate_refuted",
    "C91_compiled"
   ],
   "note": "C91_offset, C91_history, C91_name, C91_unknown, C91_read, C91_compiled. Refutation: duplicate. The definitions and questions are those of C37; those of C91_compiled are those of C74."
  },
  {
   "property": "C92",
   "status": "proved",
   "theorems": [
    "C92_calendar_text",
    "C92_calendar_json",
    "C92_calendar_other",
    "C92_calendar_errors",
    "C92_card_text",
    "C92_card_json",
    "C92_cards",
    "C92_card_other",
    "C92_card_errors",
    "C92_media_type_refuted",
    "C92_multiple_refuted"
   ],
   "note": "C92_calendar_text, C92_calendar_json, C92_calendar_other, C92_calendar_errors, C92_card_text, C92_card_json, C92_cards, C92_card_other, C92_card_errors. Refutations: media_type, multiple. json.loads and json.dumps are any two functions."
  },
  {
   "property": "C93",
   "status": "proved",
   "theorems": [
    "C93_simple",
    "C93_advanced",
    "C93_simple_advanced",
    "C93_rule_description",
    "C93_description",
    "C93_rule",
    "C93_sets",
    "C93_equals",
    "C93_lone_rule_refuted",
    "C93_negative_refuted",
    "C93_equal_refuted"
   ],
   "note": "C93_simple, C93_advanced, C93_simple_advanced, C93_rule_description, C93_description, C93_rule, C93_sets, C93_equals. Refutations: lone_rule, negative, equal."
  },
  {
   "property": "C94",
   "status": "proved",
   "theorems": [
    "C94_kept",
    "C94_accepts",
    "C94_same",
    "C94_rest",
    "C94_merged",
    "C94_written",
    "C94_refused",
    "C94_unreadable",
    "C94_lenient_refuted",
    "C94_atomic_refuted",
    "C94_database",
    "C94_offsets",
    "C94_links"
   ],
   "note": "C94_kept, C94_accepts, C94_same, C94_rest, C94_merged, C94_written, C94_refused, C94_unreadable, C94_database, C94_offsets, C94_links. Refutations: lenient, atomic."
  },
  {
   "property": "C95",
   "status": "proved",
   "theorems": [
    "C95_find",
    "C95_prefix",
    "C95_default",
    "C95_private",
    "C95_missing_refuted",
    "C95_case_refuted"
   ],
   "note": "C95_find, C95_prefix, C95_default, C95_private. Refutations: missing, case."
  }
 ]
}