{
 "claims": [
  {
   "property": "C01",
   "status": "proved",
   "theorems": [
    "C01_toJD_counts_days",
    "C01_every_date_is_counted",
    "C01_toJD_instant"
   ],
   "note": "IEEE-double model; exact at noon, error bound at other times."
  },
  {
   "property": "C02",
   "status": "proved",
   "theorems": [
    "C02_setFromJD_counts_days",
    "C02_setFromJD_instant"
   ],
   "note": "IEEE-double model."
  },
  {
   "property": "C03",
   "status": "proved",
   "theorems": [
    "C03_date_round_trip",
    "C03_day_round_trip",
    "C03_datetime_round_trip"
   ],
   "note": ""
  },
  {
   "property": "C04",
   "status": "partial",
   "theorems": [
    "C04_round_trip_refuted",
    "C04_limit_sharp_refuted"
   ],
   "note": "The property is false of the code: refuted by witnesses; C03 holds exactly from 1 March -4716 on."
  },
  {
   "property": "C05",
   "status": "proved",
   "theorems": [
    "C05_clock_fields_in_range"
   ],
   "note": ""
  },
  {
   "property": "C06",
   "status": "partial",
   "theorems": [
    "C06_JD2str_partial",
    "C06_hour_24_refuted"
   ],
   "note": "Hour field can be 24 (last half second of a day): refuted by witness. Everything else proved: valid minute/second, date counted, instant within half a second."
  },
  {
   "property": "C07",
   "status": "partial",
   "theorems": [
    "C07_timeStr_partial",
    "C07_hour_24_refuted"
   ],
   "note": "Same defect as C06."
  },
  {
   "property": "C08",
   "status": "partial",
   "theorems": [
    "C08_text_shows_fields",
    "C08_fields_readable",
    "C08_text_identifies_date",
    "C08_year_cut_refuted",
    "C08_year_100000_refuted"
   ],
   "note": "Proved for the years -9999..99999; refuted for the other years (column is cut)."
  },
  {
   "property": "C09",
   "status": "proved",
   "theorems": [
    "C09_to_str_decimal",
    "C09_text_identifies_integer",
    "C09_to_str_width",
    "C09_negative_width_refuted",
    "C09_wide_width_refuted"
   ],
   "note": "All 32/64-bit integers. The width parameter is proved for 0..63; a negative or larger width overruns a buffer (refuted)."
  },
  {
   "property": "C10",
   "status": "partial",
   "theorems": [
    "C10_stoi_inverts_to_str_partial",
    "C10_history_refuted",
    "C10_out_of_range_refuted"
   ],
   "note": "Proved with errno clear; false after an earlier range error and for texts between int and long range."
  },
  {
   "property": "C11",
   "status": "partial",
   "theorems": [
    "C11_string_replace",
    "C11_replaced_is_unique",
    "C11_empty_pattern_refuted"
   ],
   "note": "Proved for every non-empty pattern; never ends for the empty pattern (refuted)."
  },
  {
   "property": "C12",
   "status": "partial",
   "theorems": [
    "C12_split_lossless",
    "C12_long_separator_lossy_refuted",
    "C12_long_separator_throws_refuted"
   ],
   "note": "Proved for one-byte separators; refuted for longer ones."
  },
  {
   "property": "C13",
   "status": "proved",
   "theorems": [
    "C13_fill_str",
    "C13_overflow_refuted"
   ],
   "note": "All n that do not overflow n - length; refuted at INT_MIN."
  },
  {
   "property": "C14",
   "status": "proved",
   "theorems": [
    "C14_rad2strE",
    "C14_split_in_range",
    "C14_rad2str2",
    "C14_split2_in_range",
    "C14_wide_angle_refuted"
   ],
   "note": "Text theorem for |d| <= 17 rad; split theorem for every value below 2^31-2. Beyond 999 degrees the text is cut (refuted)."
  },
  {
   "property": "C15",
   "status": "proved",
   "theorems": [
    "C15_jieya_expands",
    "C15_order_irrelevant",
    "C15_table_lengths",
    "C15_jieya_total"
   ],
   "note": "Expansion law for every text; lengths computed for the two shipped tables."
  },
  {
   "property": "C16",
   "status": "proved",
   "theorems": [
    "C16_correction"
   ],
   "note": "All doubles jd with |jd| <= 10^6; the low-precision series is a parameter returning any number below 10^9."
  },
  {
   "property": "C17",
   "status": "proved",
   "theorems": [
    "C17_one_era",
    "C17_served_by_era",
    "C17_mean_era"
   ],
   "note": "All doubles jd with |jd| <= 10^6."
  },
  {
   "property": "C18",
   "status": "proved",
   "theorems": [
    "C18_leap_rule",
    "C18_leap_month_is_first_without_major_term",
    "C18_month_numbers"
   ],
   "note": "Every calc function; 'first month without a major term' for tables with natural spacings."
  },
  {
   "property": "C19",
   "status": "proved",
   "theorems": [
    "C19_old_names_total",
    "C19_from_721"
   ],
   "note": "Unconditional for -720..-104; for -721 the solstice is that of the series (sin and cos correct to within 2^-52)."
  },
  {
   "property": "C20",
   "status": "proved",
   "theorems": [
    "C20_month_names",
    "C20_neighbours_differ",
    "C20_decreed_names"
   ],
   "note": "C20_decreed_names gives the name in the eras of decreed names as well."
  },
  {
   "property": "C22",
   "status": "proved",
   "theorems": [
    "C22_shipped_table",
    "C26_festivals",
    "C22_kth_weekday_unique",
    "C22_last_weekday_refuted"
   ],
   "note": "All month shapes, all well-formed tables incl. the shipped one. A 'last weekday' entry for a day other than Sunday is not reported (refuted; outside the stated property)."
  },
  {
   "property": "C24",
   "status": "proved",
   "theorems": [
    "C24_islamic_date",
    "C24_date_is_unique"
   ],
   "note": "All |d0| < 2^30; the 10631-day cycle is swept, periodicity and counting proved."
  },
  {
   "property": "C25",
   "status": "proved",
   "theorems": [
    "C25_eras",
    "C25_shipped_table",
    "C25_shipped_eras",
    "C25_stale_errno_refuted"
   ],
   "note": "Any well-formed table and the shipped one, errno clear; throws with stale errno (refuted)."
  },
  {
   "property": "C26",
   "status": "proved",
   "theorems": [
    "C26_festivals",
    "C26_shipped_table",
    "C26_shipped_festivals",
    "C26_stale_errno_refuted",
    "C26_short_name_refuted"
   ],
   "note": "Any well-formed table and the shipped one, errno clear; throws with stale errno (refuted)."
  },
  {
   "property": "C27",
   "status": "partial",
   "theorems": [
    "C27_laba_refuted",
    "C27_laba_on_wrong_month",
    "C27_laba_never"
   ],
   "note": "The property is false of the code: 腊八节 is keyed to month 冬, a name the calendar never produces, so it is never reported."
  },
  {
   "property": "C28",
   "status": "proved",
   "theorems": [
    "C28_new_years_eve"
   ],
   "note": ""
  },
  {
   "property": "C29",
   "status": "partial",
   "theorems": [
    "C29_holiday_flag_refuted",
    "C29_holiday_flag_partial"
   ],
   "note": "False of the code: on a plain weekday the flag is never written. Proved: when it is set, and that it is otherwise left as it was."
  },
  {
   "property": "C21",
   "status": "proved",
   "theorems": [
    "C21_page_lists_the_month",
    "C21_week_rows"
   ],
   "note": "Years -4715..5772802."
  },
  {
   "property": "C30",
   "status": "proved",
   "theorems": [
    "C30_month_of_day",
    "C30_term_of_day"
   ],
   "note": "Month tables with lengths 29/30 and natural solstices; term tables within 7 days of even spacing."
  },
  {
   "property": "C53",
   "status": "proved",
   "theorems": [
    "C53_year_from_spring",
    "C53_year_from_new_year"
   ],
   "note": ""
  },
  {
   "property": "C54",
   "status": "proved",
   "theorems": [
    "C54_five_tigers"
   ],
   "note": ""
  },
  {
   "property": "C55",
   "status": "proved",
   "theorems": [
    "C55_month_page",
    "C55_any_history"
   ],
   "note": "The day function of the tables is a parameter; its tables must be windows of one calendar with natural spacings."
  },
  {
   "property": "C56",
   "status": "proved",
   "theorems": [
    "C56_events_inside"
   ],
   "note": ""
  },
  {
   "property": "C51",
   "status": "proved",
   "theorems": [
    "C51_seasonal_day",
    "C51_dog_days"
   ],
   "note": ""
  },
  {
   "property": "C52",
   "status": "proved",
   "theorems": [
    "C52_lunar_notes"
   ],
   "note": ""
  },
  {
   "property": "C23",
   "status": "proved",
   "theorems": [
    "C23_pillars",
    "C23_clock",
    "C23_steps",
    "C23_rules",
    "C23_jie_count",
    "C23_whole"
   ],
   "note": "Local true solar times from -7e6 to 1.7e8 days; within a microday of a change of the double hour the time before or after may be taken. The series are parameters."
  },
  {
   "property": "C31",
   "status": "partial",
   "theorems": [
    "C31_mrad_exact",
    "C31_rrad_exact",
    "C31_unique",
    "C31_rrad_double",
    "C31_mrad_double",
    "C31_mrad_range_refuted"
   ],
   "note": "Exact arithmetic and doubles. For doubles the half-open range of rad2mrad is false: a tiny negative angle gives 2 pi itself (refuted); the closed range is proved."
  },
  {
   "property": "C32",
   "status": "proved",
   "theorems": [
    "C32_reads_inside",
    "C32_value",
    "C32_continuous",
    "C32_jumps",
    "C32_dt_T",
    "C32_nan_refuted"
   ],
   "note": ""
  },
  {
   "property": "C33",
   "status": "proved",
   "theorems": [
    "C33_value",
    "C33_short_names",
    "C33_long_names_refuted",
    "C33_no_quantity_refuted"
   ],
   "note": "Values for |t| <= 50 centuries; lookups for every name of at most two bytes. Names of three or more bytes overflow the buffer (refuted; outside the stated property)."
  },
  {
   "property": "C34",
   "status": "partial",
   "theorems": [
    "C34_sum",
    "C34_first_group",
    "C34_monotone",
    "C34_shipped_headers",
    "C34_shipped",
    "C34_overflow_refuted"
   ],
   "note": "cos and the coefficients are parameters. Term counts up to 672000 (negative: all); above, int overflow (refuted)."
  },
  {
   "property": "C35",
   "status": "proved",
   "theorems": [
    "C35_value",
    "C35_first_table",
    "C35_overflow_refuted"
   ],
   "note": "cos and the coefficients are parameters. Term counts -357913941..134960; above, int overflow (refuted)."
  },
  {
   "property": "C36",
   "status": "proved",
   "theorems": [
    "C36_equatorial",
    "C36_equatorial_coordinates",
    "C36_ecliptic"
   ],
   "note": "Exact arithmetic. Equatorial: all directions; ecliptic: the intermediate directions are not the poles of their frames."
  },
  {
   "property": "C37",
   "status": "proved",
   "theorems": [
    "C37_rotation",
    "C37_ranges"
   ],
   "note": "Exact arithmetic."
  },
  {
   "property": "C38",
   "status": "proved",
   "theorems": [
    "C38_rectangular",
    "C38_spherical",
    "C38_ranges"
   ],
   "note": "Exact arithmetic."
  },
  {
   "property": "C39",
   "status": "proved",
   "theorems": [
    "C39_hit",
    "C39_miss_iff"
   ],
   "note": "Exact arithmetic."
  },
  {
   "property": "C40",
   "status": "partial",
   "theorems": [
    "C40_contact",
    "C40_order_refuted"
   ],
   "note": "Exact arithmetic. Proved for velocities with positive x component; with a negative one the two roots are exchanged (refuted)."
  },
  {
   "property": "C57",
   "status": "proved",
   "theorems": [
    "C57_lineOvl"
   ],
   "note": "Exact arithmetic."
  },
  {
   "property": "C58",
   "status": "proved",
   "theorems": [
    "C58_change_of_centre"
   ],
   "note": "Exact arithmetic."
  },
  {
   "property": "C59",
   "status": "proved",
   "theorems": [
    "C59_horizontal"
   ],
   "note": "Exact arithmetic."
  },
  {
   "property": "C60",
   "status": "proved",
   "theorems": [
    "C60_angle",
    "C60_near"
   ],
   "note": "Exact arithmetic."
  },
  {
   "property": "C61",
   "status": "proved",
   "theorems": [
    "C61_besselian_inverse"
   ],
   "note": "Exact arithmetic."
  },
  {
   "property": "C62",
   "status": "proved",
   "theorems": [
    "C62_lineEar2",
    "C62_lineEar"
   ],
   "note": "Exact arithmetic."
  },
  {
   "property": "C41",
   "status": "proved",
   "theorems": [
    "C41_reads_inside",
    "C41_times",
    "C41_rows",
    "C41_quadratic",
    "C41_linear",
    "C41_one_row_refuted"
   ],
   "note": "Tables of at least two rows; with one row the code reads before the table (refuted; init is never called so). Values in exact arithmetic."
  },
  {
   "property": "C42",
   "status": "proved",
   "theorems": [
    "C42_rows",
    "C42_history_free",
    "C42_proper",
    "C42_needs_proper_new_moon"
   ],
   "note": "The series are parameters; needs that the new moon found for a lunation has that lunation's number, which C42_proper proves of the program's MS_aLon_t2 for the years -993 to 4993."
  },
  {
   "property": "C43",
   "status": "partial",
   "theorems": [
    "C43_one_call",
    "C43_full_days",
    "C43_history_refuted",
    "C43_too_many_days_refuted"
   ],
   "note": "Sun columns depend on the arguments only; the moon columns too on days with a rise, transit and set. On the other days the text of an earlier call stays (refuted)."
  },
  {
   "property": "C63",
   "status": "proved",
   "theorems": [
    "C63_table",
    "C63_unwrap",
    "C63_unwrap_double",
    "C63_backward_refuted"
   ],
   "note": ""
  },
  {
   "property": "C44",
   "status": "partial",
   "theorems": [
    "C44_between_0_and_1_partial",
    "C44_published_fraction",
    "C44_far_times_refuted"
   ],
   "note": "In [0,1] for |t| up to 2^200 centuries, within 1e-9 of the published fraction for |t| up to 100; not a number for t = 2^300."
  },
  {
   "property": "C45",
   "status": "partial",
   "theorems": [
    "C45_text",
    "C45_accuracy",
    "C45_carry_wrong",
    "C45_carry_refuted",
    "C45_no_decimals_refuted",
    "C45_negative_precision_refuted",
    "C45_zero",
    "C45_infinity_refuted"
   ],
   "note": "C45_text gives the exact text for every finite double and 0 to 8 decimals. It is the rounded value unless a carry runs into the first of at least two digits before the point (always wrong then) or no decimals are asked for (cut)."
  },
  {
   "property": "C46",
   "status": "partial",
   "theorems": [
    "C46_safe",
    "C46_cached_power",
    "C46_digit_table_refuted",
    "C46_decimals_refuted"
   ],
   "note": "All accesses but those to kPow10 stay inside for every finite double and up to 8 decimals; kPow10 (10 entries) is read at up to entry 16 (refuted)."
  },
  {
   "property": "C64",
   "status": "proved",
   "theorems": [
    "C64_round_trip"
   ],
   "note": "For any content of the memory behind kPow10."
  },
  {
   "property": "C48",
   "status": "partial",
   "theorems": [
    "C48_vector_is_list",
    "C48_trivial_types",
    "C48_erase_nothing_refuted"
   ],
   "note": "All histories of 24 operations on any number of vectors, with memory safety. Complete for types copied as bytes, except emplace of an own element behind the position; for class types the cases named by benign are excluded and refuted."
  },
  {
   "property": "C49",
   "status": "partial",
   "theorems": [
    "C49_with_room",
    "C48_trivial_types",
    "C49_without_room_refuted",
    "C49_emplace_refuted"
   ],
   "note": "Holds with room, and for types copied as bytes (emplace excepted); refuted for class types at capacity and for emplace."
  },
  {
   "property": "C65",
   "status": "partial",
   "theorems": [
    "C65_nothing_lost",
    "C48_trivial_types",
    "C65_insert_n_refuted",
    "C65_reserve_refuted"
   ],
   "note": "Holds for histories without insert(n), range insert, reserve, shrink_to_fit and growing resize; refuted for insert(n) and reserve on class types."
  },
  {
   "property": "C47",
   "status": "partial",
   "theorems": [
    "C47_elements",
    "C47_without_copies",
    "C47_copy_refuted",
    "C47_outlived_refuted",
    "C47_long_list_refuted"
   ],
   "note": "Exact meaning of element access and iteration for all histories; independence holds without copy construction and is refuted for copies (their iterators belong to the original)."
  },
  {
   "property": "C50",
   "status": "proved",
   "theorems": [
    "C50_decode_encode",
    "C50_minutes_back",
    "C50_range"
   ],
   "note": "Up to rounding of the doubles (2^-45 degrees)."
  },
  {
   "property": "C66",
   "status": "partial",
   "theorems": [
    "C66_table",
    "C66_listed_place",
    "C66_listed_place_refuted",
    "C66_namesake_refuted"
   ],
   "note": "Holds for every place whose name does not occur earlier in the table; refuted for the shipped table."
  },
  {
   "property": "C67",
   "status": "partial",
   "theorems": [
    "C67_answers_handled",
    "C67_other_numbers_refuted"
   ],
   "note": "Holds for numbers in the range of the arrays and names up to 47 bytes; undefined for all other numbers."
  },
  {
   "property": "C68",
   "status": "proved",
   "theorems": [
    "C68_push_heap",
    "C68_pop_heap",
    "C68_make_heap",
    "C68_sort_heap",
    "C68_is_heap",
    "C68_is_sorted"
   ],
   "note": ""
  },
  {
   "property": "C69",
   "status": "partial",
   "theorems": [
    "C69_sort_up_to_128",
    "C69_sort_partial",
    "C69_sort_keeps_elements_refuted"
   ],
   "note": "Complete up to 128 elements. Beyond: ends, ascending, inside the range, but elements are lost (refuted)."
  },
  {
   "property": "C70",
   "status": "proved",
   "theorems": [
    "C70_partial_sort"
   ],
   "note": "For a nonempty [first, middle)."
  },
  {
   "property": "C71",
   "status": "partial",
   "theorems": [
    "C71_nth_element_partial",
    "C71_nth_element_small",
    "C71_nth_element_refuted",
    "C71_nth_element_comp_never_ends_refuted"
   ],
   "note": "Ends and only rearranges (operator<); wrong element from 6 elements on, endless loop with a function object (refuted)."
  },
  {
   "property": "C72",
   "status": "partial",
   "theorems": [
    "C72_lower_bound",
    "C72_upper_bound",
    "C72_binary_search",
    "C72_equal_range_partial",
    "C72_lower_bound_partitioned",
    "C72_binary_search_comp_refuted",
    "C72_equal_range_absent_refuted"
   ],
   "note": "Proved for lower_bound, upper_bound, binary_search with operator<, and equal_range of a present value; refuted for equal_range of an absent value and binary_search with a function object."
  },
  {
   "property": "C73",
   "status": "proved",
   "theorems": [
    "C73_merge",
    "C73_set_union",
    "C73_set_intersection",
    "C73_set_difference",
    "C73_set_symmetric_difference",
    "C73_includes"
   ],
   "note": ""
  },
  {
   "property": "C74",
   "status": "proved",
   "theorems": [
    "C74_reverse",
    "C74_rotate",
    "C74_swap_ranges",
    "C74_reverse_copy",
    "C74_random_shuffle",
    "C74_random_shuffle_gen"
   ],
   "note": ""
  },
  {
   "property": "C75",
   "status": "proved",
   "theorems": [
    "C75_inplace_merge",
    "C75_same_as_merge"
   ],
   "note": ""
  },
  {
   "property": "C76",
   "status": "proved",
   "theorems": [
    "C76_lexicographical_compare",
    "C76_lexicographical_compare_strict_weak",
    "C76_next_permutation",
    "C76_prev_permutation"
   ],
   "note": ""
  },
  {
   "property": "C77",
   "status": "proved",
   "theorems": [
    "C77_all_of",
    "C77_any_of",
    "C77_none_of",
    "C77_count_if",
    "C77_find_if",
    "C77_search",
    "C77_occurs",
    "C77_search_n",
    "C77_find_end",
    "C77_find_first_of",
    "C77_adjacent_find",
    "C77_max_element",
    "C77_min_element",
    "C77_mismatch"
   ],
   "note": ""
  },
  {
   "property": "C78",
   "status": "proved",
   "theorems": [
    "C78_remove_if",
    "C78_replace_if",
    "C78_unique",
    "C78_unique_sorted",
    "C78_partition"
   ],
   "note": "The value given to remove and replace is assumed not to be an element of the range, as in the C++ standard."
  },
  {
   "property": "C79",
   "status": "proved",
   "theorems": [
    "C79_is_permutation",
    "C79_plain"
   ],
   "note": ""
  },
  {
   "property": "C80",
   "status": "proved",
   "theorems": [
    "C80_map_history",
    "C80_insert_result",
    "C80_erase_result",
    "C80_existing_iterator_refuted",
    "C80_destructor_leak_refuted"
   ],
   "note": "Proved as stated; refuted in addition: the iterator returned for a key that is there already may point to another element; the destructor leaks the header node."
  },
  {
   "property": "C81",
   "status": "proved",
   "theorems": [
    "C81_multi_history",
    "C81_insert_last"
   ],
   "note": ""
  },
  {
   "property": "C82",
   "status": "proved",
   "theorems": [
    "C82_lookup",
    "C82_map_lookup",
    "C82_index",
    "C82_at_absent_refuted"
   ],
   "note": "Proved as stated; refuted in addition: at() of an absent key need not throw."
  },
  {
   "property": "C83",
   "status": "proved",
   "theorems": [
    "C83_rounds"
   ],
   "note": ""
  },
  {
   "property": "C84",
   "status": "proved",
   "theorems": [
    "C84_copy",
    "C84_move",
    "C84_moved_from_refuted"
   ],
   "note": "Proved as stated; refuted in addition: a container that was moved from cannot be used again (null header)."
  },
  {
   "property": "C85",
   "status": "partial",
   "theorems": [
    "C85_names",
    "C85_every_kind",
    "C85_mixed_names",
    "C85_name_H_refuted",
    "C85_name_A1_refuted"
   ],
   "note": "The last part is refuted for the kinds H and A1; the rest is proved."
  },
  {
   "property": "C86",
   "status": "proved",
   "theorems": [
    "C86_year_text"
   ],
   "note": "The functions for the exact times are parameters."
  },
  {
   "property": "C87",
   "status": "proved",
   "theorems": [
    "C87_formulas"
   ],
   "note": "sin and cos of the C library are parameters, assumed correct to within 2^-52."
  },
  {
   "property": "C88",
   "status": "proved",
   "theorems": [
    "C88_eclipse",
    "C88_letters",
    "C88_next"
   ],
   "note": "sin and cos of the C library are parameters, assumed correct to within 2^-52.  Against the truncated series the function uses, not against the sky.  For the kinds T0, A0, T1, A1 the letter is only sure when vertex and ground differ by 0.001, since the code tests no margin there."
  },
  {
   "property": "C89",
   "status": "proved",
   "theorems": [
    "C89_longitudes"
   ],
   "note": "sin and cos of the C library are parameters, assumed correct to within 2^-52.  Against the series of the tables, not against the sky."
  },
  {
   "property": "C90",
   "status": "proved",
   "theorems": [
    "C90_sun"
   ],
   "note": "sin and cos of the C library are parameters, assumed correct to within 2^-52.  Against the series of the tables."
  },
  {
   "property": "C91",
   "status": "proved",
   "theorems": [
    "C91_moon"
   ],
   "note": "sin and cos of the C library are parameters, assumed correct to within 2^-52.  Against the series of the tables.  That some moment with the exact elongation exists is not claimed: the series jump by 0.87 arc seconds at the year 3000."
  },
  {
   "property": "C92",
   "status": "proved",
   "theorems": [
    "C92_solar_term"
   ],
   "note": "sin and cos of the C library are parameters, assumed correct to within 2^-52.  Against the series of the tables; Delta T is that of a date within 6 days of the moment."
  },
  {
   "property": "C93",
   "status": "proved",
   "theorems": [
    "C93_terms_of_year"
   ],
   "note": "sin and cos of the C library are parameters, assumed correct to within 2^-52.  Against the series of the tables."
  },
  {
   "property": "C94",
   "status": "proved",
   "theorems": [
    "C94_new_moon"
   ],
   "note": "sin and cos of the C library are parameters, assumed correct to within 2^-52.  Against the series of the tables; Delta T is that of a date within 6 days of the moment."
  },
  {
   "property": "C95",
   "status": "proved",
   "theorems": [
    "C95_lunar_year"
   ],
   "note": "sin and cos of the C library are parameters, assumed correct to within 2^-52.  Against the series of the tables; days as in C92 and C94, that is up to 2.3 and 250 seconds around midnight."
  },
  {
   "property": "C96",
   "status": "proved",
   "theorems": [
    "C96_read",
    "C96_add",
    "C96_add_many",
    "C96_full",
    "C96_remove",
    "C96_remove_many",
    "C96_resize",
    "C96_assign",
    "C96_empty"
   ],
   "note": "operator new is assumed to succeed and copying a value not to throw."
  },
  {
   "property": "C97",
   "status": "proved",
   "theorems": [
    "C97_splice",
    "C97_splice_own",
    "C97_remove",
    "C97_unique",
    "C97_unique_sound",
    "C97_reverse",
    "C97_splice_range_own_refuted",
    "C97_remove_ref_refuted"
   ],
   "note": "Two clauses one expects are refuted: see the findings."
  },
  {
   "property": "C98",
   "status": "proved",
   "theorems": [
    "C98_merge",
    "C98_sort"
   ],
   "note": "The comparison is a function of the two values and does not throw."
  },
  {
   "property": "C99",
   "status": "proved",
   "theorems": [
    "C99_construct",
    "C99_destroy",
    "C99_leak",
    "C99_move",
    "C99_move_assign",
    "C99_equal",
    "C99_self_move_refuted",
    "C99_moved_from_refuted"
   ],
   "note": "Two clauses one expects are refuted: see the findings."
  },
  {
   "property": "C100",
   "status": "proved",
   "theorems": [
    "C100_search",
    "C100_no_shortcut"
   ],
   "note": "RS_GS::init and RS_GS::feature are a parameter: the moment and kind per lunation, assumed within 8 days of the mean new moon."
  },
  {
   "property": "C101",
   "status": "proved",
   "theorems": [
    "C101_sun"
   ],
   "note": "The error is against the full series of the Sun's longitude of C89 with latitude 0 and without nutation, as in the code."
  },
  {
   "property": "C102",
   "status": "proved",
   "theorems": [
    "C102_parallactic_angle",
    "C102_topocentric"
   ],
   "note": "Exact arithmetic; the station at the pole and the body at the station excluded."
  },
  {
   "property": "C103",
   "status": "proved",
   "theorems": [
    "C103_straight",
    "C103_order",
    "C103_general",
    "C103_error",
    "C103_contact_refuted"
   ],
   "note": "Exact arithmetic; lecXY and the first estimate of the full moon are parameters; the moon is assumed to move eastward relative to the shadow.  One clause one expects is refuted: see the findings."
  },
  {
   "property": "C104",
   "status": "proved",
   "theorems": [
    "C104_general",
    "C104_straight",
    "C104_invisible_refuted"
   ],
   "note": "Exact arithmetic; secXY, the first estimate and sunrise and sunset are parameters; contacts under the assumption that the moon moves eastward relative to the sun.  The position angles are not modelled.  One clause one expects is refuted: see the findings."
  },
  {
   "property": "C105",
   "status": "proved",
   "theorems": [
    "deque_iterators",
    "deque_buffer_size"
   ],
   "note": ""
  },
  {
   "property": "C106",
   "status": "proved",
   "theorems": [
    "deque_access",
    "deque_push_front",
    "deque_push_back",
    "deque_pop_front",
    "deque_pop_back",
    "deque_shrink_to_fit"
   ],
   "note": "Failure of operator new is not modelled."
  },
  {
   "property": "C107",
   "status": "partial",
   "theorems": [
    "deque_insert",
    "deque_insert_n",
    "deque_insert_range",
    "deque_erase",
    "deque_clear",
    "deque_erase_range_partial",
    "deque_erase_range_undefined",
    "deque_resize_partial",
    "deque_assign_n_partial",
    "deque_assign_range_partial",
    "deque_resize_refuted",
    "deque_insert_input_refuted",
    "deque_insert_n_lost_refuted"
   ],
   "note": "Erasing a range, resize and assign to fewer values: proved when T is trivially destructible or the freed slots are in one buffer, and undefined behaviour else; refuted in general, as is the order of input ranges and that insertion loses no buffer."
  },
  {
   "property": "C108",
   "status": "partial",
   "theorems": [
    "deque_copy_init",
    "deque_fill_init",
    "deque_apart",
    "deque_destroy_partial",
    "deque_destroy_leaks",
    "deque_move",
    "deque_move_assign_partial",
    "deque_swap",
    "deque_input_init_refuted",
    "deque_destroy_refuted",
    "deque_move_assign_refuted",
    "deque_move_self_refuted",
    "deque_moved_from_refuted"
   ],
   "note": "Destruction and move assignment leave blocks allocated: characterised exactly and refuted."
  },
  {
   "property": "C109",
   "status": "proved",
   "theorems": [
    "hash_find",
    "hash_count",
    "hash_equal_range_multi",
    "hash_equal_range_unique",
    "hash_u_at"
   ],
   "note": ""
  },
  {
   "property": "C110",
   "status": "proved",
   "theorems": [
    "hash_iterate",
    "hash_bucket_size"
   ],
   "note": ""
  },
  {
   "property": "C111",
   "status": "proved",
   "theorems": [
    "hash_insert_multi",
    "hash_insert_unique",
    "hash_insert_range_multi",
    "hash_insert_range_unique",
    "hash_index"
   ],
   "note": ""
  },
  {
   "property": "C112",
   "status": "partial",
   "theorems": [
    "hash_emplace_multi",
    "hash_emplace_unique_partial",
    "hash_emplace_leak",
    "hash_emplace_unique_refuted"
   ],
   "note": "The node made for a key that is there is lost: proved in general and refuted."
  },
  {
   "property": "C113",
   "status": "partial",
   "theorems": [
    "hash_next_prime",
    "hash_rehash_partial",
    "hash_reserve",
    "hash_load_insert_multi",
    "hash_load_insert_unique",
    "hash_load_insert_range",
    "hash_rehash_leak",
    "hash_rehash_refuted",
    "hash_load_refuted"
   ],
   "note": "A growing array loses all old nodes; a maximum load factor below 1 is exceeded: refuted."
  },
  {
   "property": "C114",
   "status": "proved",
   "theorems": [
    "hash_erase",
    "hash_erase_range",
    "hash_erase_unique",
    "hash_clear",
    "hash_erased_nodes",
    "hash_other_nodes"
   ],
   "note": ""
  },
  {
   "property": "C115",
   "status": "partial",
   "theorems": [
    "hash_erase_multi_partial",
    "hash_erase_multi_undefined",
    "hash_erase_multi_refuted"
   ],
   "note": "Undefined whenever the key is there: proved in general."
  },
  {
   "property": "C116",
   "status": "partial",
   "theorems": [
    "hash_construct",
    "hash_u_construct_unique",
    "hash_u_construct_multi",
    "hash_copy",
    "hash_copy_assign",
    "hash_move_assign_partial",
    "hash_destruct",
    "hash_equal_unique",
    "hash_moved_from",
    "hash_moved_grows",
    "hash_construct_range",
    "hash_construct_range_refuted",
    "hash_moved_from_refuted",
    "hash_bucket_begin_refuted"
   ],
   "note": "Range constructor, tables moved from and begin(n): refuted."
  },
  {
   "property": "C117",
   "status": "proved",
   "theorems": [
    "hash_history"
   ],
   "note": ""
  },
  {
   "property": "C118",
   "status": "proved",
   "theorems": [
    "queue_history",
    "stack_history"
   ],
   "note": ""
  },
  {
   "property": "C119",
   "status": "proved",
   "theorems": [
    "prio_history",
    "prio_make",
    "prio_push",
    "prio_pop",
    "prio_drain"
   ],
   "note": ""
  },
  {
   "property": "C120",
   "status": "proved",
   "theorems": [
    "numeric_partial_sum",
    "numeric_adjacent_difference",
    "numeric_inverse",
    "numeric_accumulate",
    "numeric_inner_product",
    "numeric_iota"
   ],
   "note": ""
  },
  {
   "property": "C121",
   "status": "partial",
   "theorems": [
    "C121_minutes_seconds",
    "C121_accuracy",
    "C121_other_units",
    "C121_range_refuted",
    "C121_seconds_refuted",
    "C121_cut_refuted",
    "C121_minus_zero_refuted"
   ],
   "note": "The split is proved in full; the seconds shown can be 150.00 for 59.999 and are cut without decimals."
  },
  {
   "property": "C122",
   "status": "proved",
   "theorems": [
    "shadow_penumbra",
    "shadow_umbra",
    "shadow_antumbra",
    "shadow_magnitude"
   ],
   "note": "Exact arithmetic."
  },
  {
   "property": "C123",
   "status": "proved",
   "theorems": [
    "apex_umbra",
    "apex_penumbra"
   ],
   "note": "Exact arithmetic."
  },
  {
   "property": "C124",
   "status": "proved",
   "theorems": [
    "speed_derivative",
    "speed_outside"
   ],
   "note": "Exact arithmetic; a turn per day as in the code."
  },
  {
   "property": "C125",
   "status": "proved",
   "theorems": [
    "place_direction",
    "place_ellipsoid",
    "place_vertical"
   ],
   "note": "Exact arithmetic."
  },
  {
   "property": "C126",
   "status": "proved",
   "theorems": [
    "instants_speed",
    "instants_middle",
    "instants_between",
    "instants_noon"
   ],
   "note": "Exact arithmetic."
  },
  {
   "property": "C127",
   "status": "proved",
   "theorems": [
    "limits_edge",
    "limits_across",
    "limits_sunrise"
   ],
   "note": "Exact arithmetic."
  },
  {
   "property": "C128",
   "status": "partial",
   "theorems": [
    "exc_copy_done",
    "exc_fill_done",
    "exc_move_done",
    "exc_move_n_throw",
    "exc_move_throw",
    "exc_fill_throw",
    "exc_copy_throw",
    "C128_swallowed_refuted",
    "C128_destroyed_refuted"
   ],
   "note": "Only uninitialized_move_n passes the exception on; uninitialized_copy destroys what was not constructed."
  },
  {
   "property": "C129",
   "status": "partial",
   "theorems": [
    "exv_agree_fill",
    "exv_agree_range",
    "exv_agree_push",
    "exv_agree_assign",
    "exv_fill_throw",
    "exv_range_throw",
    "exv_push_room_throw",
    "exv_push_full_throw",
    "exv_push_full_move_throw",
    "exv_assign_throw",
    "C129_dead_elements_refuted",
    "C129_strong_refuted",
    "C129_elements_refuted"
   ],
   "note": "Proved without exceptions and for push_back with room; the other cases are characterised and refute the claim."
  },
  {
   "property": "C130",
   "status": "partial",
   "theorems": [
    "buffer_get",
    "buffer_fits",
    "buffer_life",
    "buffer_empty",
    "buffer_throw",
    "C130_empty_refuted",
    "C130_throw_refuted"
   ],
   "note": "Proved for a non-empty range without exceptions; the empty range frees an unset pointer."
  },
  {
   "property": "C131",
   "status": "proved",
   "theorems": [
    "auto_ptr_owns",
    "auto_ptr_no_leak"
   ],
   "note": ""
  },
  {
   "property": "C132",
   "status": "partial",
   "theorems": [
    "C132_step",
    "C132_sun",
    "C132_noon",
    "C132_zero_refuted"
   ],
   "note": "Proved in exact arithmetic; the last clause is refuted: 0 is also the moment J2000."
  },
  {
   "property": "C133",
   "status": "partial",
   "theorems": [
    "C133_times",
    "midnight_sun",
    "C133_polar_refuted"
   ],
   "note": "The first half is proved; the second is refuted under the midnight sun."
  },
  {
   "property": "C134",
   "status": "partial",
   "theorems": [
    "C134_seen",
    "C134_limb",
    "C134_ear",
    "C134_nbj",
    "C134_side",
    "C134_width_partial",
    "C134_width_refuted"
   ],
   "note": "Everything but the width is proved; the width is wrong when the limits are on the two sides of the meridian of 180 degrees."
  },
  {
   "property": "C135",
   "status": "proved",
   "theorems": [
    "mean_time_ok",
    "vertex_round",
    "extreme_rounds",
    "C135_moon",
    "C135_earth",
    "C135_mercury",
    "C135_venus",
    "C135_node"
   ],
   "note": ""
  },
  {
   "property": "C136",
   "status": "partial",
   "theorems": [
    "approach_closest",
    "C136_station",
    "C136_kind",
    "C136_kind_refuted",
    "C136_zero_refuted"
   ],
   "note": "Proved where the right ascension does not pass 0; refuted there, and refuted for the kind of the station of Mercury and Venus."
  },
  {
   "property": "C137",
   "status": "proved",
   "theorems": [
    "approach_closest",
    "C137_sun",
    "C137_moon"
   ],
   "note": ""
  },
  {
   "property": "C138",
   "status": "partial",
   "theorems": [
    "C138_moon",
    "C138_altitude",
    "C138_all",
    "C138_never",
    "C138_never_refuted"
   ],
   "note": "Proved where the Moon rises and sets; refuted where it does not: the lower transits are given as rise and set."
  },
  {
   "property": "C139",
   "status": "proved",
   "theorems": [
    "C139_equation_of_time",
    "C139_solar_time",
    "C139_bazi"
   ],
   "note": ""
  },
  {
   "property": "C140",
   "status": "proved",
   "theorems": [
    "C140_apparent",
    "C140_place",
    "C140_refraction",
    "C140_refraction_grows",
    "C140_refraction_gap",
    "C140_solar_time",
    "C140_central",
    "C140_shadow"
   ],
   "note": ""
  },
  {
   "property": "C141",
   "status": "partial",
   "theorems": [
    "C141_points",
    "C141_accurate",
    "C141_complete_refuted"
   ],
   "note": "completeness is false of the code near grazing; the witness is C141_complete_refuted"
  },
  {
   "property": "C142",
   "status": "partial",
   "theorems": [
    "C142_series",
    "C142_program",
    "C142_kept",
    "C142_lost_refuted",
    "C142_filter_refuted"
   ],
   "note": "that all long terms are kept is false of the code; witnesses in C142_lost_refuted and C142_filter_refuted"
  },
  {
   "property": "C143",
   "status": "proved",
   "theorems": [
    "C143_equation_of_time",
    "C143_table"
   ],
   "note": ""
  },
  {
   "property": "C144",
   "status": "proved",
   "theorems": [
    "C144_contact",
    "C144_outline",
    "C144_horizon",
    "C144_horizon_refuted",
    "C144_missed"
   ],
   "note": ""
  },
  {
   "property": "C145",
   "status": "proved",
   "theorems": [
    "C145_partial_sort_copy"
   ],
   "note": ""
  },
  {
   "property": "C146",
   "status": "proved",
   "theorems": [
    "C146_transform1",
    "C146_transform2",
    "C146_replace_copy",
    "C146_remove_copy",
    "C146_reverse_copy",
    "C146_unique_copy",
    "C146_partition_copy",
    "C146_for_each",
    "C146_generate",
    "C146_generate_n"
   ],
   "note": ""
  },
  {
   "property": "C147",
   "status": "partial",
   "theorems": [
    "C147_planet",
    "C147_moon",
    "C147_other",
    "C147_earth_refuted",
    "C147_elongation",
    "C147_elongation_high",
    "C147_elongation_high_refuted",
    "C147_station_coordinates",
    "C147_sun_difference",
    "C147_moon_difference",
    "C147_light_time",
    "C147_aberration"
   ],
   "note": "false for the number 0 (zero vector), for numbers that name no body (variables used without a value) and for the elongation of high precision, which takes the Earth at the light time of the Sun for both directions"
  },
  {
   "property": "C148",
   "status": "partial",
   "theorems": [
    "C148_stol",
    "C148_stoul",
    "C148_invalid",
    "C148_cases",
    "C148_one_number",
    "C148_inverts_to_str",
    "C148_my_stoi",
    "C148_history_refuted"
   ],
   "note": "proved with errno clear before the call; false after an earlier range error, since errno is never cleared"
  },
  {
   "property": "C149",
   "status": "partial",
   "theorems": [
    "C149_report",
    "C149_table",
    "C149_minutes_refuted",
    "C149_sign_refuted"
   ],
   "note": "false for the table: the column of sunrise is cut behind the hour and before the last four characters of the year; hour 24 is possible as in C06"
  },
  {
   "property": "C150",
   "status": "partial",
   "theorems": [
    "C150_session_partial",
    "C150_again",
    "C150_table_moves_refuted",
    "C150_no_return_refuted"
   ],
   "note": "the texts of one eclipse are parameters; false for fs = 2 after the table, which has moved the variable by 100 steps; fs above 5 returns no string"
  },
  {
   "property": "C151",
   "status": "partial",
   "theorems": [
    "C151_range",
    "C151_one_byte",
    "C151_equal",
    "C151_word",
    "C151_bytes",
    "C151_double",
    "C151_int",
    "C151_padding_refuted"
   ],
   "note": "false for long double, whose padding bytes are hashed; float is not modelled"
  },
  {
   "property": "C152",
   "status": "proved",
   "theorems": [
    "C152_lexicographic",
    "C152_order",
    "C152_others",
    "C152_weak_refuted"
   ],
   "note": "the refutation shows that members with only a weak order are not enough"
  },
  {
   "property": "C153",
   "status": "partial",
   "theorems": [
    "C153_choice",
    "C153_solar",
    "C153_lunar",
    "C153_round_trip",
    "C153_limits"
   ],
   "note": "the lines of angles before the tables and the numbers after them are in C159; texts of numbers are a parameter; hour 24 is possible as in C06"
  },
  {
   "property": "C154",
   "status": "proved",
   "theorems": [
    "C154_table",
    "C154_equation_of_time"
   ],
   "note": "the text of the seconds is that of to_str, see C45 and C46 for what it shows"
  },
  {
   "property": "C155",
   "status": "proved",
   "theorems": [
    "C155_head",
    "C155_places",
    "C155_horizon",
    "C155_more",
    "C155_text"
   ],
   "note": "texts of decimal numbers are those of to_str, see C45 and C46 for what they show; hour 24 is possible as in C07"
  },
  {
   "property": "C156",
   "status": "partial",
   "theorems": [
    "C156_points",
    "C156_center",
    "C156_overview",
    "C156_no_center_refuted"
   ],
   "note": "that the lines of the central eclipse are left out otherwise is refuted; the members of the feature and the name of the kind (C85) are parameters; texts of decimal numbers are those of to_str (C45, C46)"
  },
  {
   "property": "C157",
   "status": "proved",
   "theorems": [
    "C157_table"
   ],
   "note": "the limits (nanbei, bseXY2db) and the middle of the eclipse (feature) are parameters"
  },
  {
   "property": "C158",
   "status": "partial",
   "theorems": [
    "C158_text",
    "C158_no_body_refuted"
   ],
   "note": "refuted for numbers that name no body; the numbers shown are parameters, see C147 for what they are; texts of decimal numbers are those of to_str (C45, C46)"
  },
  {
   "property": "C159",
   "status": "proved",
   "theorems": [
    "C159_solar",
    "C159_lunar",
    "C159_solar_tail",
    "C159_lunar_tail"
   ],
   "note": "the radii, duration, magnitude, the distance of the centers and the place of the axis are parameters; texts of decimal numbers are those of to_str (C45, C46)"
  }
 ]
}