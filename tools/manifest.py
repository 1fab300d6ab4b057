#!/usr/bin/env python3
# Writes /verif/MANIFEST.json from the list below.
import json, os
C=[]
def c(prop,status,theorems,note):
    C.append(dict(property=prop,status=status,theorems=theorems.split(),note=note))

c("C01","proved","C01_toJD_counts_days C01_every_date_is_counted C01_toJD_instant","IEEE-double model; exact at noon, error bound at other times.")
c("C02","proved","C02_setFromJD_counts_days C02_setFromJD_instant","IEEE-double model.")
c("C03","proved","C03_date_round_trip C03_day_round_trip C03_datetime_round_trip","")
c("C04","partial","C04_round_trip_refuted C04_limit_sharp_refuted","The property is false of the code: refuted by witnesses; C03 holds exactly from 1 March -4716 on.")
c("C05","proved","C05_clock_fields_in_range","")
c("C06","partial","C06_JD2str_partial C06_hour_24_refuted","Hour field can be 24 (last half second of a day): refuted by witness. Everything else proved: valid minute/second, date counted, instant within half a second.")
c("C07","partial","C07_timeStr_partial C07_hour_24_refuted","Same defect as C06.")
c("C08","partial","C08_text_shows_fields C08_fields_readable C08_text_identifies_date C08_year_cut_refuted C08_year_100000_refuted","Proved for the years -9999..99999; refuted for the other years (column is cut).")
c("C09","proved","C09_to_str_decimal C09_text_identifies_integer C09_to_str_width C09_negative_width_refuted C09_wide_width_refuted","All 32/64-bit integers. The width parameter is proved for 0..63; a negative or larger width overruns a buffer (refuted).")
c("C10","partial","C10_stoi_inverts_to_str_partial C10_history_refuted C10_out_of_range_refuted","Proved with errno clear; false after an earlier range error and for texts between int and long range.")
c("C11","partial","C11_string_replace C11_replaced_is_unique C11_empty_pattern_refuted","Proved for every non-empty pattern; never ends for the empty pattern (refuted).")
c("C12","partial","C12_split_lossless C12_long_separator_lossy_refuted C12_long_separator_throws_refuted","Proved for one-byte separators; refuted for longer ones.")
c("C13","proved","C13_fill_str C13_overflow_refuted","All n that do not overflow n - length; refuted at INT_MIN.")
c("C14","proved","C14_rad2strE C14_split_in_range C14_rad2str2 C14_split2_in_range C14_wide_angle_refuted","Text theorem for |d| <= 17 rad; split theorem for every value below 2^31-2. Beyond 999 degrees the text is cut (refuted).")
c("C15","proved","C15_jieya_expands C15_order_irrelevant C15_table_lengths C15_jieya_total","Expansion law for every text; lengths computed for the two shipped tables.")
c("C16","proved","C16_correction","All doubles jd with |jd| <= 10^6; the low-precision series is a parameter returning any number below 10^9.")
c("C17","proved","C17_one_era C17_served_by_era C17_mean_era","All doubles jd with |jd| <= 10^6.")
c("C18","proved","C18_leap_rule C18_leap_month_is_first_without_major_term C18_month_numbers","Every calc function; 'first month without a major term' for tables with natural spacings.")
c("C19","proved","C19_old_names_total C19_from_721","Unconditional for -720..-104; for -721 the solstice is that of the series (sin and cos correct to within 2^-52).")
c("C20","proved","C20_month_names C20_neighbours_differ C20_decreed_names","C20_decreed_names gives the name in the eras of decreed names as well.")
c("C22","proved","C22_shipped_table C26_festivals C22_kth_weekday_unique C22_last_weekday_refuted","All month shapes, all well-formed tables incl. the shipped one. A 'last weekday' entry for a day other than Sunday is not reported (refuted; outside the stated property).")
c("C24","proved","C24_islamic_date C24_date_is_unique","All |d0| < 2^30; the 10631-day cycle is swept, periodicity and counting proved.")
c("C25","proved","C25_eras C25_shipped_table C25_shipped_eras C25_stale_errno_refuted","Any well-formed table and the shipped one, errno clear; throws with stale errno (refuted).")
c("C26","proved","C26_festivals C26_shipped_table C26_shipped_festivals C26_stale_errno_refuted C26_short_name_refuted","Any well-formed table and the shipped one, errno clear; throws with stale errno (refuted).")
c("C27","partial","C27_laba_refuted C27_laba_on_wrong_month C27_laba_never","The property is false of the code: 腊八节 is keyed to month 冬, a name the calendar never produces, so it is never reported.")
c("C28","proved","C28_new_years_eve","")
c("C29","partial","C29_holiday_flag_refuted C29_holiday_flag_partial","False of the code: on a plain weekday the flag is never written. Proved: when it is set, and that it is otherwise left as it was.")
c("C21","proved","C21_page_lists_the_month C21_week_rows","Years -4715..5772802.")
c("C30","proved","C30_month_of_day C30_term_of_day","Month tables with lengths 29/30 and natural solstices; term tables within 7 days of even spacing.")
c("C53","proved","C53_year_from_spring C53_year_from_new_year","")
c("C54","proved","C54_five_tigers","")
c("C55","proved","C55_month_page C55_any_history","The day function of the tables is a parameter; its tables must be windows of one calendar with natural spacings.")
c("C56","proved","C56_events_inside","")
c("C51","proved","C51_seasonal_day C51_dog_days","")
c("C52","proved","C52_lunar_notes","")
c("C23","proved","C23_pillars C23_clock C23_steps C23_rules C23_jie_count C23_whole","Local true solar times from -7e6 to 1.7e8 days; within a microday of a change of the double hour the time before or after may be taken. The series are parameters.")
c("C31","partial","C31_mrad_exact C31_rrad_exact C31_unique C31_rrad_double C31_mrad_double C31_mrad_range_refuted","Exact arithmetic and doubles. For doubles the half-open range of rad2mrad is false: a tiny negative angle gives 2 pi itself (refuted); the closed range is proved.")
c("C32","proved","C32_reads_inside C32_value C32_continuous C32_jumps C32_dt_T C32_nan_refuted","")
c("C33","proved","C33_value C33_short_names C33_long_names_refuted C33_no_quantity_refuted","Values for |t| <= 50 centuries; lookups for every name of at most two bytes. Names of three or more bytes overflow the buffer (refuted; outside the stated property).")
c("C34","partial","C34_sum C34_first_group C34_monotone C34_shipped_headers C34_shipped C34_overflow_refuted","cos and the coefficients are parameters. Term counts up to 672000 (negative: all); above, int overflow (refuted).")
c("C35","proved","C35_value C35_first_table C35_overflow_refuted","cos and the coefficients are parameters. Term counts -357913941..134960; above, int overflow (refuted).")
c("C36","proved","C36_equatorial C36_equatorial_coordinates C36_ecliptic","Exact arithmetic. Equatorial: all directions; ecliptic: the intermediate directions are not the poles of their frames.")
c("C37","proved","C37_rotation C37_ranges","Exact arithmetic.")
c("C38","proved","C38_rectangular C38_spherical C38_ranges","Exact arithmetic.")
c("C39","proved","C39_hit C39_miss_iff","Exact arithmetic.")
c("C40","partial","C40_contact C40_order_refuted","Exact arithmetic. Proved for velocities with positive x component; with a negative one the two roots are exchanged (refuted).")
c("C57","proved","C57_lineOvl","Exact arithmetic.")
c("C58","proved","C58_change_of_centre","Exact arithmetic.")
c("C59","proved","C59_horizontal","Exact arithmetic.")
c("C60","proved","C60_angle C60_near","Exact arithmetic.")
c("C61","proved","C61_besselian_inverse","Exact arithmetic.")
c("C62","proved","C62_lineEar2 C62_lineEar","Exact arithmetic.")
c("C41","proved","C41_reads_inside C41_times C41_rows C41_quadratic C41_linear C41_one_row_refuted","Tables of at least two rows; with one row the code reads before the table (refuted; init is never called so). Values in exact arithmetic.")
c("C42","proved","C42_rows C42_history_free C42_proper C42_needs_proper_new_moon","The series are parameters; needs that the new moon found for a lunation has that lunation's number, which C42_proper proves of the program's MS_aLon_t2 for the years -993 to 4993.")
c("C43","partial","C43_one_call C43_full_days C43_history_refuted C43_too_many_days_refuted","Sun columns depend on the arguments only; the moon columns too on days with a rise, transit and set. On the other days the text of an earlier call stays (refuted).")
c("C63","proved","C63_table C63_unwrap C63_unwrap_double C63_backward_refuted","")

c("C44","partial","C44_between_0_and_1_partial C44_published_fraction C44_far_times_refuted","In [0,1] for |t| up to 2^200 centuries, within 1e-9 of the published fraction for |t| up to 100; not a number for t = 2^300.")
c("C45","partial","C45_text C45_accuracy C45_carry_wrong C45_carry_refuted C45_no_decimals_refuted C45_negative_precision_refuted C45_zero C45_infinity_refuted","C45_text gives the exact text for every finite double and 0 to 8 decimals. It is the rounded value unless a carry runs into the first of at least two digits before the point (always wrong then) or no decimals are asked for (cut).")
c("C46","partial","C46_safe C46_cached_power C46_digit_table_refuted C46_decimals_refuted","All accesses but those to kPow10 stay inside for every finite double and up to 8 decimals; kPow10 (10 entries) is read at up to entry 16 (refuted).")
c("C64","proved","C64_round_trip","For any content of the memory behind kPow10.")
c("C48","partial","C48_vector_is_list C48_trivial_types C48_erase_nothing_refuted","All histories of 24 operations on any number of vectors, with memory safety. Complete for types copied as bytes, except emplace of an own element behind the position; for class types the cases named by benign are excluded and refuted.")
c("C49","partial","C49_with_room C48_trivial_types C49_without_room_refuted C49_emplace_refuted","Holds with room, and for types copied as bytes (emplace excepted); refuted for class types at capacity and for emplace.")
c("C65","partial","C65_nothing_lost C48_trivial_types C65_insert_n_refuted C65_reserve_refuted","Holds for histories without insert(n), range insert, reserve, shrink_to_fit and growing resize; refuted for insert(n) and reserve on class types.")
c("C47","partial","C47_elements C47_without_copies C47_copy_refuted C47_outlived_refuted C47_long_list_refuted","Exact meaning of element access and iteration for all histories; independence holds without copy construction and is refuted for copies (their iterators belong to the original).")
c("C50","proved","C50_decode_encode C50_minutes_back C50_range","Up to rounding of the doubles (2^-45 degrees).")
c("C66","partial","C66_table C66_listed_place C66_listed_place_refuted C66_namesake_refuted","Holds for every place whose name does not occur earlier in the table; refuted for the shipped table.")
c("C67","partial","C67_answers_handled C67_other_numbers_refuted","Holds for numbers in the range of the arrays and names up to 47 bytes; undefined for all other numbers.")
c("C68","proved","C68_push_heap C68_pop_heap C68_make_heap C68_sort_heap C68_is_heap C68_is_sorted","")
c("C69","partial","C69_sort_up_to_128 C69_sort_partial C69_sort_keeps_elements_refuted","Complete up to 128 elements. Beyond: ends, ascending, inside the range, but elements are lost (refuted).")
c("C70","proved","C70_partial_sort","For a nonempty [first, middle).")
c("C71","partial","C71_nth_element_partial C71_nth_element_small C71_nth_element_refuted C71_nth_element_comp_never_ends_refuted","Ends and only rearranges (operator<); wrong element from 6 elements on, endless loop with a function object (refuted).")
c("C72","partial","C72_lower_bound C72_upper_bound C72_binary_search C72_equal_range_partial C72_lower_bound_partitioned C72_binary_search_comp_refuted C72_equal_range_absent_refuted","Proved for lower_bound, upper_bound, binary_search with operator<, and equal_range of a present value; refuted for equal_range of an absent value and binary_search with a function object.")
c("C73","proved","C73_merge C73_set_union C73_set_intersection C73_set_difference C73_set_symmetric_difference C73_includes","")
c("C74","proved","C74_reverse C74_rotate C74_swap_ranges C74_reverse_copy C74_random_shuffle C74_random_shuffle_gen","")
c("C75","proved","C75_inplace_merge C75_same_as_merge","")
c("C76","proved","C76_lexicographical_compare C76_lexicographical_compare_strict_weak C76_next_permutation C76_prev_permutation","")
c("C77","proved","C77_all_of C77_any_of C77_none_of C77_count_if C77_find_if C77_search C77_occurs C77_search_n C77_find_end C77_find_first_of C77_adjacent_find C77_max_element C77_min_element C77_mismatch","")
c("C78","proved","C78_remove_if C78_replace_if C78_unique C78_unique_sorted C78_partition","The value given to remove and replace is assumed not to be an element of the range, as in the C++ standard.")
c("C79","proved","C79_is_permutation C79_plain","")
c("C80","proved","C80_map_history C80_insert_result C80_erase_result C80_existing_iterator_refuted C80_destructor_leak_refuted","Proved as stated; refuted in addition: the iterator returned for a key that is there already may point to another element; the destructor leaks the header node.")
c("C81","proved","C81_multi_history C81_insert_last","")
c("C82","proved","C82_lookup C82_map_lookup C82_index C82_at_absent_refuted","Proved as stated; refuted in addition: at() of an absent key need not throw.")
c("C83","proved","C83_rounds","")
c("C84","proved","C84_copy C84_move C84_moved_from_refuted","Proved as stated; refuted in addition: a container that was moved from cannot be used again (null header).")
c("C85","partial","C85_names C85_every_kind C85_mixed_names C85_name_H_refuted C85_name_A1_refuted","The last part is refuted for the kinds H and A1; the rest is proved.")
c("C86","proved","C86_year_text","The functions for the exact times are parameters.")
c("C87","proved","C87_formulas","sin and cos of the C library are parameters, assumed correct to within 2^-52.")
c("C88","proved","C88_eclipse C88_letters C88_next","sin and cos of the C library are parameters, assumed correct to within 2^-52.  Against the truncated series the function uses, not against the sky.  For the kinds T0, A0, T1, A1 the letter is only sure when vertex and ground differ by 0.001, since the code tests no margin there.")
c("C89","proved","C89_longitudes","sin and cos of the C library are parameters, assumed correct to within 2^-52.  Against the series of the tables, not against the sky.")
c("C90","proved","C90_sun","sin and cos of the C library are parameters, assumed correct to within 2^-52.  Against the series of the tables.")
c("C91","proved","C91_moon","sin and cos of the C library are parameters, assumed correct to within 2^-52.  Against the series of the tables.  That some moment with the exact elongation exists is not claimed: the series jump by 0.87 arc seconds at the year 3000.")
c("C92","proved","C92_solar_term","sin and cos of the C library are parameters, assumed correct to within 2^-52.  Against the series of the tables; Delta T is that of a date within 6 days of the moment.")
c("C93","proved","C93_terms_of_year","sin and cos of the C library are parameters, assumed correct to within 2^-52.  Against the series of the tables.")
c("C94","proved","C94_new_moon","sin and cos of the C library are parameters, assumed correct to within 2^-52.  Against the series of the tables; Delta T is that of a date within 6 days of the moment.")
c("C95","proved","C95_lunar_year","sin and cos of the C library are parameters, assumed correct to within 2^-52.  Against the series of the tables; days as in C92 and C94, that is up to 2.3 and 250 seconds around midnight.")
c("C96","proved","C96_read C96_add C96_add_many C96_full C96_remove C96_remove_many C96_resize C96_assign C96_empty","operator new is assumed to succeed and copying a value not to throw.")
c("C97","proved","C97_splice C97_splice_own C97_remove C97_unique C97_unique_sound C97_reverse C97_splice_range_own_refuted C97_remove_ref_refuted","Two clauses one expects are refuted: see the findings.")
c("C98","proved","C98_merge C98_sort","The comparison is a function of the two values and does not throw.")
c("C99","proved","C99_construct C99_destroy C99_leak C99_move C99_move_assign C99_equal C99_self_move_refuted C99_moved_from_refuted","Two clauses one expects are refuted: see the findings.")
c("C100","proved","C100_search C100_no_shortcut","RS_GS::init and RS_GS::feature are a parameter: the moment and kind per lunation, assumed within 8 days of the mean new moon.")
c("C101","proved","C101_sun","The error is against the full series of the Sun's longitude of C89 with latitude 0 and without nutation, as in the code.")
c("C102","proved","C102_parallactic_angle C102_topocentric","Exact arithmetic; the station at the pole and the body at the station excluded.")
c("C103","proved","C103_straight C103_order C103_general C103_error C103_contact_refuted","Exact arithmetic; lecXY and the first estimate of the full moon are parameters; the moon is assumed to move eastward relative to the shadow.  One clause one expects is refuted: see the findings.")
c("C104","proved","C104_general C104_straight C104_invisible_refuted","Exact arithmetic; secXY, the first estimate and sunrise and sunset are parameters; contacts under the assumption that the moon moves eastward relative to the sun.  The position angles are not modelled.  One clause one expects is refuted: see the findings.")
c("C105","proved","deque_iterators deque_buffer_size","")
c("C106","proved","deque_access deque_push_front deque_push_back deque_pop_front deque_pop_back deque_shrink_to_fit","Failure of operator new is not modelled.")
c("C107","partial","deque_insert deque_insert_n deque_insert_range deque_erase deque_clear deque_erase_range_partial deque_erase_range_undefined deque_resize_partial deque_assign_n_partial deque_assign_range_partial deque_resize_refuted deque_insert_input_refuted deque_insert_n_lost_refuted","Erasing a range, resize and assign to fewer values: proved when T is trivially destructible or the freed slots are in one buffer, and undefined behaviour else; refuted in general, as is the order of input ranges and that insertion loses no buffer.")
c("C108","partial","deque_copy_init deque_fill_init deque_apart deque_destroy_partial deque_destroy_leaks deque_move deque_move_assign_partial deque_swap deque_input_init_refuted deque_destroy_refuted deque_move_assign_refuted deque_move_self_refuted deque_moved_from_refuted","Destruction and move assignment leave blocks allocated: characterised exactly and refuted.")
c("C109","proved","hash_find hash_count hash_equal_range_multi hash_equal_range_unique hash_u_at","")
c("C110","proved","hash_iterate hash_bucket_size","")
c("C111","proved","hash_insert_multi hash_insert_unique hash_insert_range_multi hash_insert_range_unique hash_index","")
c("C112","partial","hash_emplace_multi hash_emplace_unique_partial hash_emplace_leak hash_emplace_unique_refuted","The node made for a key that is there is lost: proved in general and refuted.")
c("C113","partial","hash_next_prime hash_rehash_partial hash_reserve hash_load_insert_multi hash_load_insert_unique hash_load_insert_range hash_rehash_leak hash_rehash_refuted hash_load_refuted","A growing array loses all old nodes; a maximum load factor below 1 is exceeded: refuted.")
c("C114","proved","hash_erase hash_erase_range hash_erase_unique hash_clear hash_erased_nodes hash_other_nodes","")
c("C115","partial","hash_erase_multi_partial hash_erase_multi_undefined hash_erase_multi_refuted","Undefined whenever the key is there: proved in general.")
c("C116","partial","hash_construct hash_u_construct_unique hash_u_construct_multi hash_copy hash_copy_assign hash_move_assign_partial hash_destruct hash_equal_unique hash_moved_from hash_moved_grows hash_construct_range hash_construct_range_refuted hash_moved_from_refuted hash_bucket_begin_refuted","Range constructor, tables moved from and begin(n): refuted.")
c("C117","proved","hash_history","")
c("C118","proved","queue_history stack_history","")
c("C119","proved","prio_history prio_make prio_push prio_pop prio_drain","")
c("C120","proved","numeric_partial_sum numeric_adjacent_difference numeric_inverse numeric_accumulate numeric_inner_product numeric_iota","")
c("C121","partial","C121_minutes_seconds C121_accuracy C121_other_units C121_range_refuted C121_seconds_refuted C121_cut_refuted C121_minus_zero_refuted","The split is proved in full; the seconds shown can be 150.00 for 59.999 and are cut without decimals.")
c("C122","proved","shadow_penumbra shadow_umbra shadow_antumbra shadow_magnitude","Exact arithmetic.")
c("C123","proved","apex_umbra apex_penumbra","Exact arithmetic.")
c("C124","proved","speed_derivative speed_outside","Exact arithmetic; a turn per day as in the code.")
c("C125","proved","place_direction place_ellipsoid place_vertical","Exact arithmetic.")
c("C126","proved","instants_speed instants_middle instants_between instants_noon","Exact arithmetic.")
c("C127","proved","limits_edge limits_across limits_sunrise","Exact arithmetic.")
c("C128","partial","exc_copy_done exc_fill_done exc_move_done exc_move_n_throw exc_move_throw exc_fill_throw exc_copy_throw C128_swallowed_refuted C128_destroyed_refuted","Only uninitialized_move_n passes the exception on; uninitialized_copy destroys what was not constructed.")
c("C129","partial","exv_agree_fill exv_agree_range exv_agree_push exv_agree_assign exv_fill_throw exv_range_throw exv_push_room_throw exv_push_full_throw exv_push_full_move_throw exv_assign_throw C129_dead_elements_refuted C129_strong_refuted C129_elements_refuted","Proved without exceptions and for push_back with room; the other cases are characterised and refute the claim.")
c("C130","partial","buffer_get buffer_fits buffer_life buffer_empty buffer_throw C130_empty_refuted C130_throw_refuted","Proved for a non-empty range without exceptions; the empty range frees an unset pointer.")
c("C131","proved","auto_ptr_owns auto_ptr_no_leak","")
c("C132","partial","C132_step C132_sun C132_noon C132_zero_refuted","Proved in exact arithmetic; the last clause is refuted: 0 is also the moment J2000.")
c("C133","partial","C133_times midnight_sun C133_polar_refuted","The first half is proved; the second is refuted under the midnight sun.")
c("C134","partial","C134_seen C134_limb C134_ear C134_nbj C134_side C134_width_partial C134_width_refuted","Everything but the width is proved; the width is wrong when the limits are on the two sides of the meridian of 180 degrees.")
c("C135","proved","mean_time_ok vertex_round extreme_rounds C135_moon C135_earth C135_mercury C135_venus C135_node","")
c("C136","partial","approach_closest C136_station C136_kind C136_kind_refuted C136_zero_refuted","Proved where the right ascension does not pass 0; refuted there, and refuted for the kind of the station of Mercury and Venus.")
c("C137","proved","approach_closest C137_sun C137_moon","")
c("C138","partial","C138_moon C138_altitude C138_all C138_never C138_never_refuted","Proved where the Moon rises and sets; refuted where it does not: the lower transits are given as rise and set.")
c("C139","proved","C139_equation_of_time C139_solar_time C139_bazi","")
c("C140","proved","C140_apparent C140_place C140_refraction C140_refraction_grows C140_refraction_gap C140_solar_time C140_central C140_shadow","")
c("C141","partial","C141_points C141_accurate C141_complete_refuted","completeness is false of the code near grazing; the witness is C141_complete_refuted")
c("C142","partial","C142_series C142_program C142_kept C142_lost_refuted C142_filter_refuted","that all long terms are kept is false of the code; witnesses in C142_lost_refuted and C142_filter_refuted")
c("C143","proved","C143_equation_of_time C143_table","")
c("C144","proved","C144_contact C144_outline C144_horizon C144_horizon_refuted C144_missed","")
c("C145","proved","C145_partial_sort_copy","")
c("C146","proved","C146_transform1 C146_transform2 C146_replace_copy C146_remove_copy C146_reverse_copy C146_unique_copy C146_partition_copy C146_for_each C146_generate C146_generate_n","")
c("C147","partial","C147_planet C147_moon C147_other C147_earth_refuted C147_elongation C147_elongation_high C147_elongation_high_refuted C147_station_coordinates C147_sun_difference C147_moon_difference C147_light_time C147_aberration","false for the number 0 (zero vector), for numbers that name no body (variables used without a value) and for the elongation of high precision, which takes the Earth at the light time of the Sun for both directions")
c("C148","partial","C148_stol C148_stoul C148_invalid C148_cases C148_one_number C148_inverts_to_str C148_my_stoi C148_history_refuted","proved with errno clear before the call; false after an earlier range error, since errno is never cleared")
c("C149","partial","C149_report C149_table C149_minutes_refuted C149_sign_refuted","false for the table: the column of sunrise is cut behind the hour and before the last four characters of the year; hour 24 is possible as in C06")
c("C150","partial","C150_session_partial C150_again C150_table_moves_refuted C150_no_return_refuted","the texts of one eclipse are parameters; false for fs = 2 after the table, which has moved the variable by 100 steps; fs above 5 returns no string")
c("C151","partial","C151_range C151_one_byte C151_equal C151_word C151_bytes C151_double C151_int C151_padding_refuted","false for long double, whose padding bytes are hashed; float is not modelled")
c("C152","proved","C152_lexicographic C152_order C152_others C152_weak_refuted","the refutation shows that members with only a weak order are not enough")
c("C153","partial","C153_choice C153_solar C153_lunar C153_round_trip C153_limits","the lines of angles before the tables and the numbers after them are in C159; texts of numbers are a parameter; hour 24 is possible as in C06")
c("C154","proved","C154_table C154_equation_of_time","the text of the seconds is that of to_str, see C45 and C46 for what it shows")
c("C155","proved","C155_head C155_places C155_horizon C155_more C155_text","texts of decimal numbers are those of to_str, see C45 and C46 for what they show; hour 24 is possible as in C07")
c("C156","partial","C156_points C156_center C156_overview C156_no_center_refuted","that the lines of the central eclipse are left out otherwise is refuted; the members of the feature and the name of the kind (C85) are parameters; texts of decimal numbers are those of to_str (C45, C46)")
c("C157","proved","C157_table","the limits (nanbei, bseXY2db) and the middle of the eclipse (feature) are parameters")
c("C158","partial","C158_text C158_no_body_refuted","refuted for numbers that name no body; the numbers shown are parameters, see C147 for what they are; texts of decimal numbers are those of to_str (C45, C46)")
c("C159","proved","C159_solar C159_lunar C159_solar_tail C159_lunar_tail","the radii, duration, magnitude, the distance of the centers and the place of the axis are parameters; texts of decimal numbers are those of to_str (C45, C46)")
json.dump({"claims":C},open(os.path.join(os.path.dirname(__file__),"..","MANIFEST.json"),"w"),ensure_ascii=False,indent=1)
