{
 "claims": [
  {
   "property": "C01",
   "status": "proved",
   "theorems": [
    "C01_year_length",
    "C01_year_length_all_years",
    "C01_next_day"
   ],
   "note": "Every round-to-nearest binary arithmetic for |year| <= 10^6; all years in exact arithmetic."
  },
  {
   "property": "C02",
   "status": "proved",
   "theorems": [
    "C02_exact_round_trip",
    "C02_exact_round_trip_decimals",
    "C02_decoder_terminates",
    "C02_alt_rule_refuted"
   ],
   "note": "Fractions multiple of 1/4096 in every round-to-nearest arithmetic; twelve-decimal fractions in exact arithmetic; one exception under the 4|128 rule is refuted by witness."
  },
  {
   "property": "C03",
   "status": "proved",
   "theorems": [
    "C03_beyond_doubling_refuted"
   ],
   "note": "The failure is proved for every date of years 4715..9999 outside December and 1..3 January."
  },
  {
   "property": "C04",
   "status": "proved",
   "theorems": [
    "C04_meeus_rejects_exactly",
    "C04_meeus_next_day",
    "C04_meeus_order",
    "C04_meeus_round_trip",
    "C04_julian_leap_day_refuted",
    "C04_gap_noon_refuted"
   ],
   "note": "Exact characterisation of rejected days, consecutive days, order, round trip; two deviations from the historical calendar refuted by witness."
  },
  {
   "property": "C05",
   "status": "proved",
   "theorems": [
    "C05_exact_to_historical_and_back",
    "C05_historical_to_exact_and_back",
    "C05_inverse_all_rationals",
    "C05_gap_rejected_exactly",
    "C05_julian_leap_days_rejected_exactly",
    "C05_both_increasing",
    "C05_same_civil_date"
   ],
   "note": "Every JD with a resolution of 2^-31 day in every round-to-nearest arithmetic; all rationals in exact arithmetic."
  },
  {
   "property": "C06",
   "status": "proved",
   "theorems": [
    "C06_short_long_short",
    "C06_long_short_long",
    "C06_year_split",
    "C06_fraction_of_last_day_refuted"
   ],
   "note": "All valid dates with clock below 24:00 and no day fraction on the last day of a month (that case is refuted by witness)."
  },
  {
   "property": "C07",
   "status": "proved",
   "theorems": [
    "C07_in_range_kept",
    "C07_carry_moves_instant",
    "C07_hour_24_at_month_end"
   ],
   "note": "In range: kept. Carries: the exact displacement is proved, so the claimed invariance fails exactly when there is a carry."
  },
  {
   "property": "C08",
   "status": "proved",
   "theorems": [
    "C08_table_independent",
    "C08_table_domain",
    "C08_year_length",
    "C08_table_values"
   ],
   "note": "Independent of rounding and of the sunset function, under the evening hypothesis."
  },
  {
   "property": "C09",
   "status": "proved",
   "theorems": [
    "C09_year_of_day",
    "C09_out_of_range",
    "C09_last_year_lost_refuted"
   ],
   "note": "The range check loses every day of year 1161 but the first (refuted theorem)."
  },
  {
   "property": "C10",
   "status": "proved",
   "theorems": [
    "C10_encoder_counts_days",
    "C10_decode_of_encode",
    "C10_encode_of_decode",
    "C10_calendar_order"
   ],
   "note": "Both directions and order, for leap and common years."
  },
  {
   "property": "C11",
   "status": "proved",
   "theorems": [
    "C11_accepted_iff_valid",
    "C11_years_outside",
    "C11_year_1162",
    "C11_date_short",
    "C11_date_long",
    "C11_date_fields"
   ],
   "note": "Exact acceptance condition for integer dates in every year."
  },
  {
   "property": "C12",
   "status": "proved",
   "theorems": [
    "C12_toordinal_counts_days",
    "C12_next_day",
    "C12_exact_value",
    "C12_same_year",
    "C12_stale_refuted",
    "C12_order_needed_refuted",
    "C12_ends"
   ],
   "note": "Under evening and naw_ruz_order (no Naw-Ruz sunset earlier than the reference one); a sunset function without the order condition breaks it (refuted by witness); the three years with a stale correction are refuted. Exact ordinal values, range ends."
  },
  {
   "property": "C13",
   "status": "proved",
   "theorems": [
    "C13_roundtrip",
    "C13_stale_refuted",
    "C13_refused",
    "C13_never_wrong",
    "C13_range"
   ],
   "note": "Exact list of the 22 refused dates; in the three years with a stale correction the result is the next day, proved as a refutation."
  },
  {
   "property": "C14",
   "status": "proved",
   "theorems": [
    "C14_order_chronological",
    "C14_order_ordinals",
    "C14_order_long"
   ],
   "note": "Both directions, short and long forms; the Ayyam-i-Ha clash is part of the equivalence."
  },
  {
   "property": "C15",
   "status": "proved",
   "theorems": [
    "C15_total_order",
    "C15_transitive"
   ],
   "note": "All dates of one form, all comparison operators."
  },
  {
   "property": "C16",
   "status": "proved",
   "theorems": [
    "C16_equal_dates_hash_equal",
    "C16_hash_key_faithful",
    "C16_mixed_forms_refuted"
   ],
   "note": "Hash keys of equal dates; mixed forms refuted by witness."
  },
  {
   "property": "C17",
   "status": "proved",
   "theorems": [
    "C17_add",
    "C17_add_then_subtract",
    "C17_add_difference",
    "C17_add_add",
    "C17_add_sub"
   ],
   "note": "Every supported date and every integer day count; results outside the range raise."
  },
  {
   "property": "C18",
   "status": "proved",
   "theorems": [
    "C18_weekday",
    "C18_stale_refuted",
    "C18_cycle"
   ],
   "note": "Weekday as residue of the ordinal; cycle over consecutive days; broken at the ends of the three stale years (refuted)."
  },
  {
   "property": "C19",
   "status": "proved",
   "theorems": [
    "C19_isocalendar"
   ],
   "note": "All supported dates."
  },
  {
   "property": "C20",
   "status": "proved",
   "theorems": [
    "C20_fromisocalendar",
    "C20_roundtrip",
    "C20_week_52_late",
    "C20_bad_weekday"
   ],
   "note": "Exact behaviour for every week number: regular, week 52 late, other weeks rejected, weekday range."
  },
  {
   "property": "C21",
   "status": "proved",
   "theorems": [
    "C21_pickle_roundtrip",
    "C21_ayyam_lost",
    "C21_year_before_min"
   ],
   "note": "Round trip, failing Ayyam-i-Ha, failing year -1843."
  },
  {
   "property": "C22",
   "status": "proved",
   "theorems": [
    "C22_datetime_roundtrip",
    "C22_datetime_ayyam_lost",
    "C22_time_roundtrip",
    "C22_hour_24_lost"
   ],
   "note": "Fields, zone and fold survive; hour 24 times and month 0 datetimes are proved lost."
  },
  {
   "property": "C23",
   "status": "proved",
   "theorems": [
    "C23_naive",
    "C23_aware",
    "C23_instants",
    "C23_subminute_refuted",
    "C23_operators_agree",
    "C23_transitive",
    "C23_equal_times_hash_equal",
    "C23_hash_hour_24_refuted",
    "C23_hash_subminute"
   ],
   "note": "Offsets that are not whole minutes are proved to compare wrongly; hour 24 aware times are proved to break the hash law."
  },
  {
   "property": "C24",
   "status": "proved",
   "theorems": [
    "C24_datetimes",
    "C24_times",
    "C24_le_refuted"
   ],
   "note": "Times and datetimes; the <= of time is proved to violate the rule."
  },
  {
   "property": "C25",
   "status": "proved",
   "theorems": [
    "C25_add",
    "C25_add_defined",
    "C25_difference",
    "C25_add_then_subtract",
    "C25_add_add",
    "C25_add_sub"
   ],
   "note": "Under the hypotheses evening and naw_ruz_order on the sunset function."
  },
  {
   "property": "C26",
   "status": "proved",
   "theorems": [
    "C26_aware_instants",
    "C26_same_offset_fields",
    "C26_transitive",
    "C26_chronological",
    "C26_long_cycles_refuted",
    "C26_equal_datetimes_hash_equal"
   ],
   "note": "The defect for long form datetimes is proved for every pair of cycles."
  },
  {
   "property": "C27",
   "status": "proved",
   "theorems": [
    "C27_accepted",
    "C27_equality",
    "C27_names_ignored",
    "C27_pickle"
   ],
   "note": ""
  },
  {
   "property": "C28",
   "status": "proved",
   "theorems": [
    "C28_shape",
    "C28_text_determines_offset",
    "C28_zone_name"
   ],
   "note": ""
  },
  {
   "property": "C29",
   "status": "proved",
   "theorems": [
    "C29_isoformat_text",
    "C29_text_determines_day",
    "C29_roundtrip",
    "C29_three_digit_years_refused",
    "C29_accepts_only_days",
    "C29_signed_text"
   ],
   "note": "Both forms; the failure for years -999..-1 is proved for every such date."
  },
  {
   "property": "C30",
   "status": "proved",
   "theorems": [
    "C30_year_month",
    "C30_basic_tens_digit_ignored",
    "C30_basic_refuted",
    "C30_day_of_year",
    "C30_day_of_year_overflow_refuted",
    "C30_day_of_year_refused",
    "C30_week"
   ],
   "note": "The defects of YYYYMMDD and of day numbers beyond the year are proved as _refuted theorems."
  },
  {
   "property": "C31",
   "status": "proved",
   "theorems": [
    "C31_clock",
    "C31_T_text",
    "C31_hours_minutes",
    "C31_minute_fraction",
    "C31_hour_fraction",
    "C31_own_text_refused"
   ],
   "note": "Any number of decimals, both forms."
  },
  {
   "property": "C32",
   "status": "proved",
   "theorems": [
    "C32_roundtrip",
    "C32_negative_minutes_refuted",
    "C32_seconds_refused",
    "C32_letters",
    "C32_basic_form_refuted"
   ],
   "note": "Defects for negative minutes, seconds and the basic form are proved for every such offset."
  },
  {
   "property": "C33",
   "status": "proved",
   "theorems": [
    "C33_any_format",
    "C33_faithful",
    "C33_literal_lost_refuted",
    "C33_percent_at_end",
    "C33_percent_inside_refuted",
    "C33_unknown_refused"
   ],
   "note": "Any format of well formed directives and literals; which literals survive is stated exactly."
  },
  {
   "property": "C34",
   "status": "proved",
   "theorems": [
    "C34_fields",
    "C34_weekday_w_refuted",
    "C34_unpadded",
    "C34_week",
    "C34_kull_vahid",
    "C34_century",
    "C34_century_refuted",
    "C34_iso_year_refuted",
    "C34_space_padded_refuted"
   ],
   "note": "Documented directives the code gets wrong are proved as _refuted theorems."
  },
  {
   "property": "C35",
   "status": "proved",
   "theorems": [
    "C35_whole_hours",
    "C35_naive",
    "C35_zero_refuted",
    "C35_minutes_refuted",
    "C35_zone_name"
   ],
   "note": "Offset zero and every whole-minute offset that is not a whole hour are proved wrong."
  },
  {
   "property": "C36",
   "status": "proved",
   "theorems": [
    "C36_transparent",
    "C36_bounded",
    "C36_useful_refuted",
    "C36_strptime"
   ],
   "note": "Over every history of calls and environments, for any compilation and matching functions; calls are atomic (the code holds a lock)."
  },
  {
   "property": "C37",
   "status": "proved",
   "theorems": [
    "C37_transparent",
    "C37_first_refuted",
    "C37_halves"
   ],
   "note": "For any nutation function; refuted for the first query at J2000.0 in radians."
  },
  {
   "property": "C38",
   "status": "proved",
   "theorems": [
    "C38_last_wins",
    "C38_refusal",
    "C38_integers_refuted"
   ],
   "note": "Geocoder and system offset are arbitrary inputs of each call."
  },
  {
   "property": "C39",
   "status": "proved",
   "theorems": [
    "C39_last_zone_decides",
    "C39_isolation_refuted",
    "C39_one_zone"
   ],
   "note": "The property is refuted; the positive theorem covers histories whose zones answer alike."
  },
  {
   "property": "C40",
   "status": "proved",
   "theorems": [
    "C40_divide_and_round_half_even"
   ],
   "note": "All integers a and non-zero b."
  },
  {
   "property": "C41",
   "status": "proved",
   "theorems": [
    "C41_clock_time_valid_and_near",
    "C41_clock_time_microseconds",
    "C41_fraction_of_day",
    "C41_exact_second_refuted"
   ],
   "note": "Every round-to-nearest arithmetic; 2 ms (3 ms with microseconds)."
  },
  {
   "property": "C42",
   "status": "proved",
   "theorems": [
    "C42_right_day",
    "C42_result_valid",
    "C42_date_and_clock",
    "C42_last_instant_refuted",
    "C42_rounded_day",
    "C42_rounded_day_20_refuted"
   ],
   "note": "Regular dates (all but the listed irregular ones) of years up to 1160; float JD not within a millisecond of Tehran mean midnight for the clock."
  },
  {
   "property": "C43",
   "status": "proved",
   "theorems": [
    "C43_value",
    "C43_refused_exactly",
    "C43_increasing",
    "C43_one_day_apart",
    "C43_after_reform_refuted",
    "C43_clock_added",
    "C43_fraction_and_microseconds_refused"
   ],
   "note": "Exact list of refused dates; order, spacing, value and clock time."
  },
  {
   "property": "C44",
   "status": "proved",
   "theorems": [
    "C44_fraction_selects_sunset",
    "C44_fraction_is_not_added_refuted"
   ],
   "note": "Years without an irregular date."
  },
  {
   "property": "C45",
   "status": "proved",
   "theorems": [
    "C45_packed_day",
    "C45_microseconds_refuted"
   ],
   "note": "Exact displacement proved; microseconds refuted by witness."
  },
  {
   "property": "C46",
   "status": "proved",
   "theorems": [
    "C46_flags_accepted_iff_none_or_odd",
    "C46_three_flags_refuted"
   ],
   "note": "Exact characterisation."
  },
  {
   "property": "C47",
   "status": "proved",
   "theorems": [
    "C47_timestamp_value",
    "C47_naive_microseconds_twice",
    "C47_aware"
   ],
   "note": "Tehran coordinates (the default). Naive long form datetimes are not covered."
  },
  {
   "property": "C48",
   "status": "proved",
   "theorems": [
    "C48_replace_short",
    "C48_replace_long",
    "C48_replace_nothing",
    "C48_replaced_fields",
    "C48_wrong_form",
    "C48_datetime_replace",
    "C48_datetime_replace_valid",
    "C48_datetime_replace_nothing",
    "C48_time_replace",
    "C48_time_replace_valid",
    "C48_time_replace_nothing"
   ],
   "note": "Dates, times and datetimes."
  },
  {
   "property": "C49",
   "status": "proved",
   "theorems": [
    "C49_coterminal_angle",
    "C49_horner_is_power_sum",
    "C49_interpolation_exact_on_quadratics",
    "C49_float_360_refuted"
   ],
   "note": "Angle: every round-to-nearest arithmetic; Horner and interpolation in exact arithmetic."
  },
  {
   "property": "C50",
   "status": "proved",
   "theorems": [
    "C50_dms_round_trip",
    "C50_words_accepted",
    "C50_latitude_letter_refuted",
    "C50_hours_of_degrees_round_trip",
    "C50_sign_from_letter"
   ],
   "note": "Exact arithmetic."
  },
  {
   "property": "C51",
   "status": "proved",
   "theorems": [
    "C51_split_and_recombine",
    "C51_zone_round_trip",
    "C51_zone_round_trip_refuted"
   ],
   "note": "Exact arithmetic."
  },
  {
   "property": "C52",
   "status": "proved",
   "theorems": [
    "C52_posix_timestamp",
    "C52_negative_refuted"
   ],
   "note": "All non-negative timestamps; exact failure set."
  },
  {
   "property": "C53",
   "status": "proved",
   "theorems": [
    "C53_trim"
   ],
   "note": "All lists."
  },
  {
   "property": "C54",
   "status": "proved",
   "theorems": [
    "C54_strftime_takes",
    "C54_struct_time_accepts",
    "C54_struct_time_items",
    "C54_plain_tuple",
    "C54_second_61_refuted",
    "C54_weekday_unchecked_refuted",
    "C54_wrong_length"
   ],
   "note": "Both validators are characterised by an iff."
  },
  {
   "property": "C55",
   "status": "proved",
   "theorems": [
    "C55_naw_ruz_in_march"
   ],
   "note": "Every supported year."
  },
  {
   "property": "C56",
   "status": "proved",
   "theorems": [
    "C56_datetime_constructor",
    "C56_time_constructor"
   ],
   "note": ""
  },
  {
   "property": "C57",
   "status": "proved",
   "theorems": [
    "C57_combine_parts",
    "C57_time_parts",
    "C57_combine",
    "C57_long_date_lost_refuted"
   ],
   "note": ""
  },
  {
   "property": "C58",
   "status": "proved",
   "theorems": [
    "C58_astimezone"
   ],
   "note": ""
  },
  {
   "property": "C59",
   "status": "proved",
   "theorems": [
    "C59_hour",
    "C59_minute",
    "C59_second",
    "C59_refused",
    "C59_minute_60_refuted"
   ],
   "note": "Also proved: the minute 60 defect for every such hour."
  },
  {
   "property": "C60",
   "status": "proved",
   "theorems": [
    "C60_roundtrip",
    "C60_microsecond_lost_refuted",
    "C60_cycle_not_printed_refuted",
    "C60_date_only_refuted"
   ],
   "note": "Exact up to the microsecond the float may lose; the loss is exhibited with binary64."
  },
  {
   "property": "C61",
   "status": "proved",
   "theorems": [
    "C61_date_timetuple",
    "C61_timetuple",
    "C61_utctimetuple",
    "C61_utctimetuple_defined",
    "C61_utctimetuple_unmoved",
    "C61_long_hour_24_refuted"
   ],
   "note": "Both forms; utctimetuple where the shifted datetime exists."
  },
  {
   "property": "C62",
   "status": "proved",
   "theorems": [
    "C62_midday",
    "C62_am_pm",
    "C62_hour",
    "C62_clock12",
    "C62_hour_refuted"
   ],
   "note": "C62_clock12 and C62_hour_refuted are relative to %p being printed, for every sunset function; C62_midday, C62_am_pm and C62_hour are about the program's own sunsets and need no such premise. The negative hour is exhibited with a sunset function meeting the hypotheses."
  },
  {
   "property": "C63",
   "status": "proved",
   "theorems": [
    "C63_names",
    "C63_month_abbreviation_refuted"
   ],
   "note": "Over all pairs."
  },
  {
   "property": "C64",
   "status": "proved",
   "theorems": [
    "C64_ctime"
   ],
   "note": "Long forms with hour 24 or second 60 excluded."
  },
  {
   "property": "C65",
   "status": "proved",
   "theorems": [
    "C65_made_exactly",
    "C65_pickle",
    "C65_name_lost_refuted"
   ],
   "note": "Coordinates, key and offset kept; zone and name lost (refuted)."
  },
  {
   "property": "C66",
   "status": "proved",
   "theorems": [
    "C66_roundtrip",
    "C66_trailing",
    "C66_hour_24_refuted",
    "C66_month_15_refuted"
   ],
   "note": "Round trip for arbitrary formats over twelve directives; hour 24 and month 15 by abbreviation are refuted."
  },
  {
   "property": "C67",
   "status": "proved",
   "theorems": [
    "C67_result",
    "C67_struct_time"
   ],
   "note": "The constructor itself also accepts the years -1843 and 1162, so strptime does."
  },
  {
   "property": "C68",
   "status": "proved",
   "theorems": [
    "C68_week",
    "C68_week_late_refuted",
    "C68_week_53_refuted"
   ],
   "note": "Refuted for years beginning on weekdays 1..3 (read a week late) and for week 53."
  },
  {
   "property": "C69",
   "status": "proved",
   "theorems": [
    "C69_iso_name",
    "C69_iso_number_refuted",
    "C69_incomplete"
   ],
   "note": "Weekday names agree with fromisocalendar; weekday numbers are refuted."
  },
  {
   "property": "C70",
   "status": "proved",
   "theorems": [
    "C70_unknown",
    "C70_percent_at_end",
    "C70_strftime_only_refuted",
    "C70_repeated_refuted",
    "C70_no_such_date_refuted"
   ],
   "note": "Refuted parts: repeated directives raise re.error (stand-in constructor) and impossible dates AssertionError."
  },
  {
   "property": "C71",
   "status": "proved",
   "theorems": [
    "C71_defaults"
   ],
   "note": "Proved for every format without %j, year present or not."
  },
  {
   "property": "C72",
   "status": "proved",
   "theorems": [
    "C72_case_blind",
    "C72_small_z"
   ],
   "note": "Case mapping modelled for ASCII, Latin-1, A with macron and Latin Extended Additional."
  },
  {
   "property": "C73",
   "status": "proved",
   "theorems": [
    "C73_format_space"
   ],
   "note": "White space as in str of Python."
  },
  {
   "property": "C74",
   "status": "proved",
   "theorems": [
    "C74_offset_read",
    "C74_hours_roundtrip",
    "C74_capital_z",
    "C74_zero_refuted"
   ],
   "note": "%z at the end of the format. Offset zero is refuted (strftime prints nothing). Minutes offsets are read correctly but printed wrongly (C35)."
  },
  {
   "property": "C75",
   "status": "proved",
   "theorems": [
    "C75_clock12",
    "C75_hour_00_refuted"
   ],
   "note": "English AM and PM texts. Hours printed as 00 are refuted."
  },
  {
   "property": "C76",
   "status": "proved",
   "theorems": [
    "C76_spacing",
    "C76_five_year_gaps",
    "C76_first",
    "C76_mean_year",
    "C76_equinox",
    "C76_equinox_years",
    "C76_last_year_refuted"
   ],
   "note": "The equinox list is /repo/contrib/charts/VernalEquinox-1788-2211.dates. Refuted for the last supported year: 1160 and 1161 are both leap."
  },
  {
   "property": "C77",
   "status": "proved",
   "theorems": [
    "C77_instant",
    "C77_day",
    "C77_next_day",
    "C77_ridvan",
    "C77_after_reform_refuted"
   ],
   "note": "Default coordinates. Refuted for the day after the 1582 gap."
  },
  {
   "property": "C78",
   "status": "proved",
   "theorems": [
    "C78_from_gregorian",
    "C78_round_trip"
   ],
   "note": "Default coordinates; instants within 2 ms of local midnight or a sunset excluded, as for C42."
  },
  {
   "property": "C79",
   "status": "proved",
   "theorems": [
    "C79_zone_time",
    "C79_universal_time_refuted"
   ],
   "note": "The documented universal time is refuted on every day; the zone time is proved."
  },
  {
   "property": "C80",
   "status": "proved",
   "theorems": [
    "C80_day_and_clock",
    "C80_result_valid",
    "C80_zone_not_applied",
    "C80_two_zones_refuted"
   ],
   "note": "Default coordinates for the day and clock. That a stamp denotes one instant whatever the zone is refuted."
  },
  {
   "property": "C81",
   "status": "proved",
   "theorems": [
    "C81_naive_round_trip",
    "C81_aware_off_by_sunset",
    "C81_aware_round_trip_refuted"
   ],
   "note": "The exact round trip is false (1.2 ms off in C81_case); the aware round trip is refuted with its error proved in general."
  },
  {
   "property": "C82",
   "status": "proved",
   "theorems": [
    "C82_date",
    "C82_timezone",
    "C82_datetime",
    "C82_time",
    "C82_aware_time_refuted"
   ],
   "note": "Proved by reading the text with a small reader and evaluator of Python calls (SpecRepr.v). Refuted for aware times."
  },
  {
   "property": "C83",
   "status": "proved",
   "theorems": [
    "C83_short",
    "C83_long",
    "C83_long_fraction_refuted",
    "C83_zone"
   ],
   "note": "Refuted for long forms with 1..99999 microseconds."
  },
  {
   "property": "C84",
   "status": "proved",
   "theorems": [
    "C84_sunrise_and_sunset",
    "C84_same_day_same_sun"
   ],
   "note": ""
  },
  {
   "property": "C85",
   "status": "proved",
   "theorems": [
    "C85_sun_on_horizon"
   ],
   "note": ""
  },
  {
   "property": "C86",
   "status": "proved",
   "theorems": [
    "C86_evening",
    "C86_same_sunset",
    "C86_year_table",
    "C86_year_values",
    "C86_right_day",
    "C86_increasing"
   ],
   "note": ""
  },
  {
   "property": "C87",
   "status": "proved",
   "theorems": [
    "C87_naw_ruz_order",
    "C87_openings",
    "C87_toordinal",
    "C87_roundtrip",
    "C87_stale_years_refuted",
    "C87_weekdays",
    "C87_add",
    "C87_difference"
   ],
   "note": "The order condition assumed by the theorems on ordinals is proved of the code's own sunsets, by ball arithmetic over eight cells of the mean longitude; corollaries for dates and datetimes. The standard library's axioms of the reals appear."
  },
  {
   "property": "C88",
   "status": "proved",
   "theorems": [
    "C88_clocks",
    "C88_date_and_time",
    "C88_date_and_time_refuted",
    "C88_locale_date",
    "C88_locale_date_refuted",
    "C88_locale_delimiter_refuted",
    "C88_locale_time",
    "C88_locale_time_refuted",
    "C88_locale_short_date",
    "C88_locale_short_date_refuted"
   ],
   "note": "Refuted parts: %c in years -999..-1 and for long forms, %x where the locale's date format has not eight characters, %X on a 12-hour clock, %D before year -100."
  },
  {
   "property": "C89",
   "status": "proved",
   "theorems": [
    "C89_equinox_on_naw_ruz",
    "C89_recent_years",
    "C89_asked_on_the_day",
    "C89_too_early_refuted",
    "C89_too_late_refuted",
    "C89_year_18"
   ],
   "note": "Refuted parts: 385 early years (all before -278) and year 1162; in year 18 the order is left open (the moments are less than 20 s apart, which is proved)."
  },
  {
   "property": "C90",
   "status": "proved",
   "theorems": [
    "C90_formula",
    "C90_book",
    "C90_seasons",
    "C90_year"
   ],
   "note": "The code's divisor differs from the book's, which is where the 135 s come from; with the code's own divisor the agreement is within 6.5 s. Delta T is not subtracted in effect (divided twice by 86400)."
  },
  {
   "property": "C91",
   "status": "proved",
   "theorems": [
    "C91_long_misread",
    "C91_long_refuted"
   ],
   "note": "the intended claim (the two forms have the same stamp) is refuted: C91_long_refuted"
  },
  {
   "property": "C92",
   "status": "proved",
   "theorems": [
    "C92_naive_is_local",
    "C92_to_local",
    "C92_zero_offset_refuted"
   ],
   "note": "the theorems speak of the answers given; for offset zero C92_zero_offset_refuted shows that there is none"
  },
  {
   "property": "C93",
   "status": "proved",
   "theorems": [
    "C93_sun_next_day",
    "C93_badi_day",
    "C93_any_badi_day",
    "C93_right_date"
   ],
   "note": ""
  },
  {
   "property": "C94",
   "status": "proved",
   "theorems": [
    "C94_day_length",
    "C94_reform_refused",
    "C94_drift_refuted"
   ],
   "note": "C94_drift_refuted: on twelve days the answer is two days"
  },
  {
   "property": "C95",
   "status": "proved",
   "theorems": [
    "C95_on_the_horizon",
    "C95_true_sunset"
   ],
   "note": "The specification (SpecSun.v) is written from the formulas of the book over the real numbers and shares no definition with the model. It takes universal time for dynamical time, as the code does in effect (delta T enters only the interpolation factor and is divided by 86400 twice), and leaves nutation out, which is part of the 0.0009."
  },
  {
   "property": "C96",
   "status": "proved",
   "theorems": [
    "C96_nutation",
    "C96_obliquity",
    "C96_sidereal",
    "C96_longitude",
    "C96_position",
    "C96_double_nutation_refuted"
   ],
   "note": "C96_double_nutation_refuted: (25.8) of the book corrects the mean obliquity by 0.00256 cos Omega, the code corrects the true one; in June 2006 the sine of the declination is too large by more than 0.00002. The effect on sunset is below a second, so C95 stands. Specification: SpecNut.v, without any model import."
  },
  {
   "property": "C97",
   "status": "proved",
   "theorems": [
    "C97_unlike",
    "C97_alike",
    "C97_not_equal",
    "C97_zones",
    "C97_sums",
    "C97_differences",
    "C97_date_less_datetime_refuted",
    "C97_part_days",
    "C97_minus_refuted"
   ],
   "note": "Objects of other classes are those whose own methods return NotImplemented for these classes."
  },
  {
   "property": "C98",
   "status": "proved",
   "theorems": [
    "C98_same_days",
    "C98_dates",
    "C98_long_dates",
    "C98_long_years_refuted",
    "C98_times",
    "C98_datetimes",
    "C98_zones",
    "C98_zones_refuted"
   ],
   "note": "C98_dates, C98_long_dates, C98_times and C98_datetimes give the exact exceptions; C98_long_years_refuted and C98_zones_refuted the values beyond the limits."
  },
  {
   "property": "C99",
   "status": "proved",
   "theorems": [
    "C99_answers",
    "C99_times",
    "C99_instants",
    "C99_unsettled",
    "C99_trichotomy_refuted",
    "C99_one_zone",
    "C99_repeated_hour_refuted",
    "C99_hash",
    "C99_astimezone",
    "C99_inherited_fromutc_refuted"
   ],
   "note": "C99_instants supposes different offsets (for equal offsets the fields are compared, C26), and days outside the three stale years of C12. C99_trichotomy_refuted, C99_repeated_hour_refuted and C99_inherited_fromutc_refuted state what does not hold."
  },
  {
   "property": "C100",
   "status": "proved",
   "theorems": [
    "C100_date",
    "C100_datetime",
    "C100_time"
   ],
   "note": ""
  },
  {
   "property": "C101",
   "status": "proved",
   "theorems": [
    "C101_earth",
    "C101_degrees",
    "C101_aberration",
    "C101_aberration_refuted",
    "C101_apparent_longitude",
    "C101_apparent_longitude_refuted",
    "C101_apparent_latitude",
    "C101_apparent_latitude_refuted"
   ],
   "note": "C101_earth, C101_degrees and C101_apparent_latitude are the claim; C101_aberration and C101_apparent_longitude say exactly what the code computes; the three _refuted theorems show where it is not what the book says. Nothing in the package calls these functions but one another. C101_apparent_longitude uses the nutation of C96 with its bound."
  },
  {
   "property": "C102",
   "status": "proved",
   "theorems": [
    "C102_formats",
    "C102_reading",
    "C102_date_and_time",
    "C102_long_refuted",
    "C102_date",
    "C102_two_digits_refuted",
    "C102_time"
   ],
   "note": "Delimiters that are digits, capital letters, the percent sign or letters of Kamál and Jamál, and words for PM without a letter of their own, are outside the statement. In locales with a clock of twelve hours %X loses AM and PM already when printed (C88_locale_time_refuted)."
  },
  {
   "property": "C103",
   "status": "proved",
   "theorems": [
    "C103_fraction",
    "C103_clock",
    "C103_back",
    "C103_parts",
    "C103_carry_refuted"
   ],
   "note": "C103_carry_refuted shows the day 32 that unchecked seconds give."
  },
  {
   "property": "C104",
   "status": "proved",
   "theorems": [
    "C104_on_meridian",
    "C104_noon",
    "C104_eccentricity"
   ],
   "note": "The bound of 174 degrees east is needed: close to 180 degrees, just after the March equinox, the single reduction by one day leaves the answer half a day before the midnight (found by reading, not proved). C104_on_meridian still holds there."
  }
 ]
}