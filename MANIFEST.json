{
 "claims": [
  {
   "property": "C01",
   "status": "proved",
   "theorems": [
    "C01_day_number",
    "C01_successive"
   ],
   "note": ""
  },
  {
   "property": "C02",
   "status": "proved",
   "theorems": [
    "C02_calendar_of_number",
    "C02_unique_day",
    "C02_unique_number",
    "C02_roundtrip"
   ],
   "note": ""
  },
  {
   "property": "C03",
   "status": "proved",
   "theorems": [
    "C03_accepts_iff",
    "C03_refuses",
    "C03_order",
    "C03_min_year"
   ],
   "note": "Year i32::MIN panics in debug builds (C03_min_year), hence the condition."
  },
  {
   "property": "C04",
   "status": "proved",
   "theorems": [
    "C04_add_days",
    "C04_sub_days",
    "C04_infinite",
    "C04_add_then_sub",
    "C04_sub_then_add",
    "C04_add_days_calendar",
    "C04_sub_days_calendar"
   ],
   "note": ""
  },
  {
   "property": "C05",
   "status": "proved",
   "theorems": [
    "C05_sub_date_exact",
    "C05_add_back",
    "C05_infinite",
    "C05_raw_refuted"
   ],
   "note": "The raw i32 values that overflow: C05_raw_refuted."
  },
  {
   "property": "C06",
   "status": "proved",
   "theorems": [
    "C06_midnight",
    "C06_too_late",
    "C06_limit",
    "C06_infinite",
    "C06_monotone",
    "C06_roundtrip"
   ],
   "note": ""
  },
  {
   "property": "C07",
   "status": "proved",
   "theorems": [
    "C07_decompose",
    "C07_recompose",
    "C07_reading_unique",
    "C07_reading_fun"
   ],
   "note": ""
  },
  {
   "property": "C08",
   "status": "proved",
   "theorems": [
    "C08_split",
    "C08_infinite"
   ],
   "note": ""
  },
  {
   "property": "C09",
   "status": "proved",
   "theorems": [
    "C09_add_interval",
    "C09_add_interval_err",
    "C09_range",
    "C09_infinite",
    "C09_early_days_refuted",
    "C09_wrap_refuted"
   ],
   "note": "Two ways to get a wrong value are proved as findings; the positive theorems carry the conditions that exclude them."
  },
  {
   "property": "C10",
   "status": "proved",
   "theorems": [
    "C10_sub_interval",
    "C10_negation",
    "C10_no_negation",
    "C10_sub_undoes_add_time"
   ],
   "note": ""
  },
  {
   "property": "C11",
   "status": "proved",
   "theorems": [
    "C11_sub_timestamp",
    "C11_infinite",
    "C11_far_apart_refuted"
   ],
   "note": "Stated for differences that fit in i64; without that it is false, C11_far_apart_refuted."
  },
  {
   "property": "C12",
   "status": "proved",
   "theorems": [
    "C12_age",
    "C12_distance_unique",
    "C12_antisymmetric",
    "C12_self",
    "C12_add_back",
    "C12_add_back_refuted",
    "C12_minus_infinity",
    "C12_plus_infinity_refuted"
   ],
   "note": "Adding an age back holds under a condition on the day of the month (C12_add_back); without it C12_add_back_refuted. +infinity is not refused."
  },
  {
   "property": "C13",
   "status": "proved",
   "theorems": [
    "C13_truncate",
    "C13_never_refused",
    "C13_below",
    "C13_monotone",
    "C13_idempotent",
    "C13_bad_unit",
    "C13_infinity_refuted"
   ],
   "note": "Finite timestamps. Infinite ones: C13_infinity_refuted."
  },
  {
   "property": "C14",
   "status": "partial",
   "theorems": [
    "C14_week_partial",
    "C14_week_refuted",
    "C14_week_panic_refuted"
   ],
   "note": "Proved for every day except the December days of the next year's ISO week 1; on those the code is wrong (C14_week_refuted, C14_week_panic_refuted), so the full property is false of the code."
  },
  {
   "property": "C15",
   "status": "proved",
   "theorems": [
    "C15_iso_week",
    "C15_weekday",
    "C15_iso_week_total",
    "C15_isoyear_bc_refuted"
   ],
   "note": "The ISO year of BC years is astronomical (C15_isoyear_bc_refuted)."
  },
  {
   "property": "C16",
   "status": "proved",
   "theorems": [
    "C16_year",
    "C16_spans",
    "C16_exact"
   ],
   "note": ""
  },
  {
   "property": "C17",
   "status": "proved",
   "theorems": [
    "C17_infinite_parts"
   ],
   "note": ""
  },
  {
   "property": "C18",
   "status": "proved",
   "theorems": [
    "C18_range",
    "C18_add",
    "C18_sub",
    "C18_ignores_days",
    "C18_undo"
   ],
   "note": ""
  },
  {
   "property": "C19",
   "status": "proved",
   "theorems": [
    "C19_sub_time",
    "C19_antisymmetric"
   ],
   "note": ""
  },
  {
   "property": "C20",
   "status": "proved",
   "theorems": [
    "C20_of_interval",
    "C20_near_min_refuted"
   ],
   "note": "Except within a day of i64::MIN, C20_near_min_refuted."
  },
  {
   "property": "C21",
   "status": "proved",
   "theorems": [
    "C21_accepts",
    "C21_rejects",
    "C21_value",
    "C21_exact",
    "C21_never_panics",
    "C21_infinite",
    "C21_nan_refuted",
    "C21_nan_value"
   ],
   "note": "NaN seconds: C21_nan_refuted, C21_nan_value."
  },
  {
   "property": "C22",
   "status": "proved",
   "theorems": [
    "C22_value",
    "C22_accepts_only",
    "C22_never_panics",
    "C22_exact",
    "C22_midnight",
    "C22_nan"
   ],
   "note": ""
  },
  {
   "property": "C23",
   "status": "proved",
   "theorems": [
    "C23_add",
    "C23_sub",
    "C23_negate",
    "C23_total",
    "C23_add_comm",
    "C23_add_assoc",
    "C23_sub_is_add_neg",
    "C23_sub_self",
    "C23_neg_neg",
    "C23_operator"
   ],
   "note": ""
  },
  {
   "property": "C24",
   "status": "proved",
   "theorems": [
    "C24_cmp",
    "C24_antisym",
    "C24_trans",
    "C24_no_overflow",
    "C24_eq_inconsistent_refuted",
    "C24_eqb"
   ],
   "note": "Ord and Eq disagree: C24_eq_inconsistent_refuted."
  },
  {
   "property": "C25",
   "status": "proved",
   "theorems": [
    "C25_normalises",
    "C25_keeps_span",
    "C25_unique",
    "C25_idempotent"
   ],
   "note": ""
  },
  {
   "property": "C26",
   "status": "proved",
   "theorems": [
    "C26_normalises",
    "C26_keeps_span",
    "C26_unique",
    "C26_idempotent"
   ],
   "note": ""
  },
  {
   "property": "C27",
   "status": "proved",
   "theorems": [
    "C27_normalises",
    "C27_keeps_span",
    "C27_unique",
    "C27_idempotent"
   ],
   "note": ""
  },
  {
   "property": "C28",
   "status": "proved",
   "theorems": [
    "C28_truncate",
    "C28_truncate_coarse",
    "C28_truncated_unique",
    "C28_idempotent",
    "C28_microsec_identity",
    "C28_bad_unit",
    "C28_epoch",
    "C28_huge",
    "C28_limit",
    "C28_long_refuted"
   ],
   "note": "Exactly while the whole minutes fit 32 bits (C28_limit); beyond that C28_long_refuted."
  },
  {
   "property": "C29",
   "status": "proved",
   "theorems": [
    "C29_time",
    "C29_timestamp",
    "C29_interval",
    "C29_none",
    "C29_rounded_function",
    "C29_rounded_monotone",
    "C29_rounded_idempotent",
    "C29_out_of_range_refuted"
   ],
   "note": "Rounding may leave the range: C29_out_of_range_refuted."
  },
  {
   "property": "C30",
   "status": "proved",
   "theorems": [
    "C30_range",
    "C30_range_precision",
    "C30_unknown",
    "C30_negative"
   ],
   "note": ""
  },
  {
   "property": "C31",
   "status": "proved",
   "theorems": [
    "C31_shortest",
    "C31_padded",
    "C31_unique",
    "C31_padded_unique",
    "C31_reads_back",
    "C31_date_text",
    "C31_time_text",
    "C31_timestamp_text"
   ],
   "note": ""
  },
  {
   "property": "C32",
   "status": "proved",
   "theorems": [
    "C32_roundtrip"
   ],
   "note": ""
  },
  {
   "property": "C33",
   "status": "proved",
   "theorems": [
    "C33_roundtrip",
    "C33_infinity",
    "C33_postgres_dmy_refuted",
    "C33_ymd_refuted",
    "C33_ymd_other_day_refuted"
   ],
   "note": "The styles and orders that do not round trip are refuted."
  },
  {
   "property": "C34",
   "status": "proved",
   "theorems": [
    "C34_roundtrip",
    "C34_typmod"
   ],
   "note": ""
  },
  {
   "property": "C35",
   "status": "proved",
   "theorems": [
    "C35_roundtrip",
    "C35_iso",
    "C35_infinity",
    "C35_typmod",
    "C35_february_refuted"
   ],
   "note": "Postgres style except February: C35_february_refuted."
  },
  {
   "property": "C36",
   "status": "proved",
   "theorems": [
    "C36_roundtrip",
    "C36_injective",
    "C36_limit",
    "C36_exact",
    "C36_too_long",
    "C36_day_min_refuted",
    "C36_long_refuted"
   ],
   "note": "The domain is exact (C36_exact); outside it C36_limit, C36_too_long, C36_day_min_refuted, C36_long_refuted."
  },
  {
   "property": "C37",
   "status": "proved",
   "theorems": [
    "C37_roundtrip",
    "C37_limit",
    "C37_any_style",
    "C37_exact"
   ],
   "note": "The domain is exact (C37_exact)."
  },
  {
   "property": "C38",
   "status": "proved",
   "theorems": [
    "C38_roundtrip",
    "C38_limit",
    "C38_negative_refuted",
    "C38_negative",
    "C38_exact"
   ],
   "note": "Exact domain: C38_exact. Negative fields: C38_negative for all of them."
  },
  {
   "property": "C39",
   "status": "proved",
   "theorems": [
    "C39_date_binary",
    "C39_time_binary",
    "C39_timestamp_binary",
    "C39_interval_binary",
    "C39_date_text",
    "C39_time_text",
    "C39_timestamp_text",
    "C39_interval_text",
    "C39_interval_text_exact",
    "C39_interval_too_long",
    "C39_map_exact",
    "C39_map_total",
    "C39_duplicate",
    "C39_unknown_or_missing"
   ],
   "note": ""
  },
  {
   "property": "C40",
   "status": "proved",
   "theorems": [
    "C40_unambiguous",
    "C40_date_words",
    "C40_interval_words",
    "C40_total",
    "C40_months",
    "C40_weekdays",
    "C40_halves",
    "C40_eras",
    "C40_units",
    "C40_prefix",
    "C40_feb_missing_refuted"
   ],
   "note": "\"feb\" is missing from the table: C40_feb_missing_refuted."
  },
  {
   "property": "C41",
   "status": "proved",
   "theorems": [
    "C41_no_influence",
    "C41_history",
    "C41_cache_invisible"
   ],
   "note": ""
  },
  {
   "property": "C42",
   "status": "proved",
   "theorems": [
    "C42_date",
    "C42_timestamp",
    "C42_time",
    "C42_interval",
    "C42_long_refuted",
    "C42_sign_refuted",
    "C42_t_refuted",
    "C42_overflow_refuted"
   ],
   "note": "Release builds: no fault for every text within the buffer that ends in no sign and no lone t; the excluded texts do fault (refuted theorems). Debug builds additionally may overflow (C42_overflow_refuted)."
  },
  {
   "property": "C43",
   "status": "proved",
   "theorems": [
    "C43_date",
    "C43_timestamp",
    "C43_timestamp_any_typmod",
    "C43_timestamp_typmod_refuted",
    "C43_time",
    "C43_time_tight",
    "C43_calendar",
    "C43_calendar_refuted"
   ],
   "note": "Timestamp with a precision may leave the range: C43_timestamp_typmod_refuted; a text without a date is accepted: C43_calendar_refuted."
  },
  {
   "property": "C44",
   "status": "proved",
   "theorems": [
    "C44_case",
    "C44_case_errors",
    "C44_case_errors_refuted",
    "C44_case_iso_refuted",
    "C44_white",
    "C44_leading",
    "C44_trailing",
    "C44_dot_refuted",
    "C44_empty_refuted"
   ],
   "note": "Exceptions are refuted: after a dot, empty text, kinds of errors, ISO 8601 intervals."
  },
  {
   "property": "C45",
   "status": "proved",
   "theorems": [
    "C45_bounds",
    "C45_total",
    "C45_fields",
    "C45_too_many",
    "C45_long_refuted"
   ],
   "note": "Within 128 bytes; beyond C45_long_refuted."
  },
  {
   "property": "C46",
   "status": "proved",
   "theorems": [
    "C46_numeric",
    "C46_refused",
    "C46_window",
    "C46_year_zero"
   ],
   "note": ""
  },
  {
   "property": "C47",
   "status": "proved",
   "theorems": [
    "C47_mul_integer",
    "C47_mul_one",
    "C47_mul_zero",
    "C47_mul_refused",
    "C47_mul_saturates_refuted",
    "C47_mul_nan_inf",
    "C47_div_integer",
    "C47_div_one",
    "C47_mul_div",
    "C47_div_zero",
    "C47_div_nan_refuted",
    "C47_div_range_refuted"
   ],
   "note": "Findings: C47_mul_saturates_refuted, C47_div_nan_refuted, C47_div_range_refuted."
  },
  {
   "property": "C48",
   "status": "proved",
   "theorems": [
    "C48_fields",
    "C48_exact",
    "C48_nan_inf",
    "C48_never_panics",
    "C48_overflow_refuted"
   ],
   "note": "Fields that do not fit wrap: C48_overflow_refuted."
  },
  {
   "property": "C49",
   "status": "proved",
   "theorems": [
    "C49_date_interval",
    "C49_infinite",
    "C49_beyond"
   ],
   "note": ""
  },
  {
   "property": "C50",
   "status": "proved",
   "theorems": [
    "C50_date",
    "C50_time",
    "C50_timestamp",
    "C50_interval",
    "C50_interval_min_refuted"
   ],
   "note": "Intervals except day or month i32::MIN, C50_interval_min_refuted."
  },
  {
   "property": "C51",
   "status": "proved",
   "theorems": [
    "C51_part",
    "C51_truncate",
    "C51_beyond"
   ],
   "note": ""
  },
  {
   "property": "C52",
   "status": "proved",
   "theorems": [
    "C52_truncate_down",
    "C52_on_boundary",
    "C52_coarse",
    "C52_refused",
    "C52_midnight_refuted"
   ],
   "note": "24:00:00: C52_midnight_refuted."
  },
  {
   "property": "C53",
   "status": "proved",
   "theorems": [
    "C53_timestamp",
    "C53_refused",
    "C53_time",
    "C53_second_exact"
   ],
   "note": ""
  },
  {
   "property": "C54",
   "status": "proved",
   "theorems": [
    "C54_parts",
    "C54_recombine",
    "C54_big",
    "C54_epoch_whole",
    "C54_epoch"
   ],
   "note": "Up to i32::MAX hours, beyond that refused (C54_big)."
  },
  {
   "property": "C55",
   "status": "proved",
   "theorems": [
    "C55_time",
    "C55_time_typmod",
    "C55_twelve"
   ],
   "note": ""
  },
  {
   "property": "C56",
   "status": "proved",
   "theorems": [
    "C56_date",
    "C56_refused",
    "C56_unique"
   ],
   "note": ""
  },
  {
   "property": "C57",
   "status": "proved",
   "theorems": [
    "C57_timestamp",
    "C57_typmod",
    "C57_refused"
   ],
   "note": ""
  },
  {
   "property": "C58",
   "status": "proved",
   "theorems": [
    "C58_words",
    "C58_twice",
    "C58_single",
    "C58_decades_refuted",
    "C58_order_refuted",
    "C58_sql_minus_refuted"
   ],
   "note": "Fractions of decades and above, a clock before a fraction and a lone minus in SQL style are excluded and refuted."
  },
  {
   "property": "C59",
   "status": "proved",
   "theorems": [
    "C59_iso",
    "C59_order",
    "C59_alternative",
    "C59_month_fraction_refuted",
    "C59_repeat_refuted"
   ],
   "note": "Fractions of months under the condition month_fraction; without it refuted. Repeated designators are not refused: C59_repeat_refuted."
  },
  {
   "property": "C60",
   "status": "proved",
   "theorems": [
    "C60_date_infinity",
    "C60_date_refused",
    "C60_timestamp_infinity",
    "C60_timestamp_refused",
    "C60_time_allballs",
    "C60_time_refused",
    "C60_interval_refused",
    "C60_words_refuted"
   ],
   "note": "Findings: \"allballs\" alone is a date in 2 BC, and marks such as \"am\" or \"julian\" alone are times of day (C60_words_refuted)."
  },
  {
   "property": "C61",
   "status": "proved",
   "theorems": [
    "C61_time",
    "C61_timestamp",
    "C61_interval",
    "C61_unsupported"
   ],
   "note": ""
  },
  {
   "property": "C62",
   "status": "proved",
   "theorems": [
    "C62_julian_date",
    "C62_julian_date_refused",
    "C62_julian_timestamp",
    "C62_julian_timestamp_refused",
    "C62_year_day_date",
    "C62_year_day_timestamp",
    "C62_year_day_refused",
    "C62_year_length_refuted",
    "C62_year_bound_refuted"
   ],
   "note": "Day of the year under y <= 5874897 and a day not before 24 Nov 4714 BC; outside overflow (C62_year_bound_refuted). Day 366 of a common year is not refused (C62_year_length_refuted)."
  },
  {
   "property": "C63",
   "status": "proved",
   "theorems": [
    "C63_offset",
    "C63_offset_after_white",
    "C63_unknown_word"
   ],
   "note": ""
  },
  {
   "property": "C64",
   "status": "proved",
   "theorems": [
    "C64_value",
    "C64_accepted",
    "C64_checked_refuted",
    "C64_leading_refuted"
   ],
   "note": "The weekday is not checked against the date (C64_checked_refuted) and is refused in front of a date in one piece (C64_leading_refuted)."
  },
  {
   "property": "C65",
   "status": "proved",
   "theorems": [
    "C65_year_month",
    "C65_sql_minus",
    "C65_refused"
   ],
   "note": ""
  },
  {
   "property": "C66",
   "status": "proved",
   "theorems": [
    "C66_parse",
    "C66_format",
    "C66_construct",
    "C66_convert",
    "C66_date",
    "C66_time",
    "C66_timestamp",
    "C66_interval",
    "C66_serde"
   ],
   "note": ""
  },
  {
   "property": "C67",
   "status": "proved",
   "theorems": [
    "C67_format",
    "C67_construct",
    "C67_convert",
    "C67_date",
    "C67_time",
    "C67_timestamp",
    "C67_interval",
    "C67_serde",
    "C67_plus_refuted"
   ],
   "note": "Finding: the operator + on intervals panics in all builds where add_interval returns an error (C67_plus_refuted)."
  },
  {
   "property": "C68",
   "status": "proved",
   "theorems": [
    "C68_date",
    "C68_time",
    "C68_timestamp",
    "C68_years_refuted"
   ],
   "note": "Years beyond 9999 and before Christ: C68_years_refuted."
  },
  {
   "property": "C69",
   "status": "proved",
   "theorems": [
    "C69_sum",
    "C69_same_clock",
    "C69_dates",
    "C69_no_months",
    "C69_within_a_day",
    "C69_reversed_refuted",
    "C69_longer",
    "C69_months_add_up",
    "C69_undo",
    "C69_add_up_refuted"
   ],
   "note": "C69_reversed_refuted and C69_add_up_refuted show the limits."
  },
  {
   "property": "C70",
   "status": "proved",
   "theorems": [
    "C70_nested",
    "C70_decade_refuted",
    "C70_keeps",
    "C70_groups"
   ],
   "note": ""
  },
  {
   "property": "C71",
   "status": "proved",
   "theorems": [
    "C71_mul",
    "C71_div",
    "C71_mul_div",
    "C71_exact_refuted"
   ],
   "note": "C71_exact_refuted shows that the bound cannot be made smaller than 43 ms."
  },
  {
   "property": "C72",
   "status": "proved",
   "theorems": [
    "C72_date",
    "C72_timestamp",
    "C72_time",
    "C72_interval",
    "C72_long_refuted",
    "C72_interval_long_refuted",
    "C72_bc_refuted",
    "C72_h_refuted"
   ],
   "note": ""
  },
  {
   "property": "C73",
   "status": "proved",
   "theorems": [
    "C73_sub_age",
    "C73_sub_near",
    "C73_near",
    "C73_exact_refuted"
   ],
   "note": ""
  },
  {
   "property": "C74",
   "status": "proved",
   "theorems": [
    "C74_date",
    "C74_timestamp",
    "C74_time",
    "C74_fields",
    "C74_interval_text",
    "C74_interval"
   ],
   "note": ""
  },
  {
   "property": "C75",
   "status": "proved",
   "theorems": [
    "C75_months",
    "C75_anniversary",
    "C75_fields",
    "C75_span",
    "C75_grow_refuted",
    "C75_order_refuted"
   ],
   "note": "The order of intervals itself is not kept: C75_grow_refuted, C75_order_refuted."
  },
  {
   "property": "C76",
   "status": "proved",
   "theorems": [
    "C76_time",
    "C76_time_typmod",
    "C76_timestamp",
    "C76_carried",
    "C76_date",
    "C76_no_such_time_refuted"
   ],
   "note": "After a date 25:61:99 written as 256199 is accepted: C76_no_such_time_refuted."
  },
  {
   "property": "C77",
   "status": "proved",
   "theorems": [
    "C77_timestamp",
    "C77_refused",
    "C77_date",
    "C77_twice",
    "C77_incomplete",
    "C77_time",
    "C77_order",
    "C77_short_year",
    "C77_no_such_time_refuted",
    "C77_minutes_refuted"
   ],
   "note": "After a date h99 is accepted (C77_no_such_time_refuted); Time::try_from_str takes the m of 'h4 m5' for a month and drops it (C77_minutes_refuted)."
  },
  {
   "property": "C78",
   "status": "proved",
   "theorems": [
    "C78_timestamp",
    "C78_date",
    "C78_unambiguous",
    "C78_agree",
    "C78_swap"
   ],
   "note": ""
  },
  {
   "property": "C79",
   "status": "proved",
   "theorems": [
    "C79_date",
    "C79_same_date",
    "C79_timestamp",
    "C79_precision",
    "C79_same_timestamp",
    "C79_timestamp_refuted",
    "C79_time",
    "C79_leap_refuted",
    "C79_interval_fits",
    "C79_interval",
    "C79_same_interval"
   ],
   "note": ""
  },
  {
   "property": "C80",
   "status": "proved",
   "theorems": [
    "C80_range",
    "C80_exceptions",
    "C80_no_panic",
    "C80_parts",
    "C80_stored"
   ],
   "note": ""
  },
  {
   "property": "C81",
   "status": "proved",
   "theorems": [
    "C81_days",
    "C81_clock",
    "C81_clock_refuted",
    "C81_months",
    "C81_difference",
    "C81_join",
    "C81_truncate_clock",
    "C81_truncate_date",
    "C81_clock_parts",
    "C81_date_parts"
   ],
   "note": ""
  },
  {
   "property": "C82",
   "status": "proved",
   "theorems": [
    "C82_rounded",
    "C82_refused",
    "C82_ties_refuted"
   ],
   "note": ""
  },
  {
   "property": "C83",
   "status": "proved",
   "theorems": [
    "C83_interval",
    "C83_time",
    "C83_date",
    "C83_timestamp",
    "C83_no_day_refuted"
   ],
   "note": "C83_no_day_refuted records that such date texts are accepted."
  },
  {
   "property": "C84",
   "status": "proved",
   "theorems": [
    "C84_refused",
    "C84_least",
    "C84_no_digit_refuted"
   ],
   "note": "C84_no_digit_refuted shows why a digit must stand in front of the point."
  }
 ]
}