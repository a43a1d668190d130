{
 "claims": [
  {
   "property": "C01",
   "status": "proved",
   "theorems": [
    "C01_next_moves_n_civil_days"
   ],
   "note": ""
  },
  {
   "property": "C02",
   "status": "proved",
   "theorems": [
    "C02_next_additive",
    "C02_next_zero",
    "C02_next_inverse"
   ],
   "note": ""
  },
  {
   "property": "C03",
   "status": "proved",
   "theorems": [
    "C03_subtract_is_day_distance",
    "C03_subtract_defined",
    "C03_subtract_antisym",
    "C03_subtract_additive",
    "C03_next_subtract"
   ],
   "note": ""
  },
  {
   "property": "C04",
   "status": "proved",
   "theorems": [
    "C04_isBefore_is_time_order",
    "C04_trichotomy",
    "C04_converse",
    "C04_transitive"
   ],
   "note": ""
  },
  {
   "property": "C05",
   "status": "proved",
   "theorems": [
    "C05_subtractMinute"
   ],
   "note": ""
  },
  {
   "property": "C06",
   "status": "proved",
   "theorems": [
    "C06_getDaysOfMonth",
    "C06_getDaysOfYear",
    "C06_getDaysInYear",
    "C06_getDaysInYear_raises"
   ],
   "note": ""
  },
  {
   "property": "C07",
   "status": "proved",
   "theorems": [
    "C07_noon_is_day_number",
    "C07_midnight",
    "C07_accuracy"
   ],
   "note": ""
  },
  {
   "property": "C08",
   "status": "proved",
   "theorems": [
    "C08_julian_day_monotone"
   ],
   "note": ""
  },
  {
   "property": "C09",
   "status": "proved",
   "theorems": [
    "C09_round_trip"
   ],
   "note": ""
  },
  {
   "property": "C10",
   "status": "proved",
   "theorems": [
    "C10_whole_days",
    "C10_half_days"
   ],
   "note": ""
  },
  {
   "property": "C11",
   "status": "proved",
   "theorems": [
    "C11_always_existing_date_refuted",
    "C11_raises_refuted",
    "C11_existing_date_except_last_half_second"
   ],
   "note": "The naive claim is refuted by two witnesses; the theorem gives what holds for every Julian Day in -0.5..366900000."
  },
  {
   "property": "C12",
   "status": "proved",
   "theorems": [
    "C12_week_cycle",
    "C12_week_next",
    "C12_all_years_refuted"
   ],
   "note": "years -4712..1000000; false before (C12_all_years_refuted)"
  },
  {
   "property": "C13",
   "status": "proved",
   "theorems": [
    "C13_valid_accepted",
    "C13_accepted_iff",
    "C13_constructor_rejects_nonexistent_refuted"
   ],
   "note": "The naive claim is false of the code (Solar.py:22 tests the month against 31): C13_constructor_rejects_nonexistent_refuted; C13_accepted_iff gives exactly what is accepted."
  },
  {
   "property": "C14",
   "status": "proved",
   "theorems": [
    "C14_nextMonth"
   ],
   "note": "for |n| <= 2^52, where the float division int(m/12) is exact"
  },
  {
   "property": "C15",
   "status": "proved",
   "theorems": [
    "C15_nextYear"
   ],
   "note": ""
  },
  {
   "property": "C16",
   "status": "proved",
   "theorems": [
    "C16_nextHour"
   ],
   "note": "for |n| <= 2^51, where the float division int(hour/24) is exact"
  },
  {
   "property": "C17",
   "status": "proved",
   "theorems": [
    "C17_toYmd_order",
    "C17_toYmdHms_order",
    "C17_all_years_refuted"
   ],
   "note": "years 0..9999; C17_all_years_refuted shows the range is needed"
  },
  {
   "property": "C18",
   "status": "proved",
   "theorems": [
    "C18_SolarMonth_next",
    "C18_SolarMonth_next_additive"
   ],
   "note": "for |n| <= 2^52"
  },
  {
   "property": "C19",
   "status": "proved",
   "theorems": [
    "C19_season",
    "C19_half_year",
    "C19_year_months",
    "C19_partition",
    "C19_season_next",
    "C19_half_year_next",
    "C19_year_next"
   ],
   "note": ""
  },
  {
   "property": "C20",
   "status": "proved",
   "theorems": [
    "C20_getDays_lists_the_month"
   ],
   "note": ""
  },
  {
   "property": "C21",
   "status": "proved",
   "theorems": [
    "C21_getDays",
    "C21_getDaysInMonth"
   ],
   "note": ""
  },
  {
   "property": "C22",
   "status": "proved",
   "theorems": [
    "C22_getIndex",
    "C22_getIndexInYear",
    "C22_gap_refuted"
   ],
   "note": "getIndex: all dates but 15-31 October 1582 (C22_gap_refuted); getIndexInYear: all dates; years -4712..1000000"
  },
  {
   "property": "C23",
   "status": "proved",
   "theorems": [
    "C23_getWeeksOfMonth",
    "C23_naive_refuted"
   ],
   "note": "exact value for every month; the naive claim is refuted"
  },
  {
   "property": "C24",
   "status": "proved",
   "theorems": [
    "C24_getWeeks_cover",
    "C24_weeks_of_the_month_refuted"
   ],
   "note": "years -4712..999999"
  },
  {
   "property": "C25",
   "status": "proved",
   "theorems": [
    "C25_zodiac",
    "C25_always_a_sign",
    "C25_year_independent"
   ],
   "note": ""
  },
  {
   "property": "C26",
   "status": "proved",
   "theorems": [
    "C26_weekday_festivals",
    "C26_fixed_festivals",
    "C26_no_other_festival"
   ],
   "note": ""
  },
  {
   "property": "C27",
   "status": "proved",
   "theorems": [
    "C27_next_work"
   ],
   "note": "years 1000..9999 around the dates stepped over; any database"
  },
  {
   "property": "C28",
   "status": "proved",
   "theorems": [
    "C28_getHoliday",
    "C28_getHoliday_text",
    "C28_none",
    "C28_shipped",
    "C28_other_years_refuted"
   ],
   "note": "four-digit years; C28_other_years_refuted shows the restriction is needed"
  },
  {
   "property": "C29",
   "status": "proved",
   "theorems": [
    "C29_year",
    "C29_month",
    "C29_shipped_in_order"
   ],
   "note": ""
  },
  {
   "property": "C30",
   "status": "proved",
   "theorems": [
    "C30_existing_days",
    "C30_first_run",
    "C30_appended_refuted"
   ],
   "note": "C30_appended_refuted shows that appended days are missing"
  },
  {
   "property": "C31",
   "status": "proved",
   "theorems": [
    "C31_last_run",
    "C31_shipped",
    "C31_split_targets_refuted"
   ],
   "note": "C31_split_targets_refuted gives the three dates with missing records"
  },
  {
   "property": "C32",
   "status": "proved",
   "theorems": [
    "C32_put",
    "C32_remove",
    "C32_shipped_findable",
    "C32_other_day_refuted",
    "C32_flag_refuted"
   ],
   "note": "under `findable`, which C32_shipped_findable proves for the shipped data; C32_other_day_refuted and C32_flag_refuted show what fails otherwise"
  },
  {
   "property": "C33",
   "status": "proved",
   "theorems": [
    "C33_fix",
    "C33_history",
    "C33_length",
    "C33_duplicate_refuted"
   ],
   "note": "C33_duplicate_refuted shows that the days of one call must be distinct"
  },
  {
   "property": "C34",
   "status": "proved",
   "theorems": [
    "C34_transparent",
    "C34_year",
    "C34_exclusive"
   ],
   "note": "threads interleave line by line; asynchronous exceptions are not modelled"
  },
  {
   "property": "C35",
   "status": "proved",
   "theorems": [
    "C35_bounded",
    "C35_progress",
    "C35_completes",
    "C35_refuted",
    "C35_code"
   ],
   "note": "C35_refuted: after any raising construction no later call returns; C35_case: year 10**400; C35_code: years 0..9999 of the code's own constructor, which never raises, under libm"
  },
  {
   "property": "C36",
   "status": "proved",
   "theorems": [
    "C36_isolated",
    "C36_refuted"
   ],
   "note": "C36_refuted: a list from getMonths is shared with the cache"
  },
  {
   "property": "C37",
   "status": "proved",
   "theorems": [
    "C37_jia_zi",
    "C37_jia_zi_length",
    "C37_index",
    "C37_index_other",
    "C37_parity",
    "C37_index_parts"
   ],
   "note": ""
  },
  {
   "property": "C38",
   "status": "proved",
   "theorems": [
    "C38_xun",
    "C38_meaning"
   ],
   "note": ""
  },
  {
   "property": "C39",
   "status": "proved",
   "theorems": [
    "C39_time_zhi",
    "C39_range",
    "C39_illegal_refuted"
   ],
   "note": "C39_illegal_refuted shows that the documented fallback to 0 does not hold"
  },
  {
   "property": "C40",
   "status": "proved",
   "theorems": [
    "C40_time_text",
    "C40_shensha_text",
    "C40_day_text",
    "C40_time",
    "C40_time_cover",
    "C40_time_other",
    "C40_shensha",
    "C40_shensha_cover",
    "C40_shensha_other",
    "C40_day",
    "C40_day_other"
   ],
   "note": ""
  },
  {
   "property": "C41",
   "status": "proved",
   "theorems": [
    "C41_shi_shen",
    "C41_elements",
    "C41_hidden",
    "C41_branch_elements"
   ],
   "note": ""
  },
  {
   "property": "C42",
   "status": "proved",
   "theorems": [
    "C42_lodge",
    "C42_advances"
   ],
   "note": ""
  },
  {
   "property": "C43",
   "status": "proved",
   "theorems": [
    "C43_lunar",
    "C43_lists",
    "C43_year_in_chinese",
    "C43_month_tai",
    "C43_time",
    "C43_eight",
    "C43_year",
    "C43_month",
    "C43_any_date",
    "C43_code"
   ],
   "note": "C43_any_date composes the parts for any civil date, under the Calendar hypothesis on the year tables; the parts hold unconditionally of a constructed object; C43_code: the code's own tables, dates of 20..9998, under libm"
  },
  {
   "property": "C44",
   "status": "proved",
   "theorems": [
    "C44_next",
    "C44_shape",
    "C44_first",
    "C44_numbering",
    "C44_one_leap",
    "C44_leap_rule",
    "C44_leap_exists"
   ],
   "note": ""
  },
  {
   "property": "C45",
   "status": "proved",
   "theorems": [
    "C45_months_tile",
    "C45_every_day",
    "C45_code"
   ],
   "note": "years 0..9999 under libm (C45_code); years 0..616 for any fsin, fcos, as the month data do not depend on them there"
  },
  {
   "property": "C46",
   "status": "proved",
   "theorems": [
    "C46_real_calendar",
    "C46_neighbours",
    "C46_refuted",
    "C46_index_refuted",
    "C46_real_civil",
    "C46_code",
    "C46_neighbours_code",
    "C46_libm"
   ],
   "note": "years 0..9999 under libm (C46_code, C46_neighbours_code); the two defects are C46_refuted and C46_index_refuted"
  },
  {
   "property": "C47",
   "status": "proved",
   "theorems": [
    "C47_round_trip",
    "C47_lunar_date",
    "C47_code"
   ],
   "note": "for any year tables satisfying `Calendar`, which C46_code proves of the code's own tables (years 0..18 and 19..9999, under libm)"
  },
  {
   "property": "C48",
   "status": "proved",
   "theorems": [
    "C48_round_trip",
    "C48_code"
   ],
   "note": "for any year tables satisfying `Calendar`, which C46_code proves of the code's own tables (years 0..18 and 19..9999, under libm)"
  },
  {
   "property": "C49",
   "status": "proved",
   "theorems": [
    "C49_accepted_iff",
    "C49_rejected",
    "C49_code"
   ],
   "note": "for any year tables satisfying `Calendar`, which C46_code proves of the code's own tables (years 0..18 and 19..9999, under libm)"
  },
  {
   "property": "C50",
   "status": "proved",
   "theorems": [
    "C50_next",
    "C50_additive",
    "C50_inverse",
    "C50_day_by_day",
    "C50_code"
   ],
   "note": "for any year tables satisfying `Calendar`, which C46_code proves of the code's own tables (years 0..18 and 19..9999, under libm)"
  },
  {
   "property": "C51",
   "status": "proved",
   "theorems": [
    "C51_next",
    "C51_unique",
    "C51_additive",
    "C51_refuted",
    "C51_code"
   ],
   "note": "for any year tables satisfying `Calendar`, which C46_code proves of the code's own tables (years 0..18 and 19..9999, under libm); defect: C51_refuted"
  },
  {
   "property": "C52",
   "status": "proved",
   "theorems": [
    "C52_months_of_year",
    "C52_next_new_year",
    "C52_civil",
    "C52_real",
    "C52_refuted",
    "C52_code",
    "C52_refuted_code",
    "C52_new_year"
   ],
   "note": "C52_months_of_year for any sky; distances for any year tables satisfying `Calendar`, which C46_code proves of the code's own tables (years 0..18 and 19..9999, under libm); C52_code: years 0..9998 of the code's own tables, under libm; defect: C52_refuted_code"
  },
  {
   "property": "C53",
   "status": "proved",
   "theorems": [
    "C53_day_pillar",
    "C53_advances",
    "C53_cycle_is_sixty",
    "C53_code"
   ],
   "note": "C53_code: dates of 20..9998 (day and hour pillars), under libm"
  },
  {
   "property": "C54",
   "status": "proved",
   "theorems": [
    "C54_hour_pillar",
    "C54_five_rats"
   ],
   "note": ""
  },
  {
   "property": "C55",
   "status": "proved",
   "theorems": [
    "C55_year_pillar",
    "C55_ahead",
    "C55_refuted",
    "C55_code"
   ],
   "note": "C55_code: the code's own tables, dates of 20..9998, under libm"
  },
  {
   "property": "C56",
   "status": "proved",
   "theorems": [
    "C56_month_pillar",
    "C56_some_jie",
    "C56_five_tigers",
    "C56_code"
   ],
   "note": "C56_code: the code's own tables, dates of 20..9998, under libm"
  },
  {
   "property": "C57",
   "status": "proved",
   "theorems": [
    "C57_code",
    "C57_next",
    "C57_prev"
   ],
   "note": "C57_code: the code's own tables, dates of 20..9998, under libm"
  },
  {
   "property": "C58",
   "status": "proved",
   "theorems": [
    "C58_code",
    "C58_term_day",
    "C58_other_day",
    "C58_agree"
   ],
   "note": "C58_code: the code's own tables, dates of 20..9998, under libm"
  },
  {
   "property": "C59",
   "status": "proved",
   "theorems": [
    "C59_code",
    "C59_terms",
    "C59_terms_total",
    "C59_shared",
    "C59_good",
    "C59_good_drift",
    "C59_dates"
   ],
   "note": "C59_shared: 0..9999; C59_dates: 1..9998; C59_code: the terms of a date of 20..9998, under libm"
  },
  {
   "property": "C60",
   "status": "proved",
   "theorems": [
    "C60_code",
    "C60_shu_jiu"
   ],
   "note": "for a term table that is increasing and fits the year (good_terms); C60_code: the code's own tables, dates of 20..9998, under libm"
  },
  {
   "property": "C61",
   "status": "proved",
   "theorems": [
    "C61_code",
    "C61_fu",
    "C61_last_starts_after_liqiu"
   ],
   "note": "under Calendar and good_terms; C61_last_starts_after_liqiu for the 40..50 days from 夏至 to 立秋; C61_code: the code's own tables, dates of 20..9998, under libm"
  },
  {
   "property": "C62",
   "status": "proved",
   "theorems": [
    "C62_code",
    "C62_year_star",
    "C62_year_star_lichun",
    "C62_lunar_year",
    "C62_next_year",
    "C62_month_star",
    "C62_lunar_month",
    "C62_month_range",
    "C62_day_star",
    "C62_day_range",
    "C62_hour_star",
    "C62_hour_range",
    "C62_refuted"
   ],
   "note": "C62_refuted: LunarTime.getNineStar raises TypeError always; C62_code: the code's own tables, dates of 21..9998, under libm"
  },
  {
   "property": "C63",
   "status": "proved",
   "theorems": [
    "C63_tai_yuan",
    "C63_tai_xi",
    "C63_ming_gong",
    "C63_shen_gong",
    "C63_sixty",
    "C63_di_shi",
    "C63_stages_distinct"
   ],
   "note": ""
  },
  {
   "property": "C64",
   "status": "proved",
   "theorems": [
    "C64_start",
    "C64_code"
   ],
   "note": "for a term table that is increasing and fits the year (good_terms); C64_code: the code's own tables, dates of 20..9998, under libm"
  },
  {
   "property": "C65",
   "status": "proved",
   "theorems": [
    "C65_periods",
    "C65_pillars",
    "C65_month_pillar",
    "C65_refuted",
    "C65_code"
   ],
   "note": "C65_refuted: the pillar of a far period raises IndexError; C65_pillars gives the exact range in which it is right; C65_code: the code's own tables, dates of 20..9998, under libm"
  },
  {
   "property": "C66",
   "status": "proved",
   "theorems": [
    "C66_years",
    "C66_minor",
    "C66_months",
    "C66_months_of_year",
    "C66_code",
    "C66_month_names"
   ],
   "note": "yearly pillars under Calendar, for births in years whose 立春 is not in a lunar year ahead of the solar one (true of all years of the code from 20 on); C66_code: the code's own tables, dates of 20..9998, under libm"
  },
  {
   "property": "C67",
   "status": "proved",
   "theorems": [
    "C67_sound",
    "C67_ordered",
    "C67_code"
   ],
   "note": "C67_ordered under Calendar and YearSeasons (increasing term tables that agree between years); C67_code: the code's own tables, 22..9994, under libm"
  },
  {
   "property": "C68",
   "status": "proved",
   "theorems": [
    "C68_tao",
    "C68_foto",
    "C68_foto_year",
    "C68_foto_real",
    "C68_refuted",
    "C68_code",
    "C68_refuted_code"
   ],
   "note": "C68_refuted: Buddhist 560-1-1 (AD 15-12-30) gives 558; C68_foto_real for the code's own tables of the years 242..616; C68_code: Buddhist years 566..10541 of the code's own tables, under libm"
  },
  {
   "property": "C69",
   "status": "proved",
   "theorems": [
    "C69_chuxi",
    "C69_last_day",
    "C69_refuted",
    "C69_refuted_code",
    "C69_code"
   ],
   "note": "for any year tables satisfying `Calendar`, which C46_code proves of the code's own tables (years 0..18 and 19..9999, under libm); defect: C69_refuted; C69_code: lunar years 21..9996 of the code's own tables, under libm"
  },
  {
   "property": "C70",
   "status": "proved",
   "theorems": [
    "C70_day_tai_sui",
    "C70_refuted"
   ],
   "note": "C70_refuted: on a 己卯 day the direction is the year's; C70_day_tai_sui gives the exact value for all sixty days"
  },
  {
   "property": "C71",
   "status": "proved",
   "theorems": [
    "C71_code",
    "C71_hou",
    "C71_phenomena"
   ],
   "note": "for a term table that is increasing and fits the year (good_terms); C71_code: the code's own tables, dates of 20..9998, under libm"
  },
  {
   "property": "C72",
   "status": "proved",
   "theorems": [
    "C72_code",
    "C72_bounds",
    "C72_pillar",
    "C72_times"
   ],
   "note": "C72_code: the code's own tables, dates of 20..9998, under libm"
  },
  {
   "property": "C73",
   "status": "proved",
   "theorems": [
    "C73_week_next",
    "C73_first_day"
   ],
   "note": ""
  },
  {
   "property": "C74",
   "status": "proved",
   "theorems": [
    "C74_nayin",
    "C74_nayin_only"
   ],
   "note": ""
  },
  {
   "property": "C75",
   "status": "proved",
   "theorems": [
    "C75_branches",
    "C75_stems",
    "C75_sha"
   ],
   "note": ""
  },
  {
   "property": "C76",
   "status": "proved",
   "theorems": [
    "C76_found",
    "C76_refuted",
    "C76_code"
   ],
   "note": "under Calendar, civil and YearSeasons; C76_refuted: 2024-09-07 11:05 and 2024-01-03 12:00 are not found; C76_code: the code's own tables, 22..9994, under libm"
  },
  {
   "property": "C77",
   "status": "proved",
   "theorems": [
    "C77_rule",
    "C77_daily",
    "C77_new_year",
    "C77_code"
   ],
   "note": "C77_daily for an increasing term table that fits the year (good_terms), C77_new_year for tables that agree between years (Seasons); C77_code: the code's own tables, 20..9998, under libm"
  },
  {
   "property": "C78",
   "status": "proved",
   "theorems": [
    "C78_day",
    "C78_time",
    "C78_double_hour"
   ],
   "note": ""
  },
  {
   "property": "C79",
   "status": "proved",
   "theorems": [
    "C79_first_day",
    "C79_daily",
    "C79_code"
   ],
   "note": "C79_daily under Calendar; C79_code: the code's own tables, 21..9996, under libm"
  },
  {
   "property": "C80",
   "status": "proved",
   "theorems": [
    "C80_code",
    "C80_branch_days",
    "C80_stem_days",
    "C80_two_days"
   ],
   "note": "under Calendar; C80_code: the code's own tables, 21..9997, under libm"
  },
  {
   "property": "C81",
   "status": "proved",
   "theorems": [
    "C81_yuan",
    "C81_refuted"
   ],
   "note": "C81_refuted: truncation before -2696"
  },
  {
   "property": "C82",
   "status": "proved",
   "theorems": [
    "C82_place",
    "C82_pillars",
    "C82_refuted"
   ],
   "note": "C82_refuted: the pillar of a thirteenth month is repeated; indices hold for any sky"
  },
  {
   "property": "C83",
   "status": "proved",
   "theorems": [
    "C83_festivals",
    "C83_code"
   ],
   "note": "under Calendar and good_terms; C83_code: the code's own tables, dates of 20..9998, under libm"
  },
  {
   "property": "C84",
   "status": "proved",
   "theorems": [
    "C84_six",
    "C84_six_per_month",
    "C84_lodges",
    "C84_lookups",
    "C84_code"
   ],
   "note": "C84_six_per_month under Calendar; C84_code: the code's own tables, 21..9997, under libm"
  },
  {
   "property": "C85",
   "status": "proved",
   "theorems": [
    "C85_tian_she",
    "C85_ba_hui",
    "C85_wu",
    "C85_ba_jie"
   ],
   "note": ""
  },
  {
   "property": "C86",
   "status": "proved",
   "theorems": [
    "C86_accessors",
    "C86_in_range",
    "C86_year_in_range",
    "C86_facing",
    "C86_square",
    "C86_number",
    "C86_gates",
    "C86_song",
    "C86_text"
   ],
   "note": ""
  },
  {
   "property": "C87",
   "status": "proved",
   "theorems": [
    "C87_digits",
    "C87_texts",
    "C87_injective",
    "C87_foto_tao"
   ],
   "note": ""
  },
  {
   "property": "C88",
   "status": "proved",
   "theorems": [
    "C88_leap_month",
    "C88_since_1728",
    "C88_refuted",
    "C88_solstices",
    "C88_both_solstices",
    "C88_summer_refuted",
    "C88_winter",
    "C88_first"
   ],
   "note": "years 1646..9998 (part 2: tables of 1647..9997; 夏至 up to 6611), under libm; C88_refuted shows the three exceptions and C88_summer_refuted the year 6612"
  },
  {
   "property": "C89",
   "status": "proved",
   "theorems": [
    "C89_year",
    "C89_year_lichun",
    "C89_year_exact",
    "C89_month",
    "C89_month_exact",
    "C89_day",
    "C89_day_exact",
    "C89_day_exact2",
    "C89_time",
    "C89_tai_sui_sects",
    "C89_peng_zu",
    "C89_lunar_time",
    "C89_lunar_year",
    "C89_lunar_month",
    "C89_month_tai_sui",
    "C89_eight_char",
    "C89_lists",
    "C89_derived",
    "C89_periods",
    "C89_first_period_refuted",
    "C89_tai_sui_desc"
   ],
   "note": "C89_first_period_refuted shows the second defect; the first is part of tai_sui_year"
  },
  {
   "property": "C90",
   "status": "proved",
   "theorems": [
    "C90_lodge",
    "C90_foto_lodge",
    "C90_weekday",
    "C90_season",
    "C90_phase",
    "C90_month_foetus"
   ],
   "note": "for every constructible Lunar"
  },
  {
   "property": "C91",
   "status": "proved",
   "theorems": [
    "C91_count_unique",
    "C91_forward",
    "C91_backward",
    "C91_zero",
    "C91_backward_refuted",
    "C91_gap_refuted"
   ],
   "note": "C91_backward_refuted and C91_gap_refuted show the two defects"
  },
  {
   "property": "C92",
   "status": "proved",
   "theorems": [
    "C92_yang_gong",
    "C92_days",
    "C92_six_in_ten",
    "C92_guan_yin",
    "C92_monthly",
    "C92_every_month",
    "C92_every_month_refuted",
    "C92_tao_days",
    "C92_tao_named",
    "C92_tao_solstice",
    "C92_tao_ba_jie",
    "C92_tao_ba_hui"
   ],
   "note": "C92_every_month_refuted shows the first defect; the others are the lists left_out and added and the exception in C92_every_month"
  },
  {
   "property": "C93",
   "status": "proved",
   "theorems": [
    "C93_tao_festival",
    "C93_foto_festival",
    "C93_short",
    "C93_month",
    "C93_season",
    "C93_half_year",
    "C93_year",
    "C93_lunar_month",
    "C93_week",
    "C93_week_refuted",
    "C93_counted",
    "C93_holiday",
    "C93_holiday_shipped",
    "C93_solar_full",
    "C93_lunar_full"
   ],
   "note": "C93_week_refuted shows the defect; C93_lunar_full: dates of 20..9997, under libm"
  },
  {
   "property": "C94",
   "status": "proved",
   "theorems": [
    "C94_day_lu",
    "C94_no_one"
   ],
   "note": "for every constructible Lunar"
  },
  {
   "property": "C95",
   "status": "proved",
   "theorems": [
    "C95_accepted",
    "C95_reached",
    "C95_subtract",
    "C95_agree",
    "C95_order",
    "C95_refuted",
    "C95_lunar",
    "C95_units"
   ],
   "note": "C95_refuted shows the defect, C95_subtract says exactly when the counts differ; C95_lunar under libm"
  },
  {
   "property": "C96",
   "status": "proved",
   "theorems": [
    "C96_shared",
    "C96_fresh",
    "C96_read",
    "C96_bazi",
    "C96_lunar",
    "C96_defined",
    "C96_sect",
    "C96_day",
    "C96_terms"
   ],
   "note": "LunarState.v is a heap of Lunar and EightChar objects; C96_day under libm for dates of 20..9998"
  },
  {
   "property": "C97",
   "status": "proved",
   "theorems": [
    "C97_setSolar",
    "C97_names",
    "C97_one_kind",
    "C97_refuted"
   ],
   "note": "C97_refuted shows the defect"
  },
  {
   "property": "C98",
   "status": "proved",
   "theorems": [
    "C98_inverse",
    "C98_increasing",
    "C98_terms",
    "C98_dates"
   ],
   "note": "SunInv.v compares the speed ev with the derivative of the whole series; the difference of the time scales is that of dtT, whose accuracy is not claimed"
  },
  {
   "property": "C99",
   "status": "proved",
   "theorems": [
    "C99_increasing",
    "C99_new_moon",
    "C99_first",
    "C99_since_1921",
    "C99_next",
    "C99_refuted"
   ],
   "note": "MoonEdge.v; C99_new_moon holds of every month with the day given by moon_day (1 but for the 26 months), C99_refuted shows the 26; that the days are historically or astronomically right beyond the code's own series and dtT is not claimed"
  },
  {
   "property": "C100",
   "status": "proved",
   "theorems": [
    "C100_solar",
    "C100_october_1582",
    "C100_feasts",
    "C100_other",
    "C100_foto",
    "C100_every_year",
    "C100_day_30_refuted"
   ],
   "note": "C100_day_30_refuted and C100_october_1582 show the exceptions; month 12 of 236 has 28 days"
  },
  {
   "property": "C101",
   "status": "proved",
   "theorems": [
    "C101_days",
    "C101_isBefore",
    "C101_new"
   ],
   "note": ""
  }
 ]
}