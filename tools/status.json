{
 "C13": {
  "note": "The naive claim is false of the code (Solar.py:22 tests the month against 31): C13_constructor_rejects_nonexistent_refuted; C13_accepted_iff gives exactly what is accepted."
 },
 "C11": {
  "note": "The naive claim is refuted by two witnesses; the theorem gives what holds for every Julian Day in -0.5..366900000."
 },
 "C12": {
  "note": "years -4712..1000000; false before (C12_all_years_refuted)"
 },
 "C14": {
  "note": "for |n| <= 2^52, where the float division int(m/12) is exact"
 },
 "C16": {
  "note": "for |n| <= 2^51, where the float division int(hour/24) is exact"
 },
 "C18": {
  "note": "for |n| <= 2^52"
 },
 "C17": {
  "note": "years 0..9999; C17_all_years_refuted shows the range is needed"
 },
 "C22": {
  "note": "getIndex: all dates but 15-31 October 1582 (C22_gap_refuted); getIndexInYear: all dates; years -4712..1000000"
 },
 "C23": {
  "note": "exact value for every month; the naive claim is refuted"
 },
 "C24": {
  "note": "years -4712..999999"
 },
 "C39": {
  "note": "C39_illegal_refuted shows that the documented fallback to 0 does not hold"
 },
 "C27": {
  "note": "years 1000..9999 around the dates stepped over; any database"
 },
 "C28": {
  "note": "four-digit years; C28_other_years_refuted shows the restriction is needed"
 },
 "C30": {
  "note": "C30_appended_refuted shows that appended days are missing"
 },
 "C31": {
  "note": "C31_split_targets_refuted gives the three dates with missing records"
 },
 "C32": {
  "note": "under `findable`, which C32_shipped_findable proves for the shipped data; C32_other_day_refuted and C32_flag_refuted show what fails otherwise"
 },
 "C33": {
  "note": "C33_duplicate_refuted shows that the days of one call must be distinct"
 },
 "C45": {
  "note": "years 0..9999 under libm (C45_code); years 0..616 for any fsin, fcos, as the month data do not depend on them there"
 },
 "C46": {
  "note": "years 0..9999 under libm (C46_code, C46_neighbours_code); the two defects are C46_refuted and C46_index_refuted"
 },
 "C47": {
  "note": "for any year tables satisfying `Calendar`, which C46_code proves of the code's own tables (years 0..18 and 19..9999, under libm)"
 },
 "C48": {
  "note": "for any year tables satisfying `Calendar`, which C46_code proves of the code's own tables (years 0..18 and 19..9999, under libm)"
 },
 "C49": {
  "note": "for any year tables satisfying `Calendar`, which C46_code proves of the code's own tables (years 0..18 and 19..9999, under libm)"
 },
 "C50": {
  "note": "for any year tables satisfying `Calendar`, which C46_code proves of the code's own tables (years 0..18 and 19..9999, under libm)"
 },
 "C51": {
  "note": "for any year tables satisfying `Calendar`, which C46_code proves of the code's own tables (years 0..18 and 19..9999, under libm); defect: C51_refuted"
 },
 "C52": {
  "note": "C52_months_of_year for any sky; distances for any year tables satisfying `Calendar`, which C46_code proves of the code's own tables (years 0..18 and 19..9999, under libm); C52_code: years 0..9998 of the code's own tables, under libm; defect: C52_refuted_code"
 },
 "C69": {
  "note": "for any year tables satisfying `Calendar`, which C46_code proves of the code's own tables (years 0..18 and 19..9999, under libm); defect: C69_refuted; C69_code: lunar years 21..9996 of the code's own tables, under libm"
 },
 "C62": {
  "note": "C62_refuted: LunarTime.getNineStar raises TypeError always; C62_code: the code's own tables, dates of 21..9998, under libm"
 },
 "C43": {
  "note": "C43_any_date composes the parts for any civil date, under the Calendar hypothesis on the year tables; the parts hold unconditionally of a constructed object; C43_code: the code's own tables, dates of 20..9998, under libm"
 },
 "C70": {
  "note": "C70_refuted: on a 己卯 day the direction is the year's; C70_day_tai_sui gives the exact value for all sixty days"
 },
 "C60": {
  "note": "for a term table that is increasing and fits the year (good_terms); C60_code: the code's own tables, dates of 20..9998, under libm"
 },
 "C61": {
  "note": "under Calendar and good_terms; C61_last_starts_after_liqiu for the 40..50 days from 夏至 to 立秋; C61_code: the code's own tables, dates of 20..9998, under libm"
 },
 "C71": {
  "note": "for a term table that is increasing and fits the year (good_terms); C71_code: the code's own tables, dates of 20..9998, under libm"
 },
 "C64": {
  "note": "for a term table that is increasing and fits the year (good_terms); C64_code: the code's own tables, dates of 20..9998, under libm"
 },
 "C65": {
  "note": "C65_refuted: the pillar of a far period raises IndexError; C65_pillars gives the exact range in which it is right; C65_code: the code's own tables, dates of 20..9998, under libm"
 },
 "C66": {
  "note": "yearly pillars under Calendar, for births in years whose 立春 is not in a lunar year ahead of the solar one (true of all years of the code from 20 on); C66_code: the code's own tables, dates of 20..9998, under libm"
 },
 "C67": {
  "note": "C67_ordered under Calendar and YearSeasons (increasing term tables that agree between years); C67_code: the code's own tables, 22..9994, under libm"
 },
 "C68": {
  "note": "C68_refuted: Buddhist 560-1-1 (AD 15-12-30) gives 558; C68_foto_real for the code's own tables of the years 242..616; C68_code: Buddhist years 566..10541 of the code's own tables, under libm"
 },
 "C76": {
  "note": "under Calendar, civil and YearSeasons; C76_refuted: 2024-09-07 11:05 and 2024-01-03 12:00 are not found; C76_code: the code's own tables, 22..9994, under libm"
 },
 "C34": {
  "note": "threads interleave line by line; asynchronous exceptions are not modelled"
 },
 "C35": {
  "note": "C35_refuted: after any raising construction no later call returns; C35_case: year 10**400; C35_code: years 0..9999 of the code's own constructor, which never raises, under libm"
 },
 "C36": {
  "note": "C36_refuted: a list from getMonths is shared with the cache"
 },
 "C77": {
  "note": "C77_daily for an increasing term table that fits the year (good_terms), C77_new_year for tables that agree between years (Seasons); C77_code: the code's own tables, 20..9998, under libm"
 },
 "C79": {
  "note": "C79_daily under Calendar; C79_code: the code's own tables, 21..9996, under libm"
 },
 "C80": {
  "note": "under Calendar; C80_code: the code's own tables, 21..9997, under libm"
 },
 "C81": {
  "note": "C81_refuted: truncation before -2696"
 },
 "C82": {
  "note": "C82_refuted: the pillar of a thirteenth month is repeated; indices hold for any sky"
 },
 "C83": {
  "note": "under Calendar and good_terms; C83_code: the code's own tables, dates of 20..9998, under libm"
 },
 "C84": {
  "note": "C84_six_per_month under Calendar; C84_code: the code's own tables, 21..9997, under libm"
 },
 "C57": {
  "note": "C57_code: the code's own tables, dates of 20..9998, under libm"
 },
 "C58": {
  "note": "C58_code: the code's own tables, dates of 20..9998, under libm"
 },
 "C59": {
  "note": "C59_shared: 0..9999; C59_dates: 1..9998; C59_code: the terms of a date of 20..9998, under libm"
 },
 "C55": {
  "note": "C55_code: the code's own tables, dates of 20..9998, under libm"
 },
 "C56": {
  "note": "C56_code: the code's own tables, dates of 20..9998, under libm"
 },
 "C72": {
  "note": "C72_code: the code's own tables, dates of 20..9998, under libm"
 },
 "C53": {
  "note": "C53_code: dates of 20..9998 (day and hour pillars), under libm"
 },
 "C88": {
  "note": "years 1646..9998 (part 2: tables of 1647..9997; 夏至 up to 6611), under libm; C88_refuted shows the three exceptions and C88_summer_refuted the year 6612"
 },
 "C89": {
  "note": "C89_first_period_refuted shows the second defect; the first is part of tai_sui_year"
 },
 "C90": {
  "note": "for every constructible Lunar"
 },
 "C91": {
  "note": "C91_backward_refuted and C91_gap_refuted show the two defects"
 },
 "C92": {
  "note": "C92_every_month_refuted shows the first defect; the others are the lists left_out and added and the exception in C92_every_month"
 },
 "C93": {
  "note": "C93_week_refuted shows the defect; C93_lunar_full: dates of 20..9997, under libm"
 },
 "C94": {
  "note": "for every constructible Lunar"
 },
 "C95": {
  "note": "C95_refuted shows the defect, C95_subtract says exactly when the counts differ; C95_lunar under libm"
 },
 "C96": {
  "note": "LunarState.v is a heap of Lunar and EightChar objects; C96_day under libm for dates of 20..9998"
 },
 "C97": {
  "note": "C97_refuted shows the defect"
 },
 "C98": {
  "note": "SunInv.v compares the speed ev with the derivative of the whole series; the difference of the time scales is that of dtT, whose accuracy is not claimed"
 },
 "C99": {
  "note": "MoonEdge.v; C99_new_moon holds of every month with the day given by moon_day (1 but for the 26 months), C99_refuted shows the 26; that the days are historically or astronomically right beyond the code's own series and dtT is not claimed"
 },
 "C100": {
  "note": "C100_day_30_refuted and C100_october_1582 show the exceptions; month 12 of 236 has 28 days"
 }
}