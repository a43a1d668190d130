{"id": "C01", "title": "Solar.next(n) moves exactly n civil days", "statement": "For a Solar holding an existing civil date, next(n) returns the date reached by stepping n times to the following (n<0: preceding) civil day of the Julian/Gregorian calendar with the 4->15 October 1582 jump; the time of day is unchanged and no exception is raised.", "quantifier": "every existing date of every integer year, every valid time of day, every integer n", "why_tests_cant": "infinitely many (date, n) pairs; loops over month lengths in both directions, leap rules and the 1582 gap", "anchors": ["lunar_python/Solar.py:nextDay", "lunar_python/Solar.py:next", "lunar_python/util/SolarUtil.py:getDaysOfMonth", "lunar_python/util/SolarUtil.py:isLeapYear"]}
{"id": "C02", "title": "Solar.next is an action of the integers", "statement": "next(a) followed by next(b) equals next(a+b); next(0) is the identity; next(n) followed by next(-n) gives back the same Solar.", "quantifier": "all existing dates, all integers a and b", "why_tests_cant": "two unbounded integers; forward and backward loops are different code", "anchors": ["lunar_python/Solar.py:nextDay", "lunar_python/Solar.py:next"]}
{"id": "C03", "title": "Solar.subtract is the civil day distance", "statement": "a.subtract(b) is the unique n such that b.next(n) has a's date; it is antisymmetric and additive, and ignores the time of day.", "quantifier": "all pairs (triples) of existing dates of any year", "why_tests_cant": "pairs of dates arbitrarily far apart; summing loop over years", "anchors": ["lunar_python/Solar.py:subtract", "lunar_python/util/SolarUtil.py:getDaysBetween", "lunar_python/util/SolarUtil.py:getDaysInYear", "lunar_python/util/SolarUtil.py:getDaysOfYear"]}
{"id": "C04", "title": "isBefore / isAfter are the strict timeline order", "statement": "Exactly one of a.isBefore(b), a.isAfter(b), 'all six fields equal' holds, isAfter is the converse of isBefore, both are transitive, and isBefore agrees with (day distance, second of day) order.", "quantifier": "all pairs and triples of existing date-times", "why_tests_cant": "six-level lexicographic comparison over unbounded domain", "anchors": ["lunar_python/Solar.py:isBefore", "lunar_python/Solar.py:isAfter"]}
{"id": "C05", "title": "subtractMinute counts whole clock minutes between two instants", "statement": "a.subtractMinute(b) = 1440*(a.subtract(b)) + minute-of-day(a) - minute-of-day(b), for either order of a and b.", "quantifier": "all pairs of existing date-times", "why_tests_cant": "borrow logic for every combination of day and minute differences", "anchors": ["lunar_python/Solar.py:subtractMinute"]}
{"id": "C06", "title": "Day, month and year lengths of the calendar", "statement": "getDaysOfMonth(y,m) is the number of existing days in the month, getDaysOfYear(y) their sum (355 for 1582), getDaysInYear(y,m,d) the ordinal of the date in its year, and it raises exactly for the ten skipped dates.", "quantifier": "every year, month and day", "why_tests_cant": "unbounded years, 1582 exception", "anchors": ["lunar_python/util/SolarUtil.py:getDaysOfMonth", "lunar_python/util/SolarUtil.py:getDaysOfYear", "lunar_python/util/SolarUtil.py:getDaysInYear", "lunar_python/util/SolarUtil.py:isLeapYear"]}
{"id": "C07", "title": "Julian Day of a date is consistent with the civil day count", "statement": "In binary64 arithmetic, getJulianDay at noon is exactly the integer Julian Day Number of the date (2451545 for 2000-01-01), consecutive days differ by exactly 1.", "quantifier": "every existing date of the years -4712..1000000", "why_tests_cant": "floating point formula with truncations over millions of dates", "anchors": ["lunar_python/Solar.py:getJulianDay"]}
{"id": "C08", "title": "Julian Day is strictly monotone in time", "statement": "If a is before b then a.getJulianDay() < b.getJulianDay() as binary64 numbers (one second is never lost to rounding).", "quantifier": "all pairs of existing date-times in the supported year range", "why_tests_cant": "rounding errors over ~4.7e11 instants", "anchors": ["lunar_python/Solar.py:getJulianDay"]}
{"id": "C09", "title": "fromJulianDay inverts getJulianDay", "statement": "Solar.fromJulianDay(s.getJulianDay()) has the same six fields as s.", "quantifier": "every existing date-time of the supported year range, to the second", "why_tests_cant": "~4.7e11 instants, floating point rounding and 60-second carries", "anchors": ["lunar_python/Solar.py:fromJulianDay", "lunar_python/Solar.py:getJulianDay"]}
{"id": "C10", "title": "fromJulianDay on whole Julian days", "statement": "For an integer (or integer - 0.5) Julian Day in range, fromJulianDay returns the existing civil date with that day number (at 12:00:00, resp. 00:00:00).", "quantifier": "every integer day number in range", "why_tests_cant": "float divisions 36524.25, 365.25, 30.601 must truncate right for each day", "anchors": ["lunar_python/Solar.py:fromJulianDay"]}
{"id": "C11", "title": "fromJulianDay returns the nearest existing date-time, except just before midnight", "statement": "For every Julian Day in range outside the last half second of a civil day, fromJulianDay returns, without raising, the existing date-time whose instant is nearest (within 0.51 s). In that last half second it returns day+1 of the same month: hence the naive claim 'always an existing date' is false (2000-01-31 23:59:59.9 gives day 32; the end of 1582-10-04 raises).", "quantifier": "every binary64 Julian Day in range", "why_tests_cant": "continuum of inputs; failure set has measure ~1e-6", "anchors": ["lunar_python/Solar.py:fromJulianDay"]}
{"id": "C12", "title": "getWeek is the seven day cycle", "statement": "getWeek is in 0..6, is 6 for 2000-01-01, advances by one modulo 7 with every civil day (also across October 1582) and does not depend on the time of day.", "quantifier": "every existing date-time in the supported year range", "why_tests_cant": "floating point plus cyclic behaviour for all dates", "anchors": ["lunar_python/Solar.py:getWeek", "lunar_python/Solar.py:getJulianDay"]}
{"id": "C13", "title": "What the Solar constructor accepts", "statement": "Every existing date-time is accepted with its fields kept. Solar(y,m,d,h,mi,s) returns iff 1<=m<=12, d>=1, the date is not one of the ten skipped days and the time is valid; in particular the claim 'only existing dates are accepted' is false (the upper bound of the day is never checked, 2023-02-30 is accepted).", "quantifier": "all integer sextuples", "why_tests_cant": "unbounded inputs", "anchors": ["lunar_python/Solar.py:__init__", "lunar_python/Solar.py:fromYmdHms", "lunar_python/Solar.py:fromYmd"]}
{"id": "C14", "title": "nextMonth clamps to the month end", "statement": "nextMonth(n) lands in the month n months away, keeps the day number unless that month is shorter (then the last day) or the day was dropped in October 1582 (then ten days later), keeps the time, and always returns an existing date.", "quantifier": "all existing date-times, all integers n", "why_tests_cant": "unbounded n, float division in SolarMonth.next, clamping and 1582", "anchors": ["lunar_python/Solar.py:nextMonth", "lunar_python/SolarMonth.py:next"]}
{"id": "C15", "title": "nextYear keeps month and day", "statement": "nextYear(n) returns year+n with the same month and day, except 29 February in a common year becomes 28 and skipped 1582 days move ten days; the result exists.", "quantifier": "all existing date-times, all n", "why_tests_cant": "unbounded n", "anchors": ["lunar_python/Solar.py:nextYear"]}
{"id": "C16", "title": "nextHour moves exactly n hours", "statement": "nextHour(n) is the instant n hours later (n<0 earlier): 24*days+hour increases by n, minutes and seconds stay.", "quantifier": "all existing date-times, all n with |n| within exact float division", "why_tests_cant": "sign handling of div/mod, unbounded n", "anchors": ["lunar_python/Solar.py:nextHour"]}
{"id": "C17", "title": "Text order is time order", "statement": "For years 0..9999, comparing toYmd()/toYmdHms() strings is the same as comparing dates, and the text determines the date. Outside that range this is false (9999 vs 10000).", "quantifier": "all pairs of date-times", "why_tests_cant": "pairs of dates; the library relies on it for every pillar computation", "anchors": ["lunar_python/Solar.py:toYmd", "lunar_python/Solar.py:toYmdHms"]}
{"id": "C18", "title": "SolarMonth.next is exact month arithmetic", "statement": "12*year+month of next(n) equals 12*year+month+n with month in 1..12; next is additive and invertible.", "quantifier": "all months, all n within exact float division", "why_tests_cant": "unbounded n and sign cases", "anchors": ["lunar_python/SolarMonth.py:next"]}
{"id": "C19", "title": "Months, seasons, half years and years partition", "statement": "SolarYear.getMonths, SolarHalfYear.getMonths and SolarSeason.getMonths list exactly the months of the unit in order, getIndex is the right unit, every month lies in exactly one unit, and next moves by whole units.", "quantifier": "all years, months and shifts", "why_tests_cant": "unbounded", "anchors": ["lunar_python/SolarYear.py:getMonths", "lunar_python/SolarSeason.py:getMonths", "lunar_python/SolarHalfYear.py:getMonths"]}
{"id": "C20", "title": "SolarMonth.getDays lists exactly the days of the month", "statement": "getDays returns each existing date of the month once, in order, and nothing else (21 entries for October 1582).", "quantifier": "every year and month", "why_tests_cant": "unbounded years", "anchors": ["lunar_python/SolarMonth.py:getDays"]}
{"id": "C21", "title": "SolarWeek.getDays is the week around the date", "statement": "getDays returns seven consecutive civil days, the first on weekday 'start', containing the week's own date; getDaysInMonth is its restriction to the month.", "quantifier": "every existing date in range and every start in 0..6", "why_tests_cant": "date x start combinations, month/year/1582 crossings", "anchors": ["lunar_python/SolarWeek.py:getDays", "lunar_python/SolarWeek.py:getFirstDay", "lunar_python/SolarWeek.py:getDaysInMonth"]}
{"id": "C22", "title": "SolarWeek.getIndex / getIndexInYear number the weeks", "statement": "getIndex is 1 + the number of week starts after the first of the month up to the date, getIndexInYear the same for the year. Defect: getIndex is wrong for 15-31 October 1582, where it uses the raw day.", "quantifier": "every existing date in range and every start", "why_tests_cant": "as above", "anchors": ["lunar_python/SolarWeek.py:getIndex", "lunar_python/SolarWeek.py:getIndexInYear"]}
{"id": "C23", "title": "getWeeksOfMonth counts the weeks touching a month", "statement": "getWeeksOfMonth(y,m,start) equals the number of distinct weeks (starting on weekday 'start') that contain a day of the month, i.e. len(SolarMonth.getWeeks(start)), when the first of the month falls on a weekday >= start. Defect: otherwise it is exactly one less.", "quantifier": "every year, month, start", "why_tests_cant": "unbounded years", "anchors": ["lunar_python/util/SolarUtil.py:getWeeksOfMonth", "lunar_python/SolarMonth.py:getWeeks"]}
{"id": "C24", "title": "SolarMonth.getWeeks terminates and covers the month", "statement": "getWeeks(start) terminates and returns weeks whose days together contain every day of the month exactly once, in order. Defect: the last week object may carry a date of the next month, so its getDaysInMonth can list days of another month.", "quantifier": "every month in range, every start", "why_tests_cant": "termination of an open-ended loop", "anchors": ["lunar_python/SolarMonth.py:getWeeks"]}
{"id": "C25", "title": "Zodiac sign partition", "statement": "Every calendar day gets exactly one of the twelve signs, the signs cover consecutive day ranges with the documented boundaries, and the result does not depend on the year.", "quantifier": "every existing date", "why_tests_cant": "all dates", "anchors": ["lunar_python/Solar.py:getXingZuo"]}
{"id": "C26", "title": "Weekday festivals", "statement": "Solar.getFestivals contains Mother's Day exactly on the second Sunday of May, Father's Day on the third Sunday of June, Thanksgiving on the fourth Thursday of November, the safety day on the last Monday of March, etc.", "quantifier": "every existing date in range", "why_tests_cant": "nth-weekday arithmetic for all years", "anchors": ["lunar_python/Solar.py:getFestivals", "lunar_python/util/SolarUtil.py:WEEK_FESTIVAL"]}
{"id": "C27", "title": "next(n, only_work_day=True) counts working days", "statement": "The result is a working day (not weekend unless make-up, not holiday), exactly |n| working days were stepped over, and the loop terminates.", "quantifier": "every existing 4-digit-year date, every n, every holiday database state", "why_tests_cant": "loop guarded by mutable holiday data", "anchors": ["lunar_python/Solar.py:next", "lunar_python/util/HolidayUtil.py:getHoliday"]}
{"id": "C28", "title": "getHoliday finds exactly the record of the day", "statement": "For a year of four digits, getHoliday(y,m,d) (and the text forms) returns the first record whose day is y-m-d, and None iff there is none, despite the unaligned substring search. Defect: for years of other digit counts a record of another day can be returned (getHoliday(20,1,12) gives 2001-12-29).", "quantifier": "every well-formed holiday data string and every date", "why_tests_cant": "substring search may hit across record borders", "anchors": ["lunar_python/util/HolidayUtil.py:getHoliday", "lunar_python/util/HolidayUtil.py:__findForward"]}
{"id": "C29", "title": "getHolidays lists the year or month", "statement": "getHolidays(y) / getHolidays(y,m) return exactly the records of that year / month, in order, for every database whose records are in date order; the shipped data is.", "quantifier": "every year (and month)", "why_tests_cant": "contiguity assumption of the scan", "anchors": ["lunar_python/util/HolidayUtil.py:getHolidays", "lunar_python/util/HolidayUtil.py:__findHolidaysForward"]}
{"id": "C30", "title": "getHolidays after fix", "statement": "getHolidays(y) lists the first contiguous run of records of year y; after a fix() which corrects or removes existing days this is still every record of the year. Defect: days added by fix() are appended at the end and a year that already has records does not list them.", "quantifier": "every history of fix calls", "why_tests_cant": "histories", "anchors": ["lunar_python/util/HolidayUtil.py:fix", "lunar_python/util/HolidayUtil.py:getHolidays"]}
{"id": "C31", "title": "getHolidaysByTarget lists the records of one festival", "statement": "getHolidaysByTarget(y,m,d) returns the last contiguous run of records whose target day is y-m-d; on the shipped data this is every such record for every date except 1 October 2014, 2015 and 2017. Defect: for those three dates records are missing.", "quantifier": "every date", "why_tests_cant": "backward substring search", "anchors": ["lunar_python/util/HolidayUtil.py:getHolidaysByTarget", "lunar_python/util/HolidayUtil.py:__findBackward"]}
{"id": "C32", "title": "fix replaces, removes or appends one day and touches nothing else", "statement": "After fix(None, segment) the segment's day reads back as given (or as absent if tagged ~) and getHoliday of every other day is unchanged, provided the old text of the day's record occurs in the data only at record borders; every record of the shipped data satisfies this. Defects: without the proviso another day can be destroyed, and a record with a flag other than 0/1 cannot be removed.", "quantifier": "every well-formed database and segment", "why_tests_cant": "global string replace", "anchors": ["lunar_python/util/HolidayUtil.py:fix"]}
{"id": "C33", "title": "fix keeps the database well formed", "statement": "After any sequence of fix calls with well-formed segments the data still is a sequence of 18-character records; if within each call the days are distinct, one record per day remains. Defect: one call naming the same new day twice stores it twice.", "quantifier": "all histories of fix calls", "why_tests_cant": "unbounded histories", "anchors": ["lunar_python/util/HolidayUtil.py:fix"]}
{"id": "C34", "title": "LunarYear.fromYear is transparent to caching and threads", "statement": "For any number of threads calling fromYear in any interleaving, as long as callers do not change the lists of the objects they got, each call returns an object with the table LunarYear(y) would build, now and ever after, or raises what LunarYear(y) raises; two threads never build at the same time. Whatever callers do, the object has the year asked for.", "quantifier": "all schedules, all call histories", "why_tests_cant": "schedules", "anchors": ["lunar_python/LunarYear.py:fromYear"]}
{"id": "C35", "title": "fromYear never blocks for ever", "statement": "If no requested construction raises, no schedule deadlocks: k calls take at most 7k steps in all, some step is enabled as long as a call is open, and all open calls can complete. Defect: once one construction raises (e.g. year 10**400), the lock is never released and no later call ever returns.", "quantifier": "all schedules and failure points", "why_tests_cant": "schedules and crash points", "anchors": ["lunar_python/LunarYear.py:fromYear"]}
{"id": "C36", "title": "Cached year tables cannot be corrupted by callers", "statement": "Callers who use getMonthsInYear and the other accessors may do what they like with the lists they receive: every call of fromYear still returns the table LunarYear(y) would build. Defect: getMonths and getJieQiJulianDays hand out the cached lists themselves, so a caller who empties one empties the year for every later caller.", "quantifier": "all histories", "why_tests_cant": "histories with mutation", "anchors": ["lunar_python/LunarYear.py:getMonths", "lunar_python/LunarYear.py:fromYear"]}
{"id": "C37", "title": "The sexagenary cycle tables are right", "statement": "JIA_ZI[i] is the pair stem i mod 10, branch i mod 12; getJiaZiIndex inverts it and returns -1 for anything else; adjacent entries differ by one stem and one branch.", "quantifier": "every index and every string", "why_tests_cant": "all strings", "anchors": ["lunar_python/util/LunarUtil.py:JIA_ZI", "lunar_python/util/LunarUtil.py:getJiaZiIndex"]}
{"id": "C38", "title": "getXun / getXunKong", "statement": "For each sexagenary pair the xun is the 甲-headed pair of its decade and the empty branches are the two branches missing from that decade.", "quantifier": "every sexagenary pair", "why_tests_cant": "whole table against an arithmetic rule", "anchors": ["lunar_python/util/LunarUtil.py:getXunIndex", "lunar_python/util/LunarUtil.py:getXun", "lunar_python/util/LunarUtil.py:getXunKong"]}
{"id": "C39", "title": "Clock time to double hour", "statement": "getTimeZhiIndex(HH:MM) is ((hour+1)/2) mod 12 for every valid time, and every string gives an index 0..11. Defect: the documented \"otherwise 0\" does not hold; strings that are no HH:MM time can give other indices (\"01:99\" gives 1).", "quantifier": "every valid HH:MM (and arbitrary strings for the range)", "why_tests_cant": "string comparison logic", "anchors": ["lunar_python/util/LunarUtil.py:getTimeZhiIndex", "lunar_python/util/LunarUtil.py:convertTime"]}
{"id": "C40", "title": "Day and hour almanac tables decode totally", "statement": "getDayYi/getDayJi/getTimeYi/getTimeJi/getDayJiShen/getDayXiongSha never raise for valid pillars and months, and return what an independent parse of the packed table into records gives.", "quantifier": "all 60x60 pillar pairs, all months", "why_tests_cant": "packed hex strings scanned by substring search", "anchors": ["lunar_python/util/LunarUtil.py:getDayYi", "lunar_python/util/LunarUtil.py:getDayJi", "lunar_python/util/LunarUtil.py:getTimeYi", "lunar_python/util/LunarUtil.py:getTimeJi", "lunar_python/util/LunarUtil.py:getDayJiShen", "lunar_python/util/LunarUtil.py:getDayXiongSha"]}
{"id": "C41", "title": "Ten gods table obeys the five element rule", "statement": "SHI_SHEN of a stem pair is determined by the generation/overcoming relation of their elements and equality of polarity; hidden stems give defined results.", "quantifier": "all stem pairs", "why_tests_cant": "table vs rule", "anchors": ["lunar_python/util/LunarUtil.py:SHI_SHEN", "lunar_python/EightChar.py:getYearShiShenGan"]}
{"id": "C42", "title": "28 lodges advance by one each day", "statement": "Lunar.getXiu is defined for every date and the lodge of the next civil day is the next of the 28 lodges.", "quantifier": "every existing date in range", "why_tests_cant": "product table (branch x weekday) versus a 28-cycle", "anchors": ["lunar_python/Lunar.py:getXiu", "lunar_python/util/LunarUtil.py:XIU"]}
{"id": "C43", "title": "Every table lookup is defined", "statement": "For every Lunar, LunarTime, LunarMonth, LunarYear and EightChar the library can build, each name accessor (pillars, lodges, positions and their descriptions, spirits, nayin, stars, ...) returns a non-empty table entry: none raises KeyError, IndexError or TypeError and none returns None.", "quantifier": "every constructible object; 117 text accessors of Lunar, the yi/ji/shen-sha lists, and those of the other classes", "why_tests_cant": "hundreds of accessors x values", "anchors": ["lunar_python/util/LunarUtil.py:NAYIN", "lunar_python/util/LunarUtil.py:POSITION_DESC", "lunar_python/util/LunarUtil.py:SHA"]}
{"id": "C44", "title": "LunarYear month table shape", "statement": "compute() yields 15 months numbered consecutively (11,12,1,2,... with the leap month repeating the previous number negatively; one number ahead in the reform years), consecutive first days, and years that increase at each new first month; there is at most one leap month, and there is one exactly when the table finds 13 months between two winter solstices. LunarYear.next(n) is the table of the year n later, and steps add up.", "quantifier": "every year and every sky (new-moon and solar-term function); numbering between months of the same civil or reform usage", "why_tests_cant": "any astronomy output", "anchors": ["lunar_python/LunarYear.py:compute"]}
{"id": "C45", "title": "Lunar months tile the time line", "statement": "The months returned by LunarYear.getMonths are contiguous, each 29 or 30 days long, and cover the whole solar year, so each day lies in exactly one of them. Defect: month 12 of AD 236 has 28 days.", "quantifier": "lunar years 0..9999, any C library whose sin and cos are within 2^-40 of the true value for arguments up to 2^23 (up to 616 whatever sin and cos return)", "why_tests_cant": "floating point astronomy for hundreds of years", "anchors": ["lunar_python/LunarYear.py:compute", "lunar_python/util/ShouXingUtil.py:calcShuo"]}
{"id": "C46", "title": "Neighbouring year tables agree", "statement": "Months of LunarYear(y) and LunarYear(y+1) that share a day or share year and number have the same year, number, leap flag, first day and length; the tables form one calendar. Defects: AD 18 and 19 disagree about a month (19-2 or leap 19-1); the index of a month (hence LunarMonth.getZhi and getGanZhi) depends on the table it comes from.", "quantifier": "y = 0..9998 except 18, any C library whose sin and cos are within 2^-40 of the true value for arguments up to 2^23 (up to 615 whatever sin and cos return)", "why_tests_cant": "two independent computations", "anchors": ["lunar_python/LunarYear.py:compute"]}
{"id": "C47", "title": "Solar -> Lunar -> Solar round trip", "statement": "s.getLunar().getSolar() has the same six fields as s.", "quantifier": "every existing date-time of 20..9998 for any C library whose sin and cos are within 2^-40 of the true value for arguments up to 2^23; more generally of every range of years whose tables form a calendar", "why_tests_cant": "3.65 million days x 86400 seconds", "anchors": ["lunar_python/Lunar.py:fromSolar", "lunar_python/Lunar.py:__init__"]}
{"id": "C48", "title": "Lunar -> Solar -> Lunar round trip", "statement": "Lunar(y,m,d,...).getSolar().getLunar() has the same lunar year, month, day and time.", "quantifier": "every constructible lunar date of 21..9997 for any C library whose sin and cos are within 2^-40 of the true value for arguments up to 2^23; more generally of every range of years whose tables form a calendar", "why_tests_cant": "millions of dates and leap months", "anchors": ["lunar_python/Lunar.py:fromSolar", "lunar_python/Lunar.py:__init__"]}
{"id": "C49", "title": "Lunar constructor accepts exactly existing lunar dates", "statement": "Lunar(y,m,d,h,mi,s) returns iff the year has that month (negative = leap), 1<=d<=days of the month and the time is valid.", "quantifier": "all integers m, d, h, mi, s and the years 20..9998 for any C library whose sin and cos are within 2^-40 of the true value for arguments up to 2^23; more generally every range of years whose tables form a calendar", "why_tests_cant": "unbounded inputs", "anchors": ["lunar_python/Lunar.py:__init__"]}
{"id": "C50", "title": "Lunar.next follows the civil day", "statement": "next(n) is the lunar date of the solar date n days later; it is additive and invertible and within a month increases the day by one.", "quantifier": "all dates and n that stay in 20..9998 for any C library whose sin and cos are within 2^-40 of the true value for arguments up to 2^23; more generally in every range of years whose tables form a calendar", "why_tests_cant": "unbounded n", "anchors": ["lunar_python/Lunar.py:next"]}
{"id": "C51", "title": "LunarMonth.next walks the month sequence", "statement": "next(n) is the n-th following (preceding) lunar month including leap months; next(a).next(b)=next(a+b). Defect: across AD 18/19, where the tables disagree, LunarMonth(18,12).next(2) skips the leap month.", "quantifier": "all months and n that stay in 19..9999 for any C library whose sin and cos are within 2^-40 of the true value for arguments up to 2^23; more generally in every range of years whose tables form a calendar", "why_tests_cant": "loops over year tables in both directions", "anchors": ["lunar_python/LunarMonth.py:next"]}
{"id": "C52", "title": "Leap month and day count of a lunar year", "statement": "Every lunar year except AD 8 and AD 237 has the months 1..12, or also exactly one leap month, the one reported by getLeapMonth; of every lunar year getDayCount is the sum of its months and the distance to the next new year. From AD 20 on month 1 begins in the first 91 days of the solar year. Defect: AD 8 has no month 12, AD 237 no month 3 (calendar reforms).", "quantifier": "years 0..9998 for any C library whose sin and cos are within 2^-40 of the true value for arguments up to 2^23; more generally every year from 241 on of every range of years whose tables form a calendar", "why_tests_cant": "thousands of years", "anchors": ["lunar_python/LunarYear.py:getLeapMonth", "lunar_python/LunarYear.py:getDayCount", "lunar_python/LunarYear.py:getMonthsInYear"]}
{"id": "C53", "title": "Day pillar is the 60 day cycle", "statement": "The day stem/branch indices are the day number modulo 10/12, so getDayInGanZhi advances by one in the sexagenary cycle each day; the 'Exact' variant differs exactly from 23:00 to 23:59.", "quantifier": "every date-time in range", "why_tests_cant": "all dates", "anchors": ["lunar_python/Lunar.py:__computeDay"]}
{"id": "C54", "title": "Hour pillar follows the five rats rule", "statement": "The hour branch is the double hour and the hour stem is (2*day stem + hour branch) mod 10 using the day that starts at 23:00; the hour pillar is always one of the 60 pairs.", "quantifier": "every date-time", "why_tests_cant": "all inputs", "anchors": ["lunar_python/Lunar.py:__computeTime", "lunar_python/LunarTime.py:__init__"]}
{"id": "C55", "title": "Year pillar changes at 立春", "statement": "Where the lunar year is the solar year Y or the one before, the exact year pillar is the pair number Y-4 from the second of 立春 on and Y-5 before; ByLiChun does the same by the day; getYearInGanZhi is the pair of the lunar year. Defect: where the lunar year is ahead of the solar year (the last days of AD 15 and AD 18) both variants give the pillar of the lunar year although its 立春 has not come.", "quantifier": "every date-time of 20..9998 for any C library whose sin and cos are within 2^-40 of the true value for arguments up to 2^23; more generally every date-time of 0..9999 whose table has 立春 in the solar year", "why_tests_cant": "string comparisons against astronomical instants", "anchors": ["lunar_python/Lunar.py:__computeYear"]}
{"id": "C56", "title": "Month pillar changes at each 节", "statement": "getMonthInGanZhiExact is the pair number 12(Y-4)+j from the second of the j-th 节 (counted from the 大雪 before the year) up to the next, getMonthInGanZhi does the same by the day, so the branch advances exactly at the 节 and the stem follows the five tigers rule.", "quantifier": "every date-time of 20..9998 for any C library whose sin and cos are within 2^-40 of the true value for arguments up to 2^23; more generally every date-time whose solar-term table is increasing with 立春 in the solar year and whose lunar year is the solar year or the one before", "why_tests_cant": "string comparisons against astronomical instants", "anchors": ["lunar_python/Lunar.py:__computeMonth"]}
{"id": "C57", "title": "Nearest solar term queries", "statement": "getPrev*/getNext* return the latest term not after, resp. the earliest term strictly after the moment among the table, with the right name and kind; never None in range.", "quantifier": "every date-time of 20..9998 for any C library whose sin and cos are within 2^-40 of the true value for arguments up to 2^23, all three kinds of terms, both whole_day modes; more generally every date-time whose solar-term table is increasing and covers its solar year", "why_tests_cant": "scan over table with string comparisons", "anchors": ["lunar_python/Lunar.py:__getNearJieQi", "lunar_python/Lunar.py:getPrevJieQi", "lunar_python/Lunar.py:getNextJieQi"]}
{"id": "C58", "title": "Solar term of the day", "statement": "getJie/getQi/getJieQi/getCurrentJieQi agree: a name is reported iff some term instant falls on the civil day, by the queries of the kind of that term; getJieQi is getJie or else getQi. Defect: getCurrentJieQi carries the moment asked about as its Solar where getCurrentJie and getCurrentQi carry the instant of the term.", "quantifier": "every date of 20..9998 for any C library whose sin and cos are within 2^-40 of the true value for arguments up to 2^23; more generally every date whose solar-term table is increasing", "why_tests_cant": "all dates", "anchors": ["lunar_python/Lunar.py:getJie", "lunar_python/Lunar.py:getQi", "lunar_python/Lunar.py:getJieQi"]}
{"id": "C59", "title": "Solar terms table is increasing and complete", "statement": "For each year the 31 listed solar term instants are strictly increasing, each more than 14 and less than 16.5 days before the next; computing them and converting them to dates never raises; 立春 falls in the solar year. The tables of neighbouring years from 0 to 9999 give the same instants for the seven terms they share; in 1..9998 the dates exist, increase and are 14 to 17 days apart; in 1..523 and 1583..4039 they fall two to each civil month (in the other years each falls in that month or the one before).", "quantifier": "years 0..9999, any C library whose sin and cos are within 2^-40 of the true value for arguments up to 2^23", "why_tests_cant": "floating point astronomy with thousands of series terms, library dependent", "anchors": ["lunar_python/LunarYear.py:getJieQiJulianDays"]}
{"id": "C60", "title": "数九", "statement": "On the n-th day (from 0) after the latest winter solstice day, getShuJiu is the (n/9+1)-th nine with day n%9+1 when n < 81, and None from n = 81 on.", "quantifier": "every date of 20..9998 for any C library whose sin and cos are within 2^-40 of the true value for arguments up to 2^23; more generally whenever the solar-term table is increasing", "why_tests_cant": "two solstices and year borders", "anchors": ["lunar_python/Lunar.py:getShuJiu"]}
{"id": "C61", "title": "三伏", "statement": "getFu is non-None exactly from the third 庚 day on/after the summer solstice for 30 or 40 days: 10 初伏, 10 or 20 中伏, 10 末伏 (末伏 begins with the first 庚 day on/after 立秋).", "quantifier": "every date of 20..9998 for any C library whose sin and cos are within 2^-40 of the true value for arguments up to 2^23; more generally whenever the solar-term table is increasing", "why_tests_cant": "depends on stems and two terms", "anchors": ["lunar_python/Lunar.py:getFu"]}
{"id": "C62", "title": "Nine star indices are valid and cyclic", "statement": "Year, month, day and hour nine stars are always one of nine; the year star steps back by one each year and the month star by one each month; the day star counts forwards from the 甲子 day nearest the winter solstice and backwards from the one nearest the summer solstice; the hour star follows the branch of the day and the half of the year. Defect: LunarTime.getNineStar raises TypeError on every input.", "quantifier": "every date-time of 21..9998 for any C library whose sin and cos are within 2^-40 of the true value for arguments up to 2^23", "why_tests_cant": "all inputs", "anchors": ["lunar_python/Lunar.py:getYearNineStar", "lunar_python/Lunar.py:getMonthNineStar", "lunar_python/Lunar.py:getDayNineStar", "lunar_python/Lunar.py:getTimeNineStar", "lunar_python/LunarTime.py:getNineStar"]}
{"id": "C63", "title": "EightChar derived pillars are sexagenary pairs", "statement": "胎元, 胎息, 命宫 and 身宫 are always one of the 60 pairs (so their 纳音 is defined) and are those of the traditional rules: one stem and three branches after the month; the combining stem and branch of the day; the palace completing month and hour to 14 or 26 and the palace counted from the month by the hour, with the five-tigers stem of the year. 地势 is the stage of the day stem, yang stems forwards and yin stems backwards from their 长生 branch.", "quantifier": "all reachable pillars", "why_tests_cant": "all combinations", "anchors": ["lunar_python/EightChar.py:getTaiYuan", "lunar_python/EightChar.py:getMingGong", "lunar_python/EightChar.py:getShenGong", "lunar_python/EightChar.py:getTaiXi"]}
{"id": "C64", "title": "Start of luck (起运) arithmetic", "statement": "getYun runs forwards to the first 节 after birth for men of yang and women of yin years, otherwise backwards to the last 节 not after it. Sect 2 splits the minutes between birth and that 节 as 4320 per year, 360 per month, 12 per day, 1 per 2 hours exactly; the other sects split the double hours between them as 36 per year, 3 per month, 1 per 10 days; months are 0..11, days 0..29, all non-negative.", "quantifier": "all birth moments of 20..9998 for any C library whose sin and cos are within 2^-40 of the true value for arguments up to 2^23, both genders and sects; more generally whenever the solar-term table is increasing", "why_tests_cant": "all inputs", "anchors": ["lunar_python/eightchar/Yun.py:__compute_start"]}
{"id": "C65", "title": "DaYun decades are consecutive", "statement": "getDaYun(n) periods tile the years from birth on without gap or overlap, ages match years, and pillars step by one from the month pillar. Defect: the pillar raises IndexError once the index exceeds the month pillar's distance to the second wrap (forwards from index 120-b, backwards beyond 120+b, for month pillar number b).", "quantifier": "all births of 20..9998 for any C library whose sin and cos are within 2^-40 of the true value for arguments up to 2^23, all n", "why_tests_cant": "unbounded n", "anchors": ["lunar_python/eightchar/DaYun.py:getGanZhi", "lunar_python/eightchar/Yun.py:getDaYun"]}
{"id": "C66", "title": "LiuNian, XiaoYun and LiuYue pillars", "statement": "Yearly luck pillars are the sexagenary pairs of the calendar years, minor luck steps by one per year of age, monthly luck follows the five tigers rule, its months being named 正 to 腊.", "quantifier": "all births of 20..9998 for any C library whose sin and cos are within 2^-40 of the true value for arguments up to 2^23, decades and indices", "why_tests_cant": "all inputs", "anchors": ["lunar_python/eightchar/LiuNian.py:getGanZhi", "lunar_python/eightchar/XiaoYun.py:getGanZhi", "lunar_python/eightchar/LiuYue.py:getGanZhi"]}
{"id": "C67", "title": "fromBaZi is sound", "statement": "Every Solar returned by Solar.fromBaZi has exactly the four requested pillars under the requested sect. For any four sexagenary pairs and any base year the search never raises, the results are existing moments, strictly increasing in time, and none lies before the base year.", "quantifier": "all four-pillar inputs and sects; no exception and the order for base years from 22 on and end years up to 9994 for any C library whose sin and cos are within 2^-40 of the true value for arguments up to 2^23", "why_tests_cant": "search over years", "anchors": ["lunar_python/Solar.py:fromBaZi"]}
{"id": "C68", "title": "Buddhist and Taoist years", "statement": "Foto.fromYmd(y,...).getYear()=y and Tao.fromYmd(y,...).getYear()=y for every lunar year whose months do not begin before January 1 of the civil year. Defect: where the lunar year is ahead of the solar year (the last days of AD 15 and AD 18) Foto.getYear is two less than the year asked for.", "quantifier": "all constructible dates in range", "why_tests_cant": "year border handling", "anchors": ["lunar_python/Foto.py:getYear", "lunar_python/Tao.py:getYear"]}
{"id": "C69", "title": "除夕 is the last day of the lunar year", "statement": "Lunar.getFestivals contains 除夕 exactly on the last day of a month 12 of 29 or 30 days that is followed by another lunar year; in every other year of 21..9996 than AD 236 that is the last day of the lunar year. Defect: it is missing on the last day of AD 236, whose month 12 has 28 days.", "quantifier": "every lunar date of 21..9996 for any C library whose sin and cos are within 2^-40 of the true value for arguments up to 2^23; more generally of every range of years whose tables form a calendar", "why_tests_cant": "month length and leap twelfth months", "anchors": ["lunar_python/Lunar.py:getFestivals"]}
{"id": "C70", "title": "Day Tai Sui direction follows the table of the sixty days", "statement": "getDayPositionTaiSui gives 震,离,中,兑,坎 for the days 甲子-戊辰.., 丙子.., 戊子.., 庚子.., 壬子.. of each group and the direction of the year on the other days. Defect: the 己 days 己巳, 己卯, 己丑 of the groups are not recognised (the literal contains 已) and get the direction of the year.", "quantifier": "all 60 day pillars", "why_tests_cant": "table typo", "anchors": ["lunar_python/Lunar.py:__getDayPositionTaiSui"]}
{"id": "C71", "title": "候 and 物候 of a day", "statement": "getHou/getWuHou never raise and change every five days from the previous term, capped at the third.", "quantifier": "every date of 20..9998 for any C library whose sin and cos are within 2^-40 of the true value for arguments up to 2^23; more generally whenever the solar-term table is increasing", "why_tests_cant": "all dates", "anchors": ["lunar_python/Lunar.py:getHou", "lunar_python/Lunar.py:getWuHou"]}
{"id": "C72", "title": "Double-hours of a day", "statement": "getTimes returns 13 periods covering 00:00-23:59 of the day without gap, with the branches in order and consecutive pillars; getMinHm/getMaxHm bracket the time and every minute between them has its branch; the pillar of getTime is getTimeInGanZhi.", "quantifier": "every date-time of 20..9998 for any C library whose sin and cos are within 2^-40 of the true value for arguments up to 2^23", "why_tests_cant": "all inputs", "anchors": ["lunar_python/Lunar.py:getTimes", "lunar_python/LunarTime.py:getMinHm", "lunar_python/LunarTime.py:getMaxHm"]}
{"id": "C73", "title": "SolarWeek.next moves whole weeks", "statement": "next(n) without separate_month yields the week n weeks later: its date and its first day are exactly 7n civil days later and start is kept.", "quantifier": "every existing date, every start, every integer n", "why_tests_cant": "unbounded n, 1582 gap", "anchors": ["lunar_python/SolarWeek.py:next"]}
{"id": "C74", "title": "纳音 of the sixty pairs", "statement": "NAYIN is defined for exactly the 60 sexagenary pairs, the pairs 2k and 2k+1 share their 纳音, and its element is the one of the classical rule from stem and branch numbers.", "quantifier": "every sexagenary pair and every other string", "why_tests_cant": "completeness and a rule over the whole table", "anchors": ["lunar_python/util/LunarUtil.py:NAYIN"]}
{"id": "C75", "title": "Clash, harmony and 煞 tables", "statement": "CHONG pairs opposite branches, HE_ZHI_6 and HE_GAN_5 give the six/five harmonies, CHONG_GAN the stem four on, CHONG_GAN_TIE the stem five on for yang and three on for yin stems, and SHA the direction of the three-harmony group of the branch (申子辰 南, 巳酉丑 东, 寅午戌 北, 亥卯未 西).", "quantifier": "every stem and branch", "why_tests_cant": "rule over whole tables", "anchors": ["lunar_python/util/LunarUtil.py:CHONG", "lunar_python/util/LunarUtil.py:HE_ZHI_6", "lunar_python/util/LunarUtil.py:HE_GAN_5", "lunar_python/util/LunarUtil.py:CHONG_GAN", "lunar_python/util/LunarUtil.py:SHA"]}
{"id": "C76", "title": "fromBaZi finds every double hour again", "statement": "The four pillars of a moment on an even full hour (the middle of a double hour; under sect 2 also 23:00) lead Solar.fromBaZi back to that moment, whenever the 节 that began its month falls between the base year and the current year. Defect: a moment in a double hour that a 节 cuts before its middle is not found, and nothing is found in the days of the base year before its first 节.", "quantifier": "every such moment of 21..9994 for any C library whose sin and cos are within 2^-40 of the true value for arguments up to 2^23, every sect, every base year from 22 on", "why_tests_cant": "completeness of a search over all years", "anchors": ["lunar_python/Solar.py:fromBaZi"]}
{"id": "C77", "title": "Twelve day officers (建除十二神)", "statement": "getZhiXing is 建 on the days whose branch is that of the month and runs 除 满 平 定 执 破 危 成 收 开 闭 with the branches; from one day to the next it advances by one, except that on the day of a 节 the officer of the day before is repeated, also over the end of the year.", "quantifier": "every constructible Lunar; every pair of consecutive days of 20..9998 for any C library whose sin and cos are within 2^-40 of the true value for arguments up to 2^23; more generally of every year with an increasing term table", "why_tests_cant": "all days of all years; interaction of day cycle and solar months", "anchors": ["lunar_python/Lunar.py:getZhiXing"]}
{"id": "C78", "title": "Twelve spirits (天神) and their roads", "statement": "The spirit of a day is counted 青龙 明堂 天刑 朱雀 金匮 天德 白虎 玉堂 天牢 玄武 司命 勾陈 from the branch 子 in months 寅 and 申, 寅 in 卯 and 酉, 辰 in 辰 and 戌, 午 in 巳 and 亥, 申 in 子 and 午, 戌 in 丑 and 未; that of a double hour likewise from the branch of its day (beginning at 23:00). The six 黄道 spirits are 吉, the others 黑道 and 凶; Lunar and LunarTime agree.", "quantifier": "every constructible Lunar and LunarTime", "why_tests_cant": "all combinations of branches and a modular rule", "anchors": ["lunar_python/Lunar.py:getDayTianShen", "lunar_python/Lunar.py:getTimeTianShen", "lunar_python/Lunar.py:getDayTianShenType", "lunar_python/LunarTime.py:getTianShen"]}
{"id": "C79", "title": "Six labels (六曜) of the lunar days", "statement": "getLiuYao of the first day of month m, and of leap month m, is the m-th of 先胜 友引 先负 佛灭 大安 赤口 (cyclically); the next day has the next label, except that a new month starts with its own.", "quantifier": "every constructible Lunar; every day of 21..9996 for any C library whose sin and cos are within 2^-40 of the true value for arguments up to 2^23; more generally of every year of a calendar", "why_tests_cant": "all days", "anchors": ["lunar_python/Lunar.py:getLiuYao"]}
{"id": "C80", "title": "灶马头: the first days of a branch or stem in the year", "statement": "The sentences of the 灶马头 (by branch: getTouLiang and getCaoZi 子, getGengTian 丑, getHuaShou 卯, getZhiShui 辰, getTuoGu 午, getQiangMi and getKanCan 酉, getGongZhu 亥; by stem: getJiaTian 甲, getFenBing 丙, getDeJin 辛; both: getRenBing 寅丙, getRenChu 寅丁) carry the Chinese numeral of the lunar day on which the first day of their branch or stem falls in the first month: day n of month 1 bears that branch (stem), no earlier day of the month does, and n is at most 12 (10).", "quantifier": "every year of 21..9997 for any C library whose sin and cos are within 2^-40 of the true value for arguments up to 2^23; more generally every year of a calendar with a first month", "why_tests_cant": "all years; interplay of day cycle and new moons", "anchors": ["lunar_python/LunarYear.py:getTouLiang", "lunar_python/LunarYear.py:getGengTian", "lunar_python/LunarYear.py:getFenBing", "lunar_python/LunarYear.py:getDeJin"]}
{"id": "C81", "title": "三元九运 of a year", "statement": "getYuan changes every 60 and getYun every 20 years: year y is in 上元 中元 下元 according to floor((y-1864)/60) mod 3 and in period floor((y-1864)/20) mod 9 + 1, so 1864 starts 上元一运. Defect: the division truncates instead of flooring, so the years -2755..-2697 get 下元 where 中元 is due.", "quantifier": "every year -2696..2^51", "why_tests_cant": "period of 180 years, unbounded range", "anchors": ["lunar_python/LunarYear.py:getYuan", "lunar_python/LunarYear.py:getYun"]}
{"id": "C82", "title": "LunarMonth.getIndex and getGanZhi", "statement": "The i-th month of getMonthsInYear has index i, and its pillar is the one of the i-th month counted from 寅, continuing from year to year: the first month of year y+1 follows the twelfth of year y. Defect: the thirteenth month of a leap year has the same pillar as the first month of the next year.", "quantifier": "every year of every sky", "why_tests_cant": "all years; leap months", "anchors": ["lunar_python/LunarMonth.py:getIndex", "lunar_python/LunarMonth.py:getGanZhi", "lunar_python/LunarMonth.py:getGanIndex", "lunar_python/LunarMonth.py:getZhiIndex"]}
{"id": "C83", "title": "寒食 and the 社 days", "statement": "getOtherFestivals lists 寒食节 exactly on the day before 清明, 春社 (秋社) exactly on the 戊 day that falls 40 to 49 days after the day of 立春 (立秋), and otherwise exactly the names of OTHER_FESTIVAL for the lunar month and day.", "quantifier": "every date-time of 20..9998 for any C library whose sin and cos are within 2^-40 of the true value for arguments up to 2^23; more generally every constructible Lunar of a calendar with an increasing term table", "why_tests_cant": "all days of all years; interplay of terms and day cycle", "anchors": ["lunar_python/Lunar.py:getOtherFestivals"]}
{"id": "C84", "title": "Buddhist fast days and lodges", "statement": "Foto.isDayZhaiSix is true exactly on the days 8, 14, 15, 23 and the last two days of the month, so every month of 29 or 30 days has exactly six of them. FotoUtil.getXiu runs through the 27 lodges one a day and never raises for months 1..12 (a leap month like its month) and days 1..30; all tables keyed by lodge are defined for it.", "quantifier": "every constructible Lunar; every month and day", "why_tests_cant": "all months of all years", "anchors": ["lunar_python/Foto.py:isDayZhaiSix", "lunar_python/util/FotoUtil.py:getXiu", "lunar_python/Foto.py:getXiuLuck"]}
{"id": "C85", "title": "Taoist days", "statement": "isDayTianShe is true exactly on 戊寅 days in the months 寅卯辰, 甲午 in 巳午未, 戊申 in 申酉戌 and 甲子 in 亥子丑; isDayMingWu exactly on 戊 days; isDayAnWu exactly on days of the branch 未 戌 辰 寅 午 子 酉 申 巳 亥 卯 丑 in months 1..12; isDayWu on either; isDayBaHui exactly on 丙午 壬午 壬子 庚午 庚申 辛酉 甲辰 甲戌; isDayBaJie exactly on the four beginnings, the equinoxes and the solstices.", "quantifier": "every constructible Lunar", "why_tests_cant": "all combinations of pillars and months", "anchors": ["lunar_python/Tao.py:isDayTianShe", "lunar_python/Tao.py:isDayWu", "lunar_python/Tao.py:isDayBaHui", "lunar_python/Tao.py:isDayBaJie"]}
{"id": "C86", "title": "NineStar accessors", "statement": "All accessors of the nine NineStar objects return a text (getBaMenInQiMen is empty exactly for the fifth star, in the centre); the numbers fill the palaces of getPositionDesc as the magic square with 1 in the north and 3 in the east, every line of three adding up to fifteen, so that two palaces face each other exactly when their numbers add up to ten; getNumber is 一..九 in order and getColor is 白 exactly for 1, 6 and 8; clockwise from the north the palaces hold the gates 休生伤杜景死惊开 of getBaMenInQiMen, the first four 阳 and the others 阴, with the elements of the directions; getSongInTaiYi names its own star and no other, and a star lucky or unlucky by getTypeInTaiYi is so by getLuckInXuanKong; toString tells the star; every star handed out by Lunar, LunarYear and LunarMonth has an index 0..8, so that its accessors never raise.", "quantifier": "every star, every Lunar, every LunarYear", "why_tests_cant": "all stars of all objects", "anchors": ["lunar_python/NineStar.py:getNumber", "lunar_python/NineStar.py:getPositionDesc", "lunar_python/NineStar.py:toFullString"]}
{"id": "C87", "title": "Texts of lunar dates identify them", "statement": "toString of Lunar, Foto and Tao never raises, and two dates with the same text have the same year, month (and leap flag) and day; the year is written with one numeral per decimal digit, which read back give the year. Defect: for a negative year the minus sign appears as 十, so -5 is written 十五.", "quantifier": "every year, months 1..12 and leap months, days 1..30", "why_tests_cant": "injectivity over unbounded years", "anchors": ["lunar_python/Lunar.py:toString", "lunar_python/Lunar.py:getYearInChinese", "lunar_python/Foto.py:toString", "lunar_python/Tao.py:toString"]}
{"id": "C88", "title": "A leap month holds no 中气, and the months before it do", "statement": "For solar dates from 1646 to 9998 the lunar calendar and the solar terms shown for the same dates obey 无中置闰. (1) On a day of a leap month (getMonth() < 0) getQi() is '' with exactly three exceptions: 春分 on day 1 of the leap month 2 of 1651, 秋分 on day 29 of the leap month 7 of 1661 and 谷雨 on day 1 of the leap month 3 of 1727, where the months follow the historical calendar and the terms the computed Sun; so from 1728 on never. (2) Every month that precedes a leap month in the table of a year, from month 11 of the year before on, has a day whose getQi() is not '', except month 2 of 1651 and month 3 of 1727. (3) The day whose getQi() is '冬至' lies in month 11 and, up to 6611, the day whose getQi() is '夏至' in month 5, neither of them leap; every solar year has one of each, up to 4039 in December and in June. Defect: in 6612 the day of 夏至 lies in month 4.", "quantifier": "all solar dates of 1646..9998 with any time of day (part 2: the tables of 1647..9997; 夏至 in part 3: 1646..6611); any C library whose sin and cos are within 2^-40 of the true value for arguments up to 2^23", "why_tests_cant": "three million dates, and the months and the terms come from different series evaluated in binary64", "anchors": ["lunar_python/LunarYear.py:compute", "lunar_python/Lunar.py:getQi", "lunar_python/Lunar.py:__computeJieQi", "lunar_python/util/ShouXingUtil.py:calcShuo", "lunar_python/util/ShouXingUtil.py:qiAccurate"]}
{"id": "C89", "title": "The attributes of a pillar follow from its number", "statement": "When a pillar accessor returns pair i of the cycle of sixty (甲子 = 0), all that the same object says about this pillar follows from i. getXxxGan is stem i mod 10 and getXxxZhi branch i mod 12; getXxxShengXiao the animal of the branch; getXxxNaYin the classical sound; getXxxXun the pair 10*(i/10) and getXxxXunKong the two branches its ten pairs leave out. For the day and the hour getXxxChong is the branch six on, getXxxChongGan the stem four on, getXxxChongShengXiao and getXxxChongDesc are made of these, getXxxSha follows i mod 4, and the positions of 喜神 贵神 福神 财神 with their directions follow the stem; getPengZuGan and getPengZuZhi begin with the day's stem and branch; getDayPositionTai joins the place of the stem and that of the branch. The Tai Sui of year and month follow their pillars, and all four getXxxPositionTaiSuiDesc give the direction of the trigram. This holds for the nine pillars of Lunar (three of the year, two of the month, three of the day, the hour), for LunarTime, LunarYear, LunarMonth, and for EightChar, where getXxxWuXing, getXxxHideGan and getXxxShiShenGan/Zhi are the elements, the hidden stems and the gods relative to the day stem; likewise for the lists of getBaZi and for DaYun, LiuNian, XiaoYun and LiuYue. Defects: the year Tai Sui of 戌 and 亥 is 坎, not the place 乾 of these branches; the DaYun of index 0 has no pillar but returns 甲子 as getXun and 戌亥 as getXunKong.", "quantifier": "every Lunar, LunarTime, LunarYear, LunarMonth and EightChar that can be constructed, every sect", "why_tests_cant": "sixty pairs times some 150 accessors that must each use the right one of nine pillars", "anchors": ["lunar_python/Lunar.py:getDayChongDesc", "lunar_python/Lunar.py:getTimePositionFu", "lunar_python/Lunar.py:getYearXunKongExact", "lunar_python/Lunar.py:getDayPositionTai", "lunar_python/LunarTime.py:getChongDesc", "lunar_python/EightChar.py:getTimeShiShenZhi", "lunar_python/LunarYear.py:getPositionTaiSui"]}
{"id": "C90", "title": "Lodge, weekday, season and phase", "statement": "When getXiu returns lodge k of the 28 (角 = 0), getZheng is the planet of k mod 7, getAnimal its beast, getGong and getShou the quarter k/7 and its guardian, getXiuLuck is 吉 for fourteen lodges, and getXiuSong a song of 64 characters beginning with the lodge; the same for Foto. The planet of a Lunar's lodge is always that of its weekday (日 on Sundays). getSeason names the third of the season of the month, leap or not. getYueXiang is 朔 exactly on day 1, 望 exactly on day 15, 晦 exactly on day 30 (so the last day of a month of 29 days is not called 晦), 上弦 on 7 and 8, 下弦 on 22 and 23. getMonthPositionTai is empty exactly in leap months.", "quantifier": "every Lunar that can be constructed, with months 1..12 and days 1..30", "why_tests_cant": "all combinations of day branch, weekday, month and day", "anchors": ["lunar_python/Lunar.py:getZheng", "lunar_python/Lunar.py:getShou", "lunar_python/Lunar.py:getXiuSong", "lunar_python/Lunar.py:getSeason", "lunar_python/Lunar.py:getYueXiang", "lunar_python/Foto.py:getGong"]}
{"id": "C91", "title": "SolarWeek.next with separate_month moves by parts of weeks", "statement": "Weeks (beginning on weekday start) and months together cut the days into parts; next(n, True) for n > 0 yields a day of the n-th part after that of the week, for every start, and next(-n, True) a day of the n-th part before when weeks begin on Sunday; start is kept, n = 0 changes nothing. Defects: with another start a step back can leave out the last part of a month (from 2022-06-01, start 1, it goes to 05-29 and skips 05-30..31), since getWeeksOfMonth counts one too few; steps from September into October 1582 and from November back into it can leave out a part.", "quantifier": "every existing date of the years -4712..1000000, every n whose way stays in those years and does not enter October 1582 from outside beyond its 4th day", "why_tests_cant": "any number of steps through months of all lengths and weekdays, with a loop that carries two dates", "anchors": ["lunar_python/SolarWeek.py:next", "lunar_python/util/SolarUtil.py:getWeeksOfMonth"]}
{"id": "C92", "title": "Fast days and festivals of the Buddhist and Taoist calendars", "statement": "Foto.isDayYangGong is true on exactly thirteen days of the year: in month m <= 7 on day 15-2m and from month 7 on on day 43-2m, leap months like their months. isDayZhaiShuoWang, isDayZhaiTen and isMonthZhai depend on the day, the day, and the month (1, 5, 9, never leap) as their names say, the six fast days and the days of new and full moon are among the ten; isDayZhaiGuanYin follows its calendar and is false in leap months. The festivals that Foto.getFestivals lists month after month (月朔 1; 斗降 3, 27; 雷斋日 6; 四天王巡行 8, 14, 15, 23, 29, 30; 月望 15; 月晦 25, 30; 人神在阴 28; 司命奏事 30) are exactly those with isEveryMonth(). Defects: 雷斋日 is missing on 11-6 and 四天王巡行, 月晦, 司命奏事 on 12-30; 四天王巡行 also stands on 10-16; on 11-15 isEveryMonth() is False. Tao.isDayWuLa, isDaySanHui and isDaySanYuan hold exactly on their days (never in leap months), and exactly when getFestivals lists a festival named ...腊之辰, with a remark ...考校罪福, or named 上元/中元/下元...; 元始天尊圣诞 is listed exactly on the day of 冬至, 灵宝天尊圣诞 exactly on 夏至; the descent of the 天君 of each of the eight directions exactly on its term; each of the eight meetings exactly on its day pair.", "quantifier": "every Lunar with month 1..12 or leap and day 1..30", "why_tests_cant": "three different tables keyed by text must agree with each other and with the terms and pillars", "anchors": ["lunar_python/Foto.py:getFestivals", "lunar_python/Foto.py:isDayYangGong", "lunar_python/Foto.py:isDayZhaiGuanYin", "lunar_python/Tao.py:getFestivals", "lunar_python/Tao.py:isDaySanYuan", "lunar_python/util/TaoUtil.py:FESTIVAL"]}
{"id": "C93", "title": "Texts of periods, months, holidays and dates", "statement": "The texts tell objects apart: two SolarMonths with toString (or toFullString) equal are the same month, two SolarSeasons the same quarter of the same year, two SolarHalfYears the same half, two years the same year; two SolarWeeks with the same first weekday have equal texts exactly if they lie in the same month and have the same first day; LunarMonth.toString tells year, month, leap and length; the toFullString of a ShuJiu or Fu tells name and index; that of a TaoFestival of the calendar tells name and remark, that of a FotoFestival the name; Holiday.toString tells day, name, make-up flag and target for the shipped data, and for any holidays whose days and names contain no blank and whose names do not end in 调休. Solar.toFullString begins with toYmdHms, and for every date of 20 to 9997 Lunar.toFullString, Foto.toFullString and Tao.toFullString raise nothing, the first two beginning with the toString. Defect: after the gap of October 1582 the week texts do not follow the weeks.", "quantifier": "all SolarMonth, SolarSeason, SolarHalfYear with month 1..12 and any year, all years, all weeks of valid dates outside 15 to 31 October 1582, all lunar months, all Lunar objects, all pairs of shipped holidays, all dates of the years 20 to 9997", "why_tests_cant": "equality of texts ranges over all pairs of objects; a test compares a few strings", "anchors": ["lunar_python/SolarMonth.py:toString", "lunar_python/SolarSeason.py:toString", "lunar_python/SolarHalfYear.py:toFullString", "lunar_python/SolarYear.py:toFullString", "lunar_python/SolarWeek.py:toString", "lunar_python/LunarMonth.py:toString", "lunar_python/ShuJiu.py:toFullString", "lunar_python/Fu.py:toFullString", "lunar_python/Holiday.py:toString", "lunar_python/Solar.py:toFullString", "lunar_python/Lunar.py:toFullString", "lunar_python/Foto.py:toFullString", "lunar_python/Tao.py:toFullString"]}
{"id": "C94", "title": "Day salary", "statement": "Lunar.getDayLu follows from the day pillar alone: it names the branch at which the day's stem has its salary (甲寅 乙卯 丙戊巳 丁己午 庚申 辛酉 壬亥 癸子) followed by 命互禄, and then, unless the day's branch is 丑, 辰, 未 or 戌, the stems whose salary is the day's branch followed by 命进禄; so the two halves of the table are inverse to each other.", "quantifier": "every Lunar that can be constructed, for any month tables", "why_tests_cant": "a test sees a few of the sixty day pillars and cannot see that the two directions of the table agree", "anchors": ["lunar_python/Lunar.py:getDayLu", "lunar_python/util/LunarUtil.py:LU"]}
{"id": "C95", "title": "Python datetimes", "statement": "Solar.fromDate accepts every datetime except those of 5 to 14 October 1582, which raise, and keeps year, month, day, hour, minute and second as they are; microseconds are dropped. A Solar of the years 1 to 9999 comes from a datetime exactly if it is not one of the days 29 February that only the Julian calendar has. From 15 October 1582 on Python's calendar and this one agree: subtract and next count days like the difference of toordinal, getWeek is isoweekday modulo 7; two Solars are ordered like their datetimes in seconds in all years. Lunar.fromDate raises for no datetime of 20 to 9998 outside the ten days and belongs to its date. The SolarWeek (seven days beginning on the given weekday) and the SolarMonth made by fromDate contain the day of the datetime, the SolarSeason that month, the SolarHalfYear that season and the SolarYear that half-year. Defect: before 1582-10-15 the same year, month and day mean different days in the two calendars, so subtract equals the difference of the datetimes exactly if both lie in the same stretch between two century leap days (from 1582-10-04 to 1582-10-15 it is 1, Python says 11).", "quantifier": "every Python datetime (years 1..9999)", "why_tests_cant": "3.6 million days and pairs of them, with a proleptic Gregorian calendar on one side and a Julian one on the other", "anchors": ["lunar_python/Solar.py:fromDate", "lunar_python/Lunar.py:fromDate", "lunar_python/SolarWeek.py:fromDate", "lunar_python/SolarMonth.py:fromDate", "lunar_python/SolarSeason.py:fromDate", "lunar_python/SolarHalfYear.py:fromDate", "lunar_python/SolarYear.py:fromDate"]}
{"id": "C96", "title": "What setSect and assignments to the term table reach", "statement": "In any program made of constructing Lunars, getEightChar, EightChar.fromLunar, setSect, assignments into the dict that getJieQiTable returns, and readings: all calls of getEightChar on one Lunar return the same object and those on different Lunars different ones, EightChar.fromLunar returns a new object every time; what is read from an EightChar depends on nothing but the last setSect on that very object (2 if none) and its Lunar; getBaZi and the other lists of a Lunar use the sect last set on its getEightChar object, and 2 if getEightChar was never called; the attributes of a Lunar are those it was made with, except for assignments to its own term table. The sect changes the day pillar and what derives from it, not the other pillars, and the day pillar exactly at hour 23; assignments to the term table leave all pillars unchanged.", "quantifier": "every history of such operations, of any length, on any number of objects", "why_tests_cant": "histories are unbounded and the sharing of one lazily made object between getEightChar and getBaZi only shows in their order", "anchors": ["lunar_python/Lunar.py:getEightChar", "lunar_python/Lunar.py:getBaZi", "lunar_python/Lunar.py:getJieQiTable", "lunar_python/EightChar.py:setSect", "lunar_python/EightChar.py:fromLunar"]}
{"id": "C97", "title": "Renaming a JieQi", "statement": "After JieQi(name, solar) and any sequence of setName calls getName is the last name, getSolar is unchanged (setSolar changes it and nothing else), and isJie() (isQi()) is true exactly if one of all the names it ever had is a Jie (a Qi); so the flags belong to the name as long as all its names are of one kind. Defect: a flag once set is never cleared: a 冬至 renamed 清明 is both Jie and Qi.", "quantifier": "every sequence of names, known or not", "why_tests_cant": "sequences of calls of any length", "anchors": ["lunar_python/JieQi.py:setName", "lunar_python/JieQi.py:isJie", "lunar_python/JieQi.py:isQi"]}
{"id": "C98", "title": "Solar terms are the times at which the sun reaches multiples of 15 degrees", "statement": "ShouXingUtil.saLonT inverts ShouXingUtil.saLon: for every longitude w of size up to 50500 (8000 years), saLon(saLonT(w), -1) is w up to 8e-6 (up to 13000, about 2000 years: up to 4e-7); and saLon grows by 590 to 667 radians a century, so there is no other such time. Entry j of LunarYear(y).getJieQiJulianDays(), and up to 0.7 s the j-th date and time of getJieQiTable of any date of year y, is the civil time (meridian 120 degrees east) of the instant at which saLon is 24*(y-2000)+17+j times 15 degrees, true pi, up to 8e-6; no other instant with that longitude is more than 43 s away (up to the year 4039: 4e-7 and 2.7 s).", "quantifier": "every binary64 longitude in the range, all 31 terms of every year 0..9999 (dates: 20..9998), any C library whose sin and cos are within 2^-40 of the true value for arguments up to 2^23", "why_tests_cant": "a test can only compare a few instants with a table from the same program; here a fixed number of Newton steps with the speed of a shortened series must converge for all inputs", "anchors": ["lunar_python/util/ShouXingUtil.py:saLonT", "lunar_python/util/ShouXingUtil.py:saLon", "lunar_python/util/ShouXingUtil.py:ev", "lunar_python/util/ShouXingUtil.py:qiAccurate", "lunar_python/LunarYear.py:getJieQiJulianDays", "lunar_python/Lunar.py:getJieQiTable"]}
{"id": "C99", "title": "Lunar months begin on the day of the new moon", "statement": "The first day of a lunar month is the civil day (meridian 120 degrees east, time scale of ShouXingUtil.dtT) on which the moon's apparent longitude overtakes the sun's: for one k, ShouXingUtil.msaLon(t, -1, -1), the whole series of the module, is below 2*pi*k (true pi) at every instant from the year 1605 to some instant of that day, and above it at every instant from a later one of the same day to the year 8095; day 1 of the following month is the same of k+1, so no new moon is left out. msaLon increases up to 5e-6. Defect: 26 months (listed in moon_days, CertZhong.v) begin on another day: 25 of the years 1649 to 1920, 22 of them one day early and 3 one day late, and month 7 of 8040, one day late because msaLonT2 is off by more than the half hour that shuoHigh allows for; so for the months of 1921 to 5000 there is no exception.", "quantifier": "every date whose lunar year is 1646..5000 or 8040, every binary64 instant in the range, any C library whose sin and cos are within 2^-40 of the true value for arguments up to 2^23", "why_tests_cant": "40 thousand months; the code finds the days by a fit, corrections and shortened series and never evaluates the longitude at the days it returns, so no comparison of its own outputs can settle it", "anchors": ["lunar_python/util/ShouXingUtil.py:msaLon", "lunar_python/util/ShouXingUtil.py:calcShuo", "lunar_python/util/ShouXingUtil.py:shuoHigh", "lunar_python/util/ShouXingUtil.py:shuoLow", "lunar_python/util/ShouXingUtil.py:msaLonT2", "lunar_python/LunarYear.py:getMonths", "lunar_python/Solar.py:getLunar"]}
{"id": "C100", "title": "Festivals with a fixed date come once a year", "statement": "Every anniversary that Solar.getOtherFestivals knows is returned on one day of every year and on no other day, whichever year; the exceptions are those of 10, 11, 13 and 14 October in 1582. Every festival of Lunar.getFestivals except 除夕 (C69), every one of Lunar.getOtherFestivals except 寒食节, 春社 and 秋社 (C83), and every one of Foto.getOtherFestivals is returned on one day of every lunar year, namely its day of its month, never in a leap month, and so never twice a year. Defect: one whose day is 30 is not returned at all in a year whose month has only 29 days: 正月晦, the last day of the first month, and 药师琉璃光佛圣诞 are missing in 2024.", "quantifier": "every year from which dates exist (solar); lunar years 21..9997 except 237, which has no month 3; all festivals of the tables; any C library whose sin and cos are within 2^-40 of the true value for arguments up to 2^23", "why_tests_cant": "two hundred festivals times ten thousand years, and that there is no second day needs every other day of the year; leap months repeat the number of a month", "anchors": ["lunar_python/Solar.py:getOtherFestivals", "lunar_python/Lunar.py:getFestivals", "lunar_python/Lunar.py:getOtherFestivals", "lunar_python/Foto.py:getOtherFestivals", "lunar_python/util/SolarUtil.py:OTHER_FESTIVAL", "lunar_python/util/LunarUtil.py:OTHER_FESTIVAL", "lunar_python/util/FotoUtil.py:OTHER_FESTIVAL"]}
{"id": "C101", "title": "Lunar dates sort like the days", "statement": "Two Lunars are in the order of their days (Solar.isBefore of getSolar) exactly if they are in the order of year, month and day, a leap month (negative number) after the month whose number it repeats, and on the same day in the order of their times; two days have the same year, month and day exactly if they are the same day. This also holds through the reforms of AD 237 to 240 and for Lunars constructed from year, month and day.", "quantifier": "every two dates of the years 20..9998 (lunar years 21..9997 for constructed Lunars), any C library whose sin and cos are within 2^-40 of the true value for arguments up to 2^23", "why_tests_cant": "pairs of 3.6 million days; month numbers and years come from tables of fifteen months computed year by year", "anchors": ["lunar_python/Solar.py:getLunar", "lunar_python/Lunar.py:fromYmdHms", "lunar_python/LunarYear.py:compute", "lunar_python/Solar.py:isBefore"]}
