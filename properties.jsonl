{"id": "C01", "title": "Gregorian year lengths follow the leap rule", "statement": "For every year y, the Julian Period day of 1 January y+1 minus that of 1 January y (jd_from_gregorian_date with exact=True, either leap rule) is 366 when y is a leap year under the chosen rule (4|100|400, or 4|128 with alt=True) and 365 otherwise.", "quantifier": "every year with |y| <= 10^6 in every round-to-nearest binary arithmetic, every integer year in exact arithmetic, both leap rules", "why_tests_cant": "There are infinitely many years and the day counter is a closed form with floor divisions of negative numbers.", "anchors": ["badidatetime/base_calendar.py:_days_in_years", "badidatetime/gregorian_calendar.py:jd_from_gregorian_date", "badidatetime/gregorian_calendar.py:_is_leap_year"]}
{"id": "C02", "title": "Exact Gregorian date to JD and back is the identity", "statement": "gregorian_date_from_jd(jd_from_gregorian_date(d, exact=True), exact=True) == d for every valid Gregorian date d whose JD lies below the epoch-doubling point 3442845 (about year 4713), whatever the fraction of the day; the search loop always terminates. With the alternative 4|128 rule (alt=True) the claim fails exactly at midnight of 31 December of negative years divisible by 128.", "quantifier": "every year -10^6..4713, every month and day, every fraction of a day that is a multiple of 1/4096 (floats) or has twelve decimals (exact arithmetic)", "why_tests_cant": "The decoder starts from a signed estimate and walks year by year; the year boundary, leap day and half-day offset cases interact for unboundedly many years.", "anchors": ["badidatetime/gregorian_calendar.py:gregorian_date_from_jd", "badidatetime/gregorian_calendar.py:jd_from_gregorian_date"]}
{"id": "C03", "title": "Exact Gregorian decoding breaks beyond the epoch-doubling point", "statement": "The round trip of C02 does not extend to all years: from JD 3442845 on the decoder can return a date whose day is not a day of its month.", "quantifier": "existential counterexample to the unbounded claim", "why_tests_cant": "Unit tests only sample the supported span of years.", "anchors": ["badidatetime/gregorian_calendar.py:gregorian_date_from_jd"]}
{"id": "C04", "title": "Historical (Meeus) Gregorian conversion is an order isomorphism with the 1582 gap", "statement": "With exact=False, jd_from_gregorian_date on whole days rejects exactly the dates that do not exist in the proleptic Gregorian calendar (so also 29 February of the Julian years 1500, 1400, ...) and 1582-10-05..14; consecutive accepted civil days (Julian calendar up to 1582-10-04, Gregorian from 1582-10-15) get consecutive Julian days, accepted dates are ordered as their Julian days, and gregorian_date_from_jd inverts it. Fractional days inside the gap are accepted.", "quantifier": "every civil day of the years -10^6..10^6", "why_tests_cant": "The formulas mix floor(365.25*y) and floor(30.6001*m); only a proof covers every year/month/leap combination.", "anchors": ["badidatetime/gregorian_calendar.py:jd_from_gregorian_date", "badidatetime/gregorian_calendar.py:gregorian_date_from_jd"]}
{"id": "C05", "title": "Exact and historical Julian days are inverse where both exist", "statement": "Converting an exact JD to a historical (Meeus) JD and back returns the same JD whenever the first conversion does not raise; it raises ValueError exactly on the reform gap [2299148.5, 2299158.5). In the other direction the conversion raises exactly on the twelve non-existing historical days, and is otherwise inverse. Both maps are strictly increasing.", "quantifier": "every rational/real Julian day", "why_tests_cant": "The domain is a continuum cut at 13 break points on each side; off-by-one half-days at the break points are invisible to samples.", "anchors": ["badidatetime/base_calendar.py:_meeus_from_exact", "badidatetime/base_calendar.py:_exact_from_meeus"]}
{"id": "C06", "title": "Short and long form years are in bijection", "statement": "long_date_from_short_date followed by short_date_from_long_date returns the same year, month and day for every supported year, and the long form always has vahid and year in 1..19 and kull-i-shay in the supported range; conversely every long triple whose short year is supported is recovered from its short year.", "quantifier": "every year -1843..1162, in exact IEEE binary64 arithmetic", "why_tests_cant": "The split is computed with floating point division, truncation at 12 decimals and ceilings; a single rounding upset at a multiple of 19 or 361 corrupts the date.", "anchors": ["badidatetime/badi_calendar.py:long_date_from_short_date", "badidatetime/badi_calendar.py:short_date_from_long_date", "badidatetime/base_calendar.py:_truncate_decimal"]}
{"id": "C07", "title": "Normalising an out of range time in a long date keeps the instant", "statement": "short_date_from_long_date carries second 60, minute 60 (from the carry) and hour 24 into the next larger unit without changing the instant. The code violates this: the carry subtracts 1 instead of 60/60/24 (and 1 instead of 19 for days), so the instant moves by 59 s, 59 min, 23 h or 18 days; it is kept exactly when no carry happens.", "quantifier": "every valid long date with times up to 24:59:60", "why_tests_cant": "The carry chain has a case per field combination; tests that never reach 24:00 cannot see it.", "anchors": ["badidatetime/badi_calendar.py:short_date_from_long_date"]}
{"id": "C08", "title": "Every Badi year has 365 or 366 days, fixed by the coefficient table alone", "statement": "The table of year starts built at import depends only on the coefficient table, not on the sunset computation, as long as the computed Tehran sunset falls in the evening; for every supported year consecutive starts differ by 365 or 366.", "quantifier": "every year -1843..1162, every sunset function with values in the evening band, every correctly rounding binary64 arithmetic", "why_tests_cant": "The starts come from floating point sunset times; one must know that no admissible sunset value can move a year start.", "anchors": ["badidatetime/badi_calendar.py:_build_badi_year_start", "badidatetime/badi_calendar.py:_is_leap_year", "badidatetime/_coefficients.py:Coefficients._get_day_coeff"]}
{"id": "C09", "title": "Day number to year lookup is exact", "statement": "For every rata die from -287 to the first day of year 1161 the year found is the unique year whose start is at or before the day and whose successor starts after it; outside that interval an AssertionError is raised. In particular every day of year 1161 except its first is rejected although such dates can be constructed.", "quantifier": "every integer rata die", "why_tests_cant": "The lookup is a linear estimate corrected by at most one; correctness depends on the drift of the whole 3006 year table.", "anchors": ["badidatetime/badi_calendar.py:_badi_year_from_rd", "badidatetime/__init__.py:init_leap_cache"]}
{"id": "C10", "title": "Day of year and (month, day) are in bijection", "statement": "For both year lengths, the month/day split of a day of year used when decoding a JD and the day count used when encoding (19 months of 19 days, Ayyam-i-Ha with 4 or 5 days between months 18 and 19) are mutually inverse, and the encoder counts months in calendar order 1..18, 0, 19.", "quantifier": "every day of year 1..365/366 and every valid (month, day)", "why_tests_cant": "Three independent implementations (JD encoder, JD decoder, ordinal helper) must agree on every day.", "anchors": ["badidatetime/badi_calendar.py:badi_date_from_jd", "badidatetime/badi_calendar.py:jd_from_badi_date", "badidatetime/_timedateutils.py:_days_before_month"]}
{"id": "C11", "title": "The date constructor accepts exactly the valid dates", "statement": "Creating a short-form date succeeds iff the year is in the accepted range, the month in 0..19 and the day in 1..19 (1..4 or 1..5 for Ayyam-i-Ha by leap year). The accepted range is one year wider at each end than the documented MINYEAR..MAXYEAR, and at year MAXYEAR+1 month 0 raises KeyError instead of AssertionError.", "quantifier": "every triple of integers", "why_tests_cant": "Infinitely many inputs, and the documented range differs from the implemented one only at the two end years.", "anchors": ["badidatetime/badi_calendar.py:_check_valid_badi_date", "badidatetime/datetime.py:date.__new__"]}
{"id": "C12", "title": "Ordinals advance by one per calendar day", "statement": "toordinal() of the next calendar day is toordinal() + 1 over the whole supported range, including across Ayyam-i-Ha and year ends, and toordinal of -1842-01-01 is 78; the exceptions are the years -1796, -1792 and -1788, whose hard-coded correction makes every ordinal one too high. It needs the sunset of Naw-Ruz not to be earlier in the day than that of the reference day.", "quantifier": "every pair of consecutive dates, every sunset function meeting the stated order condition", "why_tests_cant": "toordinal floors a difference of two floating point sunsets, so each of the 3004 years could be off by one.", "anchors": ["badidatetime/_timedateutils.py:_ymd2ord", "badidatetime/_timedateutils.py:_days_before_year", "badidatetime/datetime.py:date.toordinal"]}
{"id": "C13", "title": "fromordinal inverts toordinal", "statement": "date.fromordinal(d.toordinal()) == d for every supported date up to 1161-01-01 outside the years -1796, -1792 and -1788, except exactly 22 dates (twelve skipped historical leap days and ten days of the 1582 reform gap), for which it raises ValueError; for dates after 1161-01-01 it raises AssertionError; in the three years named it returns the day after d.", "quantifier": "every supported date and every admissible sunset function", "why_tests_cant": "The inverse goes through a JD, two sunset evaluations and two calendar conversions with break points.", "anchors": ["badidatetime/_timedateutils.py:_ord2ymd", "badidatetime/_timedateutils.py:_ymd2ord", "badidatetime/badi_calendar.py:badi_date_from_jd", "badidatetime/badi_calendar.py:_utc_to_badi_time"]}
{"id": "C14", "title": "Date comparison agrees with chronological order outside Ayyam-i-Ha", "statement": "For two short-form dates d1 < d2 holds iff d1.toordinal() < d2.toordinal() whenever neither or both lie in Ayyam-i-Ha of the same year; comparison places month 0 before month 1, so for a day of Ayyam-i-Ha and a day of months 1..18 of the same year the order is reversed. (The years -1796, -1792 and -1788, whose ordinals are one too high, are set apart.)", "quantifier": "every pair of valid dates", "why_tests_cant": "It is a statement about all pairs; tests compare a handful.", "anchors": ["badidatetime/datetime.py:date._cmp", "badidatetime/datetime.py:date.__lt__"]}
{"id": "C15", "title": "Date comparison is a total order on dates of one form", "statement": "On short-form dates (and on long-form dates) <, <=, ==, >, >= are mutually consistent, reflexive/irreflexive, antisymmetric, transitive and total.", "quantifier": "every pair and triple of dates of the same form", "why_tests_cant": "Order laws quantify over all triples.", "anchors": ["badidatetime/datetime.py:date._cmp", "badidatetime/datetime.py:_cmp"]}
{"id": "C16", "title": "Equal dates hash equal", "statement": "If two dates of the same form compare equal they have the same hash key. Across forms this fails: a short-form date can compare equal to a long-form date of a different day and hash differently, equality is not symmetric (the reversed comparison raises AttributeError).", "quantifier": "every pair of dates in either form", "why_tests_cant": "The contract relates two methods over all pairs of objects.", "anchors": ["badidatetime/datetime.py:date.__eq__", "badidatetime/datetime.py:date.__hash__", "badidatetime/datetime.py:date._cmp"]}
{"id": "C17", "title": "Date arithmetic is the integer line", "statement": "(d + n days) - d == n days, (d2 - d1) added to d1 gives d2, and d + a + b == d + (a+b) whenever the results are inside the decodable range; otherwise an exception is raised and no wrong date is returned outside the exceptional days of C13. (The years -1796, -1792 and -1788, whose ordinals are one too high, are set apart.)", "quantifier": "every date and every integer number of days", "why_tests_cant": "Algebraic laws over all inputs.", "anchors": ["badidatetime/datetime.py:date.__add__", "badidatetime/datetime.py:date.__sub__"]}
{"id": "C18", "title": "Weekdays cycle with period seven", "statement": "weekday() is in 0..6, advances by one modulo 7 from each calendar day to the next, and isoweekday() is weekday()+1; no Ayyam-i-Ha and no year boundary interrupts the cycle, except at the two ends of the years -1796, -1792 and -1788, whose hard-coded correction is stale.", "quantifier": "every date", "why_tests_cant": "Holds for all dates or not at all; relies on C12.", "anchors": ["badidatetime/_timedateutils.py:_day_of_week", "badidatetime/datetime.py:date.weekday", "badidatetime/datetime.py:date.isoweekday"]}
{"id": "C19", "title": "ISO calendar numbering is sound", "statement": "isocalendar() of any date gives a week in 1..53 and weekday in 1..7 such that the date is the (7*(week-1)+weekday-1)-th day after the Jalal opening week 1 of the ISO year, where week 1 is the first week with at least four days in the year. (The years -1796, -1792 and -1788, whose ordinals are one too high, are set apart.)", "quantifier": "every date", "why_tests_cant": "Weeks cross year boundaries in ways depending on year length and starting weekday.", "anchors": ["badidatetime/_timedateutils.py:_year_week_day", "badidatetime/_timedateutils.py:_isoweek1jalal", "badidatetime/datetime.py:date.isocalendar"]}
{"id": "C20", "title": "fromisocalendar inverts isocalendar except around week 52", "statement": "fromisocalendar(*d.isocalendar()) is d for every week below 52; in years starting on the 3rd or 4th weekday week 52 is returned seven days late and week 53 is rejected, and in all other years any integer week number (0, 60, negative) is accepted. (The years -1796, -1792 and -1788, whose ordinals are one too high, are set apart.)", "quantifier": "every ISO (year, week, weekday)", "why_tests_cant": "Depends on the weekday of every year start.", "anchors": ["badidatetime/_timedateutils.py:_isoweek_to_badi", "badidatetime/datetime.py:date.fromisocalendar"]}
{"id": "C21", "title": "Pickling a date restores it except in Ayyam-i-Ha", "statement": "For every valid date with year in MINYEAR..MAXYEAR and month 1..19, unpickling the pickled state gives an equal date of the same form; for every date in month 0 unpickling raises; for year MINYEAR-1 pickling raises.", "quantifier": "every date in short or long form", "why_tests_cant": "Byte packing with divmod 256 over 3004 years and a validity test on one byte.", "anchors": ["badidatetime/datetime.py:date._getstate", "badidatetime/datetime.py:date.__reduce__", "badidatetime/datetime.py:date.__new__"]}
{"id": "C22", "title": "Pickling a time or datetime restores it except hour 24 / Ayyam-i-Ha", "statement": "time and datetime states decode to the same field values (microseconds in three bytes, fold in a flag bit kept only for protocol > 3); times with hour 24 (time.max among them) and datetimes in month 0 do not unpickle.", "quantifier": "every valid time/datetime and every pickle protocol", "why_tests_cant": "10^6 microsecond values times fold times protocols times dates.", "anchors": ["badidatetime/datetime.py:time._getstate", "badidatetime/datetime.py:datetime._getstate", "badidatetime/datetime.py:time.__new__", "badidatetime/datetime.py:datetime.__new__"]}
{"id": "C23", "title": "Time comparison is a preorder compatible with hashing", "statement": "Aware times compare by UTC minute, naive ones by fields; on each class the six operators are consistent; for times with whole-minute offsets and hours below 24, equal times have equal hash keys.", "quantifier": "every pair/triple of times", "why_tests_cant": "Law over all pairs.", "anchors": ["badidatetime/datetime.py:time._cmp", "badidatetime/datetime.py:time.__hash__"]}
{"id": "C24", "title": "Ordering naive against aware values raises TypeError", "statement": "Ordering comparisons between a naive and an aware time, or a naive and an aware datetime, raise TypeError and == is False. The <= operator of time violates this: naive <= aware silently returns False.", "quantifier": "every naive/aware pair", "why_tests_cant": "One operator of four differs by a mistyped argument.", "anchors": ["badidatetime/datetime.py:time.__le__", "badidatetime/datetime.py:time.__lt__", "badidatetime/datetime.py:time._cmp"]}
{"id": "C25", "title": "Datetime arithmetic is consistent with timedelta algebra", "statement": "A datetime lies on a line of 24 hour days. dt + td lies td further with a normalised clock, in the same form and zone; it is refused exactly when its day is outside the decodable range or one of the days that ordinals refuse. (dt + td) - dt == td, (dt + s) + t == dt + (s + t), dt + td - td == dt; aware differences are differences of UTC instants, and a naive minus an aware datetime raises TypeError. (The years -1796, -1792 and -1788, whose ordinals are one too high, are set apart.)", "quantifier": "every datetime and every timedelta", "why_tests_cant": "Algebraic laws over all inputs.", "anchors": ["badidatetime/datetime.py:datetime.__add__", "badidatetime/datetime.py:datetime.__sub__"]}
{"id": "C26", "title": "Datetime comparison ignores the long-form cycle fields", "statement": "Datetimes of one offset compare field by field and satisfy the total order laws; short form ones compare chronologically except a day of Ayyam-i-Ha against months 1..18 of its year. Aware datetimes of different offsets compare as instants. Equal short form datetimes hash equal. For long-form datetimes kull-i-shay and vahid are not compared: datetimes of other cycles compare equal (with different hashes). (The years -1796, -1792 and -1788, whose ordinals are one too high, are set apart.)", "quantifier": "every pair of datetimes", "why_tests_cant": "All pairs; the defect shows only for dates in different vahids.", "anchors": ["badidatetime/datetime.py:datetime._cmp", "badidatetime/datetime.py:datetime.__hash__"]}
{"id": "C27", "title": "Fixed offset zones", "statement": "timezone(offset) is accepted iff the offset is strictly between -24 h and 24 h, two timezones are equal iff their offsets are equal, equal timezones hash equal, and utcoffset returns the offset. The arguments given to pickle rebuild an equal timezone of the same name, except that an empty name is lost.", "quantifier": "every integer number of microseconds", "why_tests_cant": "Range and equality laws.", "anchors": ["badidatetime/datetime.py:timezone.__new__", "badidatetime/datetime.py:timezone.__eq__", "badidatetime/datetime.py:timezone.__hash__", "badidatetime/datetime.py:timezone.__getinitargs__"]}
{"id": "C28", "title": "UTC offset text determines the offset", "statement": "The text produced for a UTC offset (+HH:MM[:SS[.ffffff]]) determines the offset uniquely and has the documented shape for every offset in range, including negative sub-minute offsets.", "quantifier": "every offset strictly between -24 h and 24 h in microseconds", "why_tests_cant": "1.7*10^11 offsets.", "anchors": ["badidatetime/datetime.py:_format_offset", "badidatetime/datetime.py:timezone._name_from_offset"]}
{"id": "C29", "title": "ISO date text round trip", "statement": "date.fromisoformat(d.isoformat()) == d for every short-form date of year >= 0 or <= -1000; for every year in -999..-1 it raises ValueError, because isoformat pads the sign into four columns while the parser expects a sign and four digits.", "quantifier": "every valid short-form date", "why_tests_cant": "Only years with one to three digits and a sign fail.", "anchors": ["badidatetime/datetime.py:date.isoformat", "badidatetime/_timedateutils.py:_parse_isoformat_date"]}
{"id": "C30", "title": "Basic and ordinal ISO date forms", "statement": "YYYY-MM is the first day of the month. YYYYDDD / YYYY-DDD is the DDD-th day of the year, for every day number that the year has; a number beyond the year is refused. The code breaks the last clause: it accepts numbers beyond the year as days of month 19 as long as they fit there. YYYY-Www-D agrees with fromisocalendar. YYYYMMDD should be that day, but the tens digit of the day is ignored (day 15 is read as 5, day 10 is refused).", "quantifier": "every year -1842..1161 and every month, day, week or day number", "why_tests_cant": "Slicing errors show only for some digits.", "anchors": ["badidatetime/_timedateutils.py:_parse_isoformat_date"]}
{"id": "C31", "title": "ISO time text round trip", "statement": "Parsing 'T' (or a space) + a clock text with any number of decimals, with or without colons, gives back its hour and minute, and its seconds to the nearest float, so that the microseconds are recovered; hh:mm and hh alone, a fraction of a minute and a fraction of an hour are read as what they denote. Without the leading T, which time.isoformat never produces, fromisoformat raises ValueError for every time and timespec.", "quantifier": "every hour, minute, second and microsecond", "why_tests_cant": "86.4*10^9 values.", "anchors": ["badidatetime/_timedateutils.py:_parse_isoformat_time", "badidatetime/datetime.py:_format_time", "badidatetime/datetime.py:time.fromisoformat"]}
{"id": "C32", "title": "ISO offset text", "statement": "A +HH:MM, Z, B or -HH:00 suffix is parsed to the offset it denotes; -HH:MM with MM != 0 is parsed to -HH hours plus MM minutes, a wrong offset; offsets with seconds, which isoformat prints, are refused; +HHMM is read as so many hours.", "quantifier": "every whole-minute offset in range", "why_tests_cant": "Only negative offsets with minutes show it.", "anchors": ["badidatetime/_timedateutils.py:_parse_isoformat_timezone"]}
{"id": "C33", "title": "strftime copies literal text", "statement": "Characters of the format outside directives appear unchanged and in order. The scanner drops any literal character following '-', ':' or '%%', and the first one when the format ends with one of these; otherwise literal text is preserved.", "quantifier": "every format string", "why_tests_cant": "Formats are unbounded strings.", "anchors": ["badidatetime/_timedateutils.py:strftime", "badidatetime/_timedateutils.py:_check_format"]}
{"id": "C34", "title": "Numeric strftime fields are faithful", "statement": "The directives %Y %m %d %H %M %S %f %T %j %u print their field in fixed zero padded columns, %-d and its like print it without padding, %V prints the ISO week, %:V the vahid, %y the year within the century and %C the century. Exceptions: %w, documented, is always refused; %G prints the calendar year, not the ISO year; %:K doubles the sign of a negative kull-i-shay; %C rounds away from zero for negative years; %e takes three columns for two digit days. (The years -1796, -1792 and -1788, whose ordinals are one too high, are set apart.)", "quantifier": "every supported datetime of either form, every clock, every locale", "why_tests_cant": "All values and widths incl. negative years.", "anchors": ["badidatetime/_timedateutils.py:strftime", "badidatetime/datetime.py:date.strftime"]}
{"id": "C35", "title": "%z prints the offset", "statement": "%z and %:z print sign, hours and minutes of the UTC offset and %Z the zone name; a naive datetime prints nothing. True for every non-zero offset of whole hours. False for offset zero, which prints nothing, and for every other whole-minute offset, which is printed in hundredths of an hour.", "quantifier": "every supported datetime, every whole-minute offset", "why_tests_cant": "All offsets.", "anchors": ["badidatetime/_timedateutils.py:z"]}
{"id": "C36", "title": "Regex cache of strptime is transparent", "statement": "For every history of strptime calls and locale changes, parsing gives the same result as parsing with an empty cache, and the cache stays bounded. (It never saves a compilation: entries are stored under a key no lookup uses.)", "quantifier": "every finite sequence of calls", "why_tests_cant": "History dependent.", "anchors": ["badidatetime/_strptime.py:StrpTime._find_regex"]}
{"id": "C37", "title": "Nutation cache is transparent after the first evaluation", "statement": "For every history of nutation queries the cached answer equals a fresh computation, except that an object queried first at exactly J2000.0 in radians answers 0; longitude and obliquity entries always belong to the same query.", "quantifier": "every finite sequence of queries on one object", "why_tests_cant": "History dependent.", "anchors": ["badidatetime/base_calendar.py:_nutation_longitude", "badidatetime/base_calendar.py:_nutation_obliquity"]}
{"id": "C38", "title": "Local coordinates: last call wins", "statement": "After any history of set_local_coordinates calls the local coordinates are determined by the last accepted call only; float pairs are used as given with the system's UTC offset, a locale is looked up, and in all other cases (nothing, one coordinate, or integers) Tehran is used. A call is refused, and changes nothing, iff its locale is unknown.", "quantifier": "every finite sequence of calls", "why_tests_cant": "History dependent.", "anchors": ["badidatetime/__init__.py:set_local_coordinates", "badidatetime/__init__.py:_locale_config"]}
{"id": "C39", "title": "Zone information leaks between coordinate time zones", "statement": "The DST behaviour of a TZWithCoords object should depend only on how it was made; in fact the most recent fromzoneinfo call decides it for all existing objects.", "quantifier": "every history of constructions", "why_tests_cant": "Needs two objects and an order of events.", "anchors": ["badidatetime/datetime.py:TZWithCoords.fromzoneinfo"]}
{"id": "C40", "title": "Integer divide and round is round-half-even", "statement": "The integer division helper returns the integer nearest to a/b, ties to even, for every a and every non-zero b of either sign.", "quantifier": "every pair of integers with b != 0", "why_tests_cant": "Infinite domain.", "anchors": ["badidatetime/datetime.py:_divide_and_round"]}
{"id": "C41", "title": "Decoding a day fraction gives a valid clock time within tolerance", "statement": "A fraction of a day decodes to hour 0..24, minute 0..59 and 0 <= second < 60, hour 24 only as 24:00:00, and the decoded time differs from the fraction by less than 2 ms.", "quantifier": "every rational day fraction", "why_tests_cant": "Continuum, with rounding at each of three stages.", "anchors": ["badidatetime/base_calendar.py:_hms_from_decimal_day"]}
{"id": "C42", "title": "Decoding a JD gives a valid date on the right day", "statement": "badi_date_from_jd of a supported JD returns a valid date with a valid clock time; its day starts at the last sunset not after the JD and the clock is the time since that sunset, to 3 ms. Exceptions: within about 2 ms before the next sunset the short form answer is one day late with the clock at 23:00 (or nineteen days late at a month end); when a day is longer than 24 hours, instants more than 24 hours after its sunset are given the next date; rtd=True rounds the day up from half a day after sunset on, giving day 20 at a month end.", "quantifier": "every supported JD, every admissible sunset function", "why_tests_cant": "Continuum; the defect is a 2 ms window before each sunset.", "anchors": ["badidatetime/badi_calendar.py:badi_date_from_jd", "badidatetime/badi_calendar.py:_utc_to_badi_time"]}
{"id": "C43", "title": "Encoding a date gives its sunset, later dates give later JDs", "statement": "jd_from_badi_date gives the sunset opening the date's civil day, plus the clock time if one is given; it is strictly increasing along calendar order and consecutive days differ by one day up to the sunset drift. It refuses (ValueError) exactly 22 dates: the 12 dates of skipped historical leap days and the 10 days of the 1582 gap; the day after the gap is encoded more than ten days early.", "quantifier": "every pair of supported dates, every admissible sunset function", "why_tests_cant": "All pairs, floating point sunsets.", "anchors": ["badidatetime/badi_calendar.py:jd_from_badi_date"]}
{"id": "C44", "title": "Fractional days", "statement": "A date (y, m, d+f) should denote the instant f days after the start of day d. jd_from_badi_date uses the fraction only to choose between the sunset opening day d (f up to 0.35753) and that opening day d+1 (f from 0.35754).", "quantifier": "every date and every fraction", "why_tests_cant": "Continuum.", "anchors": ["badidatetime/badi_calendar.py:jd_from_badi_date"]}
{"id": "C45", "title": "Packing a clock time into a day fraction", "statement": "date_from_kvymdhms adds hours/24 + minutes/1440 + seconds/86400 to the day; microseconds are added as millionths of a day, 86400 times too large.", "quantifier": "every valid long date with time", "why_tests_cant": "All field values.", "anchors": ["badidatetime/badi_calendar.py:date_from_kvymdhms", "badidatetime/base_calendar.py:_US"]}
{"id": "C46", "title": "Exclusive output flags", "statement": "badi_date_from_jd rejects calls with more than one of fraction, us, rtd set. With exactly two it does; with all three it does not.", "quantifier": "every combination of flags", "why_tests_cant": "Small but complete.", "anchors": ["badidatetime/base_calendar.py:_xor_boolean", "badidatetime/badi_calendar.py:badi_date_from_jd"]}
{"id": "C47", "title": "Timestamps", "statement": "timestamp_from_badi_date is (jd - epoch)*86400 and badi_date_from_timestamp inverts it up to rounding; datetime.timestamp() of a naive datetime is the timestamp of its day plus its clock, but counts the microseconds twice; of an aware datetime it is the distance from the fixed epoch in UTC. (The years -1796, -1792 and -1788, whose ordinals are one too high, are set apart.)", "quantifier": "every supported instant", "why_tests_cant": "Continuum.", "anchors": ["badidatetime/badi_calendar.py:timestamp_from_badi_date", "badidatetime/datetime.py:datetime.timestamp"]}
{"id": "C48", "title": "replace changes only the named fields", "statement": "date/time/datetime.replace returns an object whose named fields have the new values and the others are unchanged; replace() is the identity; naming a long field on a short date raises, except kull_i_shay=0 which is silently ignored.", "quantifier": "every object and every combination of fields", "why_tests_cant": "2^n combinations of optional arguments.", "anchors": ["badidatetime/datetime.py:date.replace", "badidatetime/datetime.py:time.replace", "badidatetime/datetime.py:datetime.replace"]}
{"id": "C49", "title": "Angle normalisation, Horner evaluation and three point interpolation", "statement": "The coterminal angle is congruent modulo 360 and in [0,360); Horner evaluation equals the power sum for every coefficient list; three point interpolation reproduces every quadratic exactly (exact arithmetic).", "quantifier": "every rational and every list", "why_tests_cant": "Unbounded lists, continuum.", "anchors": ["badidatetime/base_calendar.py:_coterminal_angle", "badidatetime/base_calendar.py:_poly", "badidatetime/base_calendar.py:_interpolation_from_three"]}
{"id": "C50", "title": "Degrees-minutes-seconds", "statement": "Decimal coordinate to degrees/minutes/seconds and back is the identity up to sign letter; the hemisphere letter is right for longitude and for 'LAT' but 'LATITUDE' yields E/W.", "quantifier": "every coordinate and direction word", "why_tests_cant": "Continuum.", "anchors": ["badidatetime/base_calendar.py:_dms_from_decimal", "badidatetime/base_calendar.py:_decimal_from_dms"]}
{"id": "C51", "title": "Seconds to days/hours/minutes/seconds", "statement": "Splitting a number of seconds in [0, 48 h) into day, hour, minute, second and recombining is the identity and the parts are in range. Turning days, hours, minutes and seconds of a time zone into a part of a revolution and back is the identity in exact arithmetic; with floats it is not: 13 minutes come back as 12 minutes and 59.99... seconds.", "quantifier": "every rational number of seconds", "why_tests_cant": "Continuum.", "anchors": ["badidatetime/base_calendar.py:_dhms_from_seconds", "badidatetime/base_calendar.py:_seconds_from_dhms", "badidatetime/base_calendar.py:_tz_decimal_from_dhms", "badidatetime/base_calendar.py:_tz_dhms_from_decimal"]}
{"id": "C52", "title": "POSIX timestamp decoding fails on the last day of every year", "statement": "posix_timestamp(t) gives the Gregorian date of t for every t >= 0 on days 1..364/365 of a year; on the last day of each year it raises AssertionError.", "quantifier": "every non-negative timestamp", "why_tests_cant": "One day a year.", "anchors": ["badidatetime/gregorian_calendar.py:posix_timestamp"]}
{"id": "C53", "title": "Trailing zero trimming", "statement": "Trimming removes exactly the trailing zero fields of an hour/minute/second/microsecond tuple: the result is the longest prefix not ending in zero, padding it with zeros gives the original.", "quantifier": "every tuple of any length", "why_tests_cant": "All lists.", "anchors": ["badidatetime/badi_calendar.py:_trim_hms"]}
{"id": "C54", "title": "struct_time validation", "statement": "strftime takes a time tuple iff it has 9 or 11 items and each is in its range, and struct_time accepts one iff its date, clock and offset are valid; both keep the items unchanged. The two disagree on second 61, and struct_time does not look at the weekday or the day of the year.", "quantifier": "every tuple of integers of any length", "why_tests_cant": "Unbounded.", "anchors": ["badidatetime/_timedateutils.py:_checktm", "badidatetime/_structures.py:struct_time"]}
{"id": "C55", "title": "Naw-Ruz falls in March", "statement": "Year y of the Badi calendar begins at sunset on 18, 19, 20 or 21 March of Gregorian year y+1843, between 15:36 and 20:39 Iran standard time.", "quantifier": "every supported year -1843..1161, every admissible sunset function", "why_tests_cant": "Three thousand years of a coefficient table combined with a floating point sunset.", "anchors": ["badidatetime/badi_calendar.py:jd_from_badi_date", "badidatetime/badi_calendar.py:naw_ruz_g_date", "badidatetime/_coefficients.py:_get_day_coeff"]}
{"id": "C56", "title": "Time and datetime constructors accept exactly the valid clocks", "statement": "time(...) and datetime(...) with integer clock fields succeed iff 0<=hour<=24, 0<=minute<=59, 0<=second<=60, 0<=microsecond<=999999, fold is 0 or 1 (and, for a datetime, the date alone is accepted); the fields of the result are the arguments.", "quantifier": "every tuple of integers", "why_tests_cant": "the fields range over all integers; tests sample a few boundaries", "anchors": ["badidatetime/datetime.py:time.__new__", "badidatetime/datetime.py:datetime.__new__", "badidatetime/datetime.py:_check_time_fields"]}
{"id": "C57", "title": "date(), timetz() and combine", "statement": "combine keeps every field of the date and the time; a short form datetime is rebuilt by combine(dt.date(), dt.timetz()). date() of a long form datetime is a short form date of a year 1..19: the cycle is lost.", "quantifier": "every datetime, date and time", "why_tests_cant": "must hold for every field combination, zone and form", "anchors": ["badidatetime/datetime.py:datetime.combine", "badidatetime/datetime.py:datetime.date", "badidatetime/datetime.py:datetime.timetz"]}
{"id": "C58", "title": "astimezone keeps the instant", "statement": "astimezone(tz) of an aware datetime denotes the same UTC instant in the zone tz: the wall clock moves by the difference of the offsets, the difference of the two datetimes is zero. (The years -1796, -1792 and -1788, whose ordinals are one too high, are set apart.)", "quantifier": "every aware datetime and every fixed-offset target zone for which the result exists", "why_tests_cant": "offsets, dates and clocks vary without bound on combinations; day carries happen at every year end", "anchors": ["badidatetime/datetime.py:datetime.astimezone", "badidatetime/datetime.py:timezone.fromutc"]}
{"id": "C59", "title": "Fractional clock fields are split faithfully", "statement": "datetime(...) with a fractional hour, minute or second splits it into smaller units within 40, 3 or 2 microseconds; a fraction followed by a non-zero smaller unit raises ValueError. An hour within 27 microseconds of the next one yields minute 60.", "quantifier": "every float hour, minute or second >= 0", "why_tests_cant": "floats near a whole unit are never sampled by tests", "anchors": ["badidatetime/datetime.py:datetime._create_time", "badidatetime/base_calendar.py:_PARTIAL_HOUR_TO_MINUTE"]}
{"id": "C60", "title": "ISO datetime text round trip", "statement": "datetime.fromisoformat(dt.isoformat()) has the date, hour, minute, second and offset of dt, for naive datetimes and readable offsets; the microsecond is dt's or, because the seconds travel through a float, one less. The text of a long form datetime does not tell its cycle, and a date-only text is misread as the first of the month with a negative UTC offset.", "quantifier": "every supported short form datetime with year >= 0 or <= -1000, every clock, both separators", "why_tests_cant": "Every date, microsecond and offset; a microsecond is lost only for some floats.", "anchors": ["badidatetime/datetime.py:datetime.isoformat", "badidatetime/datetime.py:datetime.fromisoformat", "badidatetime/_timedateutils.py:_parse_isoformat_date_time_timezone"]}
{"id": "C61", "title": "Time tuples describe the date", "statement": "timetuple() of a date or datetime has the items of the date as given, its clock, the weekday weekday() reports, the true day of the year and the zone's dst flag; utctimetuple() is the timetuple of the same instant at offset zero with flag 0. A long form datetime with hour 24 is the exception: its weekday and day of the year are those of the next day. (The years -1796, -1792 and -1788, whose ordinals are one too high, are set apart.)", "quantifier": "every supported date and datetime of either form, every zone with a constant offset", "why_tests_cant": "Every date, clock and offset, in particular carries over the ends of months and years.", "anchors": ["badidatetime/datetime.py:date.timetuple", "badidatetime/datetime.py:datetime.timetuple", "badidatetime/datetime.py:datetime.utctimetuple", "badidatetime/_timedateutils.py:_build_struct_time", "badidatetime/_structures.py:struct_time"]}
{"id": "C62", "title": "12-hour clock", "statement": "%I and %p together tell the hour: %I is the hour before midday and the hour less twelve from midday on, in agreement with %p, and %r prints both. Since midday is half the time between two sunsets and not 12:00, %I leaves its documented range 01..12: it is 00 at hours 0 and 12 and negative from midday to 12:00. Midday is half the time between one sunset at Greenwich and the next, and stays within three minutes and 20 seconds of 12:00: from the year -260 on, times up to 11:56:40 are AM and times from 12:03:20 on are PM.", "quantifier": "every supported datetime, locale and sunset function", "why_tests_cant": "Midday moves with every date; the defect appears only in the minutes before 12:00 on days that are short.", "anchors": ["badidatetime/_timedateutils.py:_find_midday", "badidatetime/_timedateutils.py:strftime", "badidatetime/badi_calendar.py:BahaiCalendar.midday"]}
{"id": "C63", "title": "Names tell values apart", "statement": "%A and %a print equal texts for two datetimes iff their weekdays are equal, %B iff their months are equal. %b prints one text for months 11 and 15 and otherwise tells months apart.", "quantifier": "every pair of supported datetimes of any form", "why_tests_cant": "A statement about all pairs.", "anchors": ["badidatetime/_timedateutils.py:strftime", "badidatetime/_timedateutils.py:TimeDateUtils"]}
{"id": "C64", "title": "ctime text", "statement": "ctime() is the full weekday name, the full month name (as strftime prints them), the day in two columns, the clock and the signed four column year; for a date the clock is 00:00:00. Long and short forms of one day give the same text.", "quantifier": "every supported date and datetime of either form", "why_tests_cant": "Every date and form.", "anchors": ["badidatetime/datetime.py:date.ctime", "badidatetime/datetime.py:datetime.ctime"]}
{"id": "C65", "title": "Pickling a coordinate time zone", "statement": "A pickled and unpickled TZWithCoords has the coordinates, key and UTC offset of the original (hence is equal to it). Its zone attribute and its name are lost: tzname() changes from the key to the text of the offset.", "quantifier": "every TZWithCoords that can be made", "why_tests_cant": "Every latitude, longitude, zone and key.", "anchors": ["badidatetime/datetime.py:TZWithCoords.__reduce__", "badidatetime/datetime.py:TZWithCoords.__setstate__"]}
{"id": "C66", "title": "strptime reads what strftime prints", "statement": "For every format made of literal characters and the directives %Y %m %B %b %d %H %M %S %f %A %a %j, without a repeated directive and with a year and either a day of the year or a month and a day, strptime(strftime(x, format), format) is the short datetime of the same day with the printed clock fields (others 0). Text after the described text is refused with ValueError. Known limits: hour 24 with %H is refused, month 15 printed by %b is read as month 11. (The years -1796, -1792 and -1788, whose ordinals are one too high, are set apart.)", "quantifier": "every supported datetime of either form and every such format (any length, any order)", "why_tests_cant": "Unboundedly many formats and all dates; the matching of adjacent directives depends on every combination.", "anchors": ["badidatetime/_strptime.py:StrpTime", "badidatetime/_strptime.py:TimeRE", "badidatetime/_timedateutils.py:strftime", "badidatetime/datetime.py:datetime.strptime"]}
{"id": "C67", "title": "Every result of strptime is a valid datetime", "statement": "Whenever strptime returns, the result is a short-form datetime whose date and clock the constructor accepts, with fold 0 and either no tzinfo or a fixed offset of less than one day. The struct_time read from the same text and format has that date and clock, the weekday and day of the year of that date whatever weekday the text names, dst 0 and no zone.", "quantifier": "every text and every format text", "why_tests_cant": "Arbitrary text and formats.", "anchors": ["badidatetime/_strptime.py:_strptime_datetime", "badidatetime/datetime.py:datetime.strptime"]}
{"id": "C68", "title": "Week of the year in strptime", "statement": "Year, %U and weekday name printed by strftime are read back as the same date if Naw-Ruz of that year is the first day of the week or after the fourth and the week is at most 52. In the other years the text is read as the date one week later; week 53 is refused. (The years -1796, -1792 and -1788, whose ordinals are one too high, are set apart.)", "quantifier": "every supported datetime of either form", "why_tests_cant": "Depends on the weekday of Naw-Ruz and the day of the year for all years.", "anchors": ["badidatetime/_strptime.py:_calc_julian_from_U_or_W", "badidatetime/_timedateutils.py:_year_week_day"]}
{"id": "C69", "title": "ISO week dates in strptime", "statement": "%G, %V and a weekday name give the datetime at midnight of the date fromisocalendar gives, or its error. With %u (1..7) the weekday is taken one too large: the next day's date results and 7 is refused. A format with %G and %j, with %G but without %V or without a weekday, or with %V but without %G is refused with ValueError whatever the text.", "quantifier": "every supported year, week 1..53 and weekday", "why_tests_cant": "All years and weeks.", "anchors": ["badidatetime/_strptime.py:StrpTime._miscellaneous", "badidatetime/datetime.py:date.fromisocalendar", "badidatetime/_strptime.py:StrpTime._check_iso_week"]}
{"id": "C70", "title": "Formats and texts strptime refuses", "statement": "A format with an unknown directive, any modifier, or a single % at the end is refused with ValueError for every text. Directives strftime prints but strptime does not know (C D e h k K l n r T) are refused. A repeated directive is an error of the re module, and a text that names no date is an AssertionError, not a ValueError.", "quantifier": "every text, every format around the directive; every year, month and day the directives can spell", "why_tests_cant": "Arbitrary formats and texts.", "anchors": ["badidatetime/_strptime.py:TimeRE.pattern", "badidatetime/_strptime.py:StrpTime._find_regex"]}
{"id": "C71", "title": "What a format leaves open is filled in", "statement": "With a format without year, month, day or clock fields strptime fills in year 2 (year 1 for the fifth day of Ayyam-i-Ha), month 1, day 1 and midnight; the result is always a valid date and the printed fields are kept.", "quantifier": "every supported datetime, every list of literals and directives without day of the year", "why_tests_cant": "All dates and all formats.", "anchors": ["badidatetime/_strptime.py:StrpTime._miscellaneous", "badidatetime/_strptime.py:StrpTime._parse_found_dict"]}
{"id": "C72", "title": "strptime ignores case", "statement": "Two texts that differ only in the case of letters (other than Z) give the same datetime or the same error with every format. A small z is not read by %z.", "quantifier": "all pairs of texts and all formats", "why_tests_cant": "Arbitrary texts and formats.", "anchors": ["badidatetime/_strptime.py:TimeRE.compile", "badidatetime/_strptime.py:StrpTime._parse_found_dict"]}
{"id": "C73", "title": "White space in strptime formats", "statement": "A run of white space in a format may be replaced by any other run of white space: every text gives the same datetime or error.", "quantifier": "all formats, all runs of white space, all texts", "why_tests_cant": "Arbitrary texts and formats.", "anchors": ["badidatetime/_strptime.py:TimeRE.pattern"]}
{"id": "C74", "title": "Offsets in strptime", "statement": "A text that a format reads, followed by any offset of less than a day (with or without colons, with seconds and microseconds), is read by the format followed by %z as the same datetime at that offset; Z is offset zero. Aware datetimes at whole hours other than zero survive strftime and strptime; those at offset zero do not. (The years -1796, -1792 and -1788, whose ordinals are one too high, are set apart.)", "quantifier": "every supported datetime, every readable format, every offset in microseconds", "why_tests_cant": "All offsets, dates and formats.", "anchors": ["badidatetime/_strptime.py:StrpTime._parse_found_dict", "badidatetime/_strptime.py:_strptime_datetime"]}
{"id": "C75", "title": "Twelve hour clock in strptime", "statement": "What strftime prints with %I and %p is read back as the same hour in hours 1..11 before and 13..23 after midday, in every format. The hours printed as 00 are refused.", "quantifier": "every supported datetime, every list of literals and directives", "why_tests_cant": "All datetimes and formats.", "anchors": ["badidatetime/_strptime.py:StrpTime._parse_found_dict", "badidatetime/_timedateutils.py:_p"]}
{"id": "C76", "title": "Leap years follow the vernal equinox", "statement": "Leap years are four or five years apart; the calendar never strays more than 1.666 days from a mean year of 365.2425 days; in every year of the project's list of equinoxes (1788-2211) Naw-Ruz is the day, from sunset to sunset in Tehran, that contains the equinox. At the end of the supported range this fails: 1160 and 1161 are both leap.", "quantifier": "every year of the supported range, every pair of years, every arithmetic and every sunset function", "why_tests_cant": "All years and pairs of years; independence of sunsets and rounding.", "anchors": ["badidatetime/_coefficients.py:Coefficients._get_day_coeff", "badidatetime/badi_calendar.py:BahaiCalendar._is_leap_year", "contrib/charts/VernalEquinox-1788-2211.dates"]}
{"id": "C77", "title": "Badi dates as Gregorian dates", "statement": "gregorian_date_from_badi_date, naw_ruz_g_date and first_day_of_ridvan_g_date answer a civil date that exists and a proper clock time which together are the instant of the Badi date in Tehran's zone (to 4.4 ms); day k of Badi year y is k-1 days after Naw-Ruz, Naw-Ruz is in March of the Gregorian year y+1843 and the first of Ridvan in April on the same day of the month; consecutive Badi days are consecutive Gregorian days. The day after the 1582 gap breaks this.", "quantifier": "every Badi date of the supported years, every clock time, every float of the day count, every sunset function setting in the evening", "why_tests_cant": "A million dates, all floats, all sunset functions.", "anchors": ["badidatetime/badi_calendar.py:BahaiCalendar.gregorian_date_from_badi_date", "badidatetime/badi_calendar.py:BahaiCalendar.naw_ruz_g_date", "badidatetime/badi_calendar.py:BahaiCalendar.first_day_of_ridvan_g_date", "badidatetime/gregorian_calendar.py:GregorianCalendar.gregorian_date_from_jd"]}
{"id": "C78", "title": "Gregorian dates as Badi dates", "statement": "badi_date_from_gregorian_date maps each Gregorian date and clock time in universal time to the Badi day whose sunsets enclose it and to the time since the opening sunset, to 4 ms. Converting a Badi day to a Gregorian date and back gives the same day, with the clock at the zone offset 3:30.", "quantifier": "every Gregorian date and clock time of the supported period a few milliseconds away from sunset and local midnight; every regular Badi day", "why_tests_cant": "A continuum of instants and all sunset functions.", "anchors": ["badidatetime/badi_calendar.py:BahaiCalendar.badi_date_from_gregorian_date", "badidatetime/gregorian_calendar.py:GregorianCalendar.jd_from_gregorian_date", "badidatetime/gregorian_calendar.py:GregorianCalendar.date_from_ymdhms"]}
{"id": "C79", "title": "utc_sunset", "statement": "utc_sunset is documented to give the universal time of the sunset opening a Badi day. It gives the zone time: the clock of gregorian_date_from_badi_date, always three and a half hours after the universal time at Tehran.", "quantifier": "every Badi date of the supported years, every sunset function setting in the evening", "why_tests_cant": "All dates and sunset functions.", "anchors": ["badidatetime/badi_calendar.py:BahaiCalendar.utc_sunset"]}
{"id": "C80", "title": "Dates and datetimes from time stamps", "statement": "date.fromtimestamp(t) and datetime.fromtimestamp(t, tz) answer the Badi day whose opening and closing sunsets enclose t, in the short or long form asked for, with the clock showing the time since the opening sunset to 4 ms and the tzinfo given. Whatever is returned is a valid datetime. The offset of a tzinfo without coordinates is not applied: the same stamp read in two zones gives two different instants.", "quantifier": "every float time stamp between the sunsets of every regular Badi day, a fraction of a millisecond away from sunset and mean midnight; both forms; every tzinfo; every sunset function setting in the evening", "why_tests_cant": "A continuum of stamps over three thousand years and all sunset functions.", "anchors": ["badidatetime/datetime.py:date.fromtimestamp", "badidatetime/datetime.py:date.today", "badidatetime/datetime.py:datetime._fromtimestamp", "badidatetime/datetime.py:datetime.fromtimestamp", "badidatetime/datetime.py:datetime.now"]}
{"id": "C81", "title": "Time stamp round trips", "statement": "fromtimestamp(x.timestamp()) gives back the day of every naive datetime x of whole seconds and its clock to 4 ms. For an aware datetime in UTC, timestamp() of fromtimestamp(t, utc) differs from t by the time between that day's sunset at Tehran and the sunset built into the epoch constant. (The years -1796, -1792 and -1788, whose ordinals are one too high, are set apart.)", "quantifier": "every naive datetime of whole seconds on a regular day before the next sunset; every stamp as in C80", "why_tests_cant": "All datetimes and all sunset functions.", "anchors": ["badidatetime/datetime.py:datetime.timestamp", "badidatetime/datetime.py:datetime.fromtimestamp"]}
{"id": "C82", "title": "repr evaluates back", "statement": "eval(repr(x)) gives x back: for every date of either form the constructor accepts, every datetime without tzinfo or with timezone.utc or timezone.badi, every time without tzinfo, and every other timezone made by the constructor (whatever its offset and name, quotes and control characters included). A datetime with such a timezone comes back with the same fields and an equal new timezone. For a time with a tzinfo this fails: its repr holds str() of the tzinfo and, for a timezone without name, is not even an expression.", "quantifier": "every accepted date, clock, fold, offset of less than a day and name of characters below 256", "why_tests_cant": "All fields, offsets and names; the reader of expressions is independent of the writer.", "anchors": ["badidatetime/datetime.py:date.__repr__", "badidatetime/datetime.py:time.__repr__", "badidatetime/datetime.py:datetime.__repr__", "badidatetime/datetime.py:timezone.__repr__", "badidatetime/datetime.py:_module_name", "badidatetime/datetime.py:_get_class_module"]}
{"id": "C83", "title": "str of a datetime and of a timezone", "statement": "str(datetime) is the date (ISO for the short form, five dashed fields for the long form), T, the clock and the offset. For the long form with fewer than 100000 microseconds the leading zeros of the fraction are missing, so the digits after the point stand for a longer time than the object holds. str(timezone) is the name it was made with, or UTC followed by its offset if it was made without one.", "quantifier": "every supported datetime; every timezone", "why_tests_cant": "All dates, clocks and offsets.", "anchors": ["badidatetime/datetime.py:datetime._dt_str_conversion", "badidatetime/datetime.py:date._str_convertion", "badidatetime/datetime.py:timezone.__str__"]}
{"id": "C84", "title": "Sunrise and sunset exist and fall in the morning and evening", "statement": "For every place between 52 degrees south and 52 degrees north and every moment of the years the calendar covers, the sunrise and sunset of the local mean day are computed without an exception; sunrise is between 3:02 and 8:43 local mean time and sunset between 15:17 and 20:58; up to 45 degrees from the equator, between 3:38 and 8:11 and between 15:49 and 20:22. Every moment of the same local day gives the same sunrise and sunset.", "quantifier": "every Julian day 1700003..2899998, latitude -52..52, longitude -180..180, every correctly rounding arithmetic and every C mathematical library accurate to nine decimals", "why_tests_cant": "Continuous place and time, and an iteration that could diverge, divide by zero or leave the domain of asin/acos.", "anchors": ["badidatetime/base_calendar.py:_sun_rising", "badidatetime/base_calendar.py:_sun_setting", "badidatetime/base_calendar.py:_rising_setting", "badidatetime/base_calendar.py:_rise_set_correction", "badidatetime/base_calendar.py:_approx_local_hour_angle"]}
{"id": "C85", "title": "At sunrise and sunset the sun is on the horizon", "statement": "At the computed sunrise and sunset the sun, placed by interpolating the code's own right ascensions and declinations of three days, is 0.8333 degrees below the horizon (refraction and half its diameter).", "quantifier": "every day, latitude -52..52 and longitude, every correctly rounding arithmetic and accurate C library", "why_tests_cant": "The equation is solved by iteration; a sign or unit error shows only as a small shift of the times.", "anchors": ["badidatetime/base_calendar.py:_rising_setting", "badidatetime/base_calendar.py:_rise_set_correction", "badidatetime/base_calendar.py:_altitude", "badidatetime/base_calendar.py:_interpolation_from_three"]}
{"id": "C86", "title": "The calendar with the sunsets the code computes", "statement": "With the sunsets the code itself computes: sunset at Tehran is in the evening on every day of the calendar, so the year table does not depend on the machine's arithmetic or mathematical library, every instant is decoded to the day it is in, and days are in the order of their sunsets.", "quantifier": "every year -1843..1162 and every instant, every correctly rounding arithmetic and accurate C library", "why_tests_cant": "Three thousand years of sunsets, on every platform.", "anchors": ["badidatetime/base_calendar.py:_sun_setting", "badidatetime/badi_calendar.py:jd_from_badi_date", "badidatetime/badi_calendar.py:badi_date_from_jd"]}
{"id": "C87", "title": "The sunsets opening the years are never earlier than the reference one, so the date classes count days with the sunsets the code computes", "statement": "With the sunsets computed by the code's own solar algorithm, no Naw-Ruz of the years -1843..1162 opens earlier in the day than day (-1843, 19, 19) did; hence, without any assumption on the sun, toordinal counts days, fromordinal inverts it, weekdays cycle, adding days to a date and subtracting datetimes count days, except in the years -1796, -1792 and -1788, where the hard-coded correction makes every ordinal one too high.", "quantifier": "every supported year and date, every correctly rounding arithmetic, every mathematical library accurate to nine decimals", "why_tests_cant": "The order concerns 3006 sunsets computed in floating point whose smallest distance from the reference is 45 seconds, for every admissible rounding and library.", "anchors": ["badidatetime/base_calendar.py:_sun_setting", "badidatetime/base_calendar.py:_rising_setting", "badidatetime/_timedateutils.py:_ymd2ord", "badidatetime/datetime.py:date.toordinal"]}
{"id": "C88", "title": "Directives made of other directives", "statement": "In strftime %T prints what %H:%M:%S prints and %r what %I:%M:%S %p prints; %c is the documented \"%a %b %d %H:%M:%S %Y\"; %x prints the date format of the locale, %X its time format and %D its date format with a two-digit year. A date format that is not three directives of one letter is ignored, and where its two delimiters differ the first is printed twice.", "quantifier": "every time tuple or printable datetime, every locale the C library can describe, every rounding and sunset function meeting the calendar's conditions", "why_tests_cant": "Tests run in one locale on a few dates; the equalities must hold for every date, every delimiter and order of the locale's codes, and fail exactly in the years and formats named.", "anchors": ["badidatetime/_timedateutils.py:TimeDateUtils.c", "badidatetime/_timedateutils.py:TimeDateUtils.D", "badidatetime/_timedateutils.py:TimeDateUtils.r", "badidatetime/_timedateutils.py:TimeDateUtils.x", "badidatetime/_timedateutils.py:TimeDateUtils.X", "badidatetime/_timedateutils.py:TimeDateUtils._order_format", "badidatetime/_timedateutils.py:TimeDateUtils._find_time_order"]}
{"id": "C89", "title": "Naw-Rúz holds the equinox", "statement": "The March equinox that the equinox function gives for the Gregorian year in which a Badí' year begins falls between the sunset that opens the year's Naw-Rúz and the sunset that ends it (Julian days of the exact algorithm shifted by two days to the astronomical count). The exceptions are known exactly: 385 years before -278, which open a day too early, year 1162, which opens too late, and year 18, where the two moments are less than twenty seconds apart.", "quantifier": "every supported year, every correctly rounding float arithmetic, every accurate trigonometric library, plain or compensated sum, every Julian day in the Gregorian year asked for", "why_tests_cant": "The claim is about three thousand years and two long float computations whose rounding and library errors differ between platforms; a test compares a few literals on one platform.", "anchors": ["badidatetime/base_calendar.py:BaseCalendar._find_moment_of_equinoxes_or_solstices", "badidatetime/badi_calendar.py:BahaiCalendar.jd_from_badi_date", "badidatetime/base_calendar.py:BaseCalendar._sun_setting"]}
{"id": "C90", "title": "Moments of the equinoxes and solstices", "statement": "The moments computed for the equinoxes and solstices are those of Meeus's chapter 27 in dynamical time, within 135 seconds, shifted by the zone; the four seasons follow one another with lengths within stated bounds (spring 91.87–94.02 days, summer 92.39–94, autumn 88.63–90.69, winter 88.65–90.2), and from one March equinox to the next there is a tropical year within an hour.", "quantifier": "every Gregorian year from 1 to 3007, every season, every zone within 24 hours, every correctly rounding arithmetic, every accurate library, every adequate sum", "why_tests_cant": "Float polynomials of degree four, 24 periodic terms and their rounding must be bounded for all years and platforms.", "anchors": ["badidatetime/base_calendar.py:BaseCalendar._find_moment_of_equinoxes_or_solstices", "badidatetime/base_calendar.py:BaseCalendar._approx_julian_day_for_equinoxes_or_solstices", "badidatetime/_astronomical_terms.py:_EQ_SO_A"]}
{"id": "C91", "title": "Time stamps of naive long form datetimes", "statement": "timestamp() of a naive long form datetime (kull-i-shay, vahid, year, month, day, clock) answers the stamp of day `year` of month `vahid` of the year `kull-i-shay`, at `month` hours, `day` minutes and `hour` seconds; except in the years -1 to 2 that is more than 300 days away from the stamp of the same datetime in short form.", "quantifier": "every supported long form datetime, every correctly rounding arithmetic, every sunset in the evening", "why_tests_cant": "The misreading has to be located for every datetime, with its exact value; tests with sample values only show a difference.", "anchors": ["badidatetime/datetime.py:datetime._mktime", "badidatetime/datetime.py:datetime.timestamp", "badidatetime/badi_calendar.py:BahaiCalendar.timestamp_from_badi_date"]}
{"id": "C92", "title": "Naive datetimes and the local time zone", "statement": "astimezone() takes a naive datetime to be in the local time zone: converted to a zone its wall clock moves by the difference of the two offsets; without argument a naive datetime keeps its date and clock and gets the local offset, and an aware one keeps its instant. Where the local offset is zero it raises for every datetime.", "quantifier": "every datetime on the time line in either form, every target zone, every local offset and coordinates, every correctly rounding arithmetic, every sunset in the evening", "why_tests_cant": "The tests run in the one zone of the machine; the claim is about every local offset.", "anchors": ["badidatetime/datetime.py:datetime._local_timezone", "badidatetime/datetime.py:datetime.astimezone"]}
{"id": "C93", "title": "A day lasts 24 hours, give or take some minutes", "statement": "Sunsets (and sunrises) the code computes for two days running are one day apart to within 0.00461 of a day between 52 degrees south and north, and to within 0.00381 (five minutes and a half) between 45 degrees south and north. So the first moments of consecutive dates are one day apart to within the latter (within 0.0077 before the reform), and an instant is decoded to the date whose day it is in unless it is in the last five minutes and a half of that day.", "quantifier": "every place within 52 degrees of the equator, every day of more than three thousand years, every pair of consecutive dates, every correctly rounding arithmetic, every accurate library", "why_tests_cant": "Days, places and platforms are without end; the bound comes from the geometry of the horizon and the sun's motion, with all rounding errors.", "anchors": ["badidatetime/base_calendar.py:BaseCalendar._sun_setting", "badidatetime/base_calendar.py:BaseCalendar._rising_setting", "badidatetime/badi_calendar.py:BahaiCalendar.jd_from_badi_date", "badidatetime/badi_calendar.py:BahaiCalendar.badi_date_from_jd"]}
{"id": "C94", "title": "Length of the day as reported", "statement": "The length of the day reported for a Julian day is 24 hours to within 0.00462 of a day as a decimal and 399.25 seconds as a clock with hour 23 or 24 (0.00382 and 330.1 up to 45 degrees from the equator); on the days cut out by the reform it raises; on twelve listed days before the reform it is about two days.", "quantifier": "every Julian day from 1700004 to 2899970, every place within 52 degrees of the equator (0.001 degree from the date line), every correctly rounding arithmetic, every accurate library", "why_tests_cant": "Sunset, its rounding, and the table of drifts must be followed for every day and place.", "anchors": ["badidatetime/badi_calendar.py:BahaiCalendar._day_length", "badidatetime/base_calendar.py:BaseCalendar._meeus_from_exact"]}
{"id": "C95", "title": "The sun stands on the horizon at the sunrise and sunset given", "statement": "At the sunrise and sunset the calendar gives, the centre of the sun, placed by Meeus' formulas (solar coordinates of chapter 25 of low accuracy, obliquity 22.2, sidereal time 12.4, altitude 13.6) in exact arithmetic, is 0.8333 degrees below the horizon to within 0.0009 in the sine (3 minutes of arc). In the morning and in the evening of every local day there is exactly one moment at which the exact altitude is that, and the moment the calendar gives is at most 29 seconds from it (23 up to 45 degrees from the equator).", "quantifier": "every Julian day 1700003..2899998, latitude -52..52, longitude -180..180, every correctly rounding arithmetic and every C mathematical library accurate to nine decimals", "why_tests_cant": "Continuous place and time; tests compare with a few almanac values, and cannot show that the iteration of interpolated coordinates ends at the moment the definition of sunset asks for.", "anchors": ["badidatetime/base_calendar.py:_sun_rising", "badidatetime/base_calendar.py:_sun_setting", "badidatetime/base_calendar.py:_rising_setting", "badidatetime/base_calendar.py:_rise_set_correction", "badidatetime/base_calendar.py:_altitude", "badidatetime/base_calendar.py:_apparent_sidereal_time_greenwich", "badidatetime/base_calendar.py:_sun_apparent_right_ascension", "badidatetime/base_calendar.py:_sun_apparent_declination"]}
{"id": "C96", "title": "Nutation, obliquity, sidereal time and the place of the sun agree with the book", "statement": "The nutation in longitude and in obliquity the calendar computes are within 0.89 and 0.16 seconds of arc of the short formulas of Meeus (p. 144); the obliquity of the ecliptic is Laskar's (22.3) plus nutation to within 0.000045 degrees, apparent sidereal time at Greenwich is that of the book to within 0.00028 degrees, the sun's apparent longitude to within 0.00002 degrees, and right ascension and declination are those of that longitude under the obliquity used. The obliquity used there is not the book's: the nutation is counted twice (refuted).", "quantifier": "every time within 20.7 centuries of the year 2000, every correctly rounding arithmetic and every C mathematical library accurate to nine decimals", "why_tests_cant": "Continuous time over 41 centuries; the table of 63 periodic terms can be wrong in one entry and agree with the tested examples to all decimals printed.", "anchors": ["badidatetime/base_calendar.py:_nutation_longitude", "badidatetime/base_calendar.py:_nutation_obliquity", "badidatetime/base_calendar.py:_nutation_obliquity_longitude", "badidatetime/base_calendar.py:_true_obliquity_of_ecliptic", "badidatetime/base_calendar.py:_apparent_sidereal_time_greenwich", "badidatetime/base_calendar.py:_sun_apparent_longitude", "badidatetime/base_calendar.py:_sun_apparent_right_ascension", "badidatetime/base_calendar.py:_sun_apparent_declination"]}
{"id": "C97", "title": "Operators on objects of different classes", "statement": "Objects of different classes (date, datetime, time, timezone, timedelta, anything else) are unequal and cannot be ordered, from either side, even a datetime against a date; != is always the opposite of ==; timezones are never ordered. A sum is commutative and defined only between a timedelta and a date, datetime or timedelta. A date takes only the whole days of a timedelta, so a date minus a timedelta is not the date plus its opposite unless it is of whole days; a date minus a datetime is a number of whole days while the reverse difference is a TypeError.", "quantifier": "every pair of objects, every comparison operator, every rounding and sunset function", "why_tests_cant": "The outcome depends on which of two methods Python tries first, for every pair of classes and every value.", "anchors": ["badidatetime/datetime.py:date.__eq__", "badidatetime/datetime.py:datetime.__eq__", "badidatetime/datetime.py:time.__eq__", "badidatetime/datetime.py:timezone.__eq__", "badidatetime/datetime.py:_cmperror", "badidatetime/datetime.py:date.__add__", "badidatetime/datetime.py:date.__sub__", "badidatetime/datetime.py:datetime.__sub__"]}
{"id": "C98", "title": "The attributes min and max of the classes against the values the classes take", "statement": "date.min, date.max, date.longmin and date.longmax denote the first day of year -1842 and the last of 1161 in both forms, with ordinals 78 and _MAXORDINAL. Every naive time is >= time.min. A short date the constructor takes lies between date.min and date.max except in the years -1843 and 1162 and in Ayyam-i-Ha of year -1842, which compares lower than date.min although it is later. The long form takes years -2526..1805. A time is <= time.max unless it is later than 24:00:03, and hour 24 takes 59 more minutes; a datetime of the supported years is <= datetime.max unless it is on the last day at another time than 00:00. Offsets a minute beyond timezone.min and timezone.max are taken.", "quantifier": "every combination of constructor arguments (naive times and datetimes), every offset", "why_tests_cant": "That a bound bounds every value of a class is a statement about all values; the exceptions sit at isolated ends of the range.", "anchors": ["badidatetime/datetime.py:date.min", "badidatetime/datetime.py:date.max", "badidatetime/datetime.py:date.longmin", "badidatetime/datetime.py:date.longmax", "badidatetime/datetime.py:time.max", "badidatetime/datetime.py:datetime.max", "badidatetime/datetime.py:timezone.min", "badidatetime/datetime.py:timezone.max", "badidatetime/datetime.py:_MAXORDINAL"]}
{"id": "C99", "title": "Datetimes in zones with summer time and in zones of any other kind", "statement": "Whatever the tzinfo of a time or datetime answers, utcoffset() and dst() give None or an offset within a day, tzname() None or a str; an offset out of range raises ValueError and an answer of another kind TypeError. Datetimes of different zones are ordered and subtracted by their instants, each wall clock less the offset its zone gives there. A datetime in a repeated or skipped hour is equal to no datetime of another zone, even one of the same instant, for which <= and >= hold both. Datetimes of one zone are compared by their wall clocks, so the two passes of a repeated hour are equal. Equal datetimes hash equal. astimezone() hands the new zone the instant in fold 0; with the fromutc() that a class inherits from the standard library it raises TypeError.", "quantifier": "every tzinfo (any function from the fields and the fold of a datetime to an answer), every pair of short-form datetimes of the supported years", "why_tests_cant": "The zone is an arbitrary function; the hash law must hold over all pairs of datetimes, folds and zones.", "anchors": ["badidatetime/datetime.py:datetime._cmp", "badidatetime/datetime.py:datetime.__hash__", "badidatetime/datetime.py:datetime.__sub__", "badidatetime/datetime.py:datetime.utcoffset", "badidatetime/datetime.py:datetime.dst", "badidatetime/datetime.py:datetime.tzname", "badidatetime/datetime.py:time.badioffset", "badidatetime/datetime.py:datetime.astimezone", "badidatetime/datetime.py:_check_offset", "badidatetime/datetime.py:_check_tzname"]}
{"id": "C100", "title": "format() and f-strings", "statement": "f'{d:%Y-%m-%d}' of a date of either form is its year in four columns (after a minus sign if negative), month and day, and date.fromisoformat reads it back as the same date for every year; f'{d}' of a short-form date is the same text unless the year is one of -999..-1. For a datetime the same holds with %Y-%m-%dT%H:%M:%S, the date text, T and the clock (f'{dt}' compared without timezone and microseconds). f'{t:%H:%M:%S}' of a time is its clock, hour 24 and second 60 included, and f'{t}' its clock, microseconds and offset.", "quantifier": "every supported date of either form, every datetime that strftime prints, every valid time, every locale", "why_tests_cant": "All dates, clocks and offsets; only the years -999..-1 tell the two texts apart.", "anchors": ["badidatetime/datetime.py:date.__format__", "badidatetime/datetime.py:time.__format__", "badidatetime/datetime.py:date.strftime"]}
{"id": "C101", "title": "Positions of the earth and the sun by the planetary theory", "statement": "For times within 2.07 Julian millennia of 2000 the heliocentric longitude, latitude and distance of the earth are those of the published periodic series: to 0.000015 and 0.0000000002 radians and 0.00000002 astronomical units; in degrees they are the same angles modulo 360, in 0..360. Aberration is -0.005775518 degrees times the distance times the daily motion of the sun in arc-seconds; the sun's apparent longitude is the earth's, half a turn, nutation and aberration; its apparent latitude is the opposite of the earth's to 0.06 arc-seconds. The code departs from this in three ways: aberration takes the periodic terms of the daily motion times pi/180 (more than 0.6 arc-seconds off at J2000), the apparent longitude counts nutation and aberration 57 times (more than 0.4 degrees off at J2000), and south latitudes in degrees come out as almost 360.", "quantifier": "every time within 2.07 millennia (756000 days) of J2000, every way of rounding to nearest, every mathematical library accurate to 1e-9, every order of summation of compensated or plain sums", "why_tests_cant": "A continuum of times, 216 periodic terms; tests compare the answers of the code with earlier answers of the code.", "anchors": ["badidatetime/base_calendar.py:BaseCalendar._heliocentric_ecliptical_longitude", "badidatetime/base_calendar.py:BaseCalendar._heliocentric_ecliptical_latitude", "badidatetime/base_calendar.py:BaseCalendar._radius_vector", "badidatetime/base_calendar.py:BaseCalendar._aberration", "badidatetime/base_calendar.py:BaseCalendar._apparent_solar_longitude", "badidatetime/base_calendar.py:BaseCalendar._apparent_solar_latitude", "badidatetime/_astronomical_terms.py:AstronomicalTerms"]}
{"id": "C102", "title": "Formats of the locale in strptime", "statement": "strptime infers the formats behind %c, %x and %X by printing one date and recognising its fields. In every locale whose date format is three fields with one delimiter it infers the formats strftime prints by, so with %c, %x and %X strptime reads every text as with those formats. Short datetimes printed with %c are read back to the second (hours up to 23, months other than the fifteenth); dates printed with %x are read back if the format has the full year, month and day; the time printed with %X is read back in locales with a clock of 24 hours. Long datetimes printed with %c are refused, and with two digits for the year dates a hundred years apart have one text.", "quantifier": "every locale whose date format is three fields (day, month, year, weekday in any form) with a delimiter, every pair of zone names, every order of the set of zone names, every supported datetime, every way of rounding and every mathematical library accurate to 1e-9", "why_tests_cant": "Tests run in the locale of the machine; formats, delimiters, zone names and the order of a set vary with the environment and the hash seed.", "anchors": ["badidatetime/_strptime.py:LocaleTime", "badidatetime/_strptime.py:TimeRE", "badidatetime/datetime.py:datetime.strptime", "badidatetime/_timedateutils.py:TimeDateUtils._date_and_time_locale"]}
{"id": "C103", "title": "Clock time and day fraction of Gregorian dates", "statement": "date_from_ymdhms answers the given year and month and the day with the clock time as its fraction, to 2e-12 of a day and never before the day. ymdhms_from_date answers the date without the fraction and a proper clock time, to 3 ms; from a date with clock fields and microseconds likewise. One after the other they give back the date and the clock time to 4 ms for every time up to the last hundredth of a second of the day. Seconds are not checked and a carry does not change the month: 23:59:75 on 31 January becomes the 32nd of January.", "quantifier": "every valid Gregorian date of every year, every clock time, every float day fraction, both forms of the seconds, every way of rounding to nearest", "why_tests_cant": "Continuum of fractions with a rounding at each of seven operations; dates unbounded.", "anchors": ["badidatetime/gregorian_calendar.py:GregorianCalendar.date_from_ymdhms", "badidatetime/gregorian_calendar.py:GregorianCalendar.ymdhms_from_date", "badidatetime/base_calendar.py:_hms_from_decimal_day"]}
{"id": "C104", "title": "Transit of the sun", "statement": "The transit answered for a moment and a longitude is the fraction of a day, between -0.51 and 1.01, after which the sun is on the meridian: its local hour angle there is a whole number of turns to 0.001 degrees. From the local mean midnight it is within 24 minutes of noon at every longitude up to 174 degrees east. The eccentricity of the earth's orbit is Meeus' polynomial to 1e-12 and between 0.0157 and 0.0176.", "quantifier": "every moment between the Julian days 1700001 and 2899999, every longitude, every way of rounding to nearest, every mathematical library accurate to 1e-9", "why_tests_cant": "Continuum of moments and longitudes; right ascension and sidereal time wrap at 360 degrees at different moments.", "anchors": ["badidatetime/base_calendar.py:_sun_transit", "badidatetime/base_calendar.py:_transit_correction", "badidatetime/base_calendar.py:_eccentricity_earth_orbit"]}
