{
 "C01": {
  "note": "Every round-to-nearest binary arithmetic for |year| <= 10^6; all years in exact arithmetic."
 },
 "C02": {
  "note": "Fractions multiple of 1/4096 in every round-to-nearest arithmetic; twelve-decimal fractions in exact arithmetic; one exception under the 4|128 rule is refuted by witness."
 },
 "C03": {
  "note": "The failure is proved for every date of years 4715..9999 outside December and 1..3 January."
 },
 "C04": {
  "note": "Exact characterisation of rejected days, consecutive days, order, round trip; two deviations from the historical calendar refuted by witness."
 },
 "C05": {
  "note": "Every JD with a resolution of 2^-31 day in every round-to-nearest arithmetic; all rationals in exact arithmetic."
 },
 "C06": {
  "note": "All valid dates with clock below 24:00 and no day fraction on the last day of a month (that case is refuted by witness)."
 },
 "C07": {
  "note": "In range: kept. Carries: the exact displacement is proved, so the claimed invariance fails exactly when there is a carry."
 },
 "C08": {
  "note": "Independent of rounding and of the sunset function, under the evening hypothesis."
 },
 "C09": {
  "note": "The range check loses every day of year 1161 but the first (refuted theorem)."
 },
 "C10": {
  "note": "Both directions and order, for leap and common years."
 },
 "C11": {
  "note": "Exact acceptance condition for integer dates in every year."
 },
 "C40": {
  "note": "All integers a and non-zero b."
 },
 "C41": {
  "note": "Every round-to-nearest arithmetic; 2 ms (3 ms with microseconds)."
 },
 "C42": {
  "note": "Regular dates (all but the listed irregular ones) of years up to 1160; float JD not within a millisecond of Tehran mean midnight for the clock."
 },
 "C43": {
  "note": "Exact list of refused dates; order, spacing, value and clock time."
 },
 "C44": {
  "note": "Years without an irregular date."
 },
 "C45": {
  "note": "Exact displacement proved; microseconds refuted by witness."
 },
 "C46": {
  "note": "Exact characterisation."
 },
 "C47": {
  "note": "Tehran coordinates (the default). Naive long form datetimes are not covered."
 },
 "C49": {
  "note": "Angle: every round-to-nearest arithmetic; Horner and interpolation in exact arithmetic."
 },
 "C50": {
  "note": "Exact arithmetic."
 },
 "C51": {
  "note": "Exact arithmetic."
 },
 "C52": {
  "note": "All non-negative timestamps; exact failure set."
 },
 "C53": {
  "note": "All lists."
 },
 "C55": {
  "note": "Every supported year."
 },
 "C12": {
  "note": "Under evening and naw_ruz_order (no Naw-Ruz sunset earlier than the reference one); a sunset function without the order condition breaks it (refuted by witness); the three years with a stale correction are refuted. Exact ordinal values, range ends."
 },
 "C13": {
  "note": "Exact list of the 22 refused dates; in the three years with a stale correction the result is the next day, proved as a refutation."
 },
 "C14": {
  "note": "Both directions, short and long forms; the Ayyam-i-Ha clash is part of the equivalence."
 },
 "C15": {
  "note": "All dates of one form, all comparison operators."
 },
 "C16": {
  "note": "Hash keys of equal dates; mixed forms refuted by witness."
 },
 "C17": {
  "note": "Every supported date and every integer day count; results outside the range raise."
 },
 "C18": {
  "note": "Weekday as residue of the ordinal; cycle over consecutive days; broken at the ends of the three stale years (refuted)."
 },
 "C19": {
  "note": "All supported dates."
 },
 "C20": {
  "note": "Exact behaviour for every week number: regular, week 52 late, other weeks rejected, weekday range."
 },
 "C21": {
  "note": "Round trip, failing Ayyam-i-Ha, failing year -1843."
 },
 "C48": {
  "note": "Dates, times and datetimes."
 },
 "C22": {
  "note": "Fields, zone and fold survive; hour 24 times and month 0 datetimes are proved lost."
 },
 "C23": {
  "note": "Offsets that are not whole minutes are proved to compare wrongly; hour 24 aware times are proved to break the hash law."
 },
 "C24": {
  "note": "Times and datetimes; the <= of time is proved to violate the rule."
 },
 "C25": {
  "note": "Under the hypotheses evening and naw_ruz_order on the sunset function."
 },
 "C26": {
  "note": "The defect for long form datetimes is proved for every pair of cycles."
 },
 "C59": {
  "note": "Also proved: the minute 60 defect for every such hour."
 },
 "C29": {
  "note": "Both forms; the failure for years -999..-1 is proved for every such date."
 },
 "C30": {
  "note": "The defects of YYYYMMDD and of day numbers beyond the year are proved as _refuted theorems."
 },
 "C31": {
  "note": "Any number of decimals, both forms."
 },
 "C32": {
  "note": "Defects for negative minutes, seconds and the basic form are proved for every such offset."
 },
 "C60": {
  "note": "Exact up to the microsecond the float may lose; the loss is exhibited with binary64."
 },
 "C33": {
  "note": "Any format of well formed directives and literals; which literals survive is stated exactly."
 },
 "C34": {
  "note": "Documented directives the code gets wrong are proved as _refuted theorems."
 },
 "C35": {
  "note": "Offset zero and every whole-minute offset that is not a whole hour are proved wrong."
 },
 "C54": {
  "note": "Both validators are characterised by an iff."
 },
 "C61": {
  "note": "Both forms; utctimetuple where the shifted datetime exists."
 },
 "C62": {
  "note": "C62_clock12 and C62_hour_refuted are relative to %p being printed, for every sunset function; C62_midday, C62_am_pm and C62_hour are about the program's own sunsets and need no such premise. The negative hour is exhibited with a sunset function meeting the hypotheses."
 },
 "C63": {
  "note": "Over all pairs."
 },
 "C64": {
  "note": "Long forms with hour 24 or second 60 excluded."
 },
 "C36": {
  "note": "Over every history of calls and environments, for any compilation and matching functions; calls are atomic (the code holds a lock)."
 },
 "C37": {
  "note": "For any nutation function; refuted for the first query at J2000.0 in radians."
 },
 "C38": {
  "note": "Geocoder and system offset are arbitrary inputs of each call."
 },
 "C39": {
  "note": "The property is refuted; the positive theorem covers histories whose zones answer alike."
 },
 "C65": {
  "note": "Coordinates, key and offset kept; zone and name lost (refuted)."
 },
 "C66": {
  "note": "Round trip for arbitrary formats over twelve directives; hour 24 and month 15 by abbreviation are refuted."
 },
 "C67": {
  "note": "The constructor itself also accepts the years -1843 and 1162, so strptime does."
 },
 "C68": {
  "note": "Refuted for years beginning on weekdays 1..3 (read a week late) and for week 53."
 },
 "C69": {
  "note": "Weekday names agree with fromisocalendar; weekday numbers are refuted."
 },
 "C70": {
  "note": "Refuted parts: repeated directives raise re.error (stand-in constructor) and impossible dates AssertionError."
 },
 "C71": {
  "note": "Proved for every format without %j, year present or not."
 },
 "C72": {
  "note": "Case mapping modelled for ASCII, Latin-1, A with macron and Latin Extended Additional."
 },
 "C73": {
  "note": "White space as in str of Python."
 },
 "C74": {
  "note": "%z at the end of the format. Offset zero is refuted (strftime prints nothing). Minutes offsets are read correctly but printed wrongly (C35)."
 },
 "C75": {
  "note": "English AM and PM texts. Hours printed as 00 are refuted."
 },
 "C76": {
  "note": "The equinox list is /repo/contrib/charts/VernalEquinox-1788-2211.dates. Refuted for the last supported year: 1160 and 1161 are both leap."
 },
 "C77": {
  "note": "Default coordinates. Refuted for the day after the 1582 gap."
 },
 "C78": {
  "note": "Default coordinates; instants within 2 ms of local midnight or a sunset excluded, as for C42."
 },
 "C79": {
  "note": "The documented universal time is refuted on every day; the zone time is proved."
 },
 "C80": {
  "note": "Default coordinates for the day and clock. That a stamp denotes one instant whatever the zone is refuted."
 },
 "C81": {
  "note": "The exact round trip is false (1.2 ms off in C81_case); the aware round trip is refuted with its error proved in general."
 },
 "C82": {
  "note": "Proved by reading the text with a small reader and evaluator of Python calls (SpecRepr.v). Refuted for aware times."
 },
 "C83": {
  "note": "Refuted for long forms with 1..99999 microseconds."
 },
 "C87": {
  "note": "The order condition assumed by the theorems on ordinals is proved of the code's own sunsets, by ball arithmetic over eight cells of the mean longitude; corollaries for dates and datetimes. The standard library's axioms of the reals appear."
 },
 "C88": {
  "note": "Refuted parts: %c in years -999..-1 and for long forms, %x where the locale's date format has not eight characters, %X on a 12-hour clock, %D before year -100."
 },
 "C89": {
  "note": "Refuted parts: 385 early years (all before -278) and year 1162; in year 18 the order is left open (the moments are less than 20 s apart, which is proved)."
 },
 "C90": {
  "note": "The code's divisor differs from the book's, which is where the 135 s come from; with the code's own divisor the agreement is within 6.5 s. Delta T is not subtracted in effect (divided twice by 86400)."
 },
 "C91": {
  "note": "the intended claim (the two forms have the same stamp) is refuted: C91_long_refuted"
 },
 "C92": {
  "note": "the theorems speak of the answers given; for offset zero C92_zero_offset_refuted shows that there is none"
 },
 "C94": {
  "note": "C94_drift_refuted: on twelve days the answer is two days"
 },
 "C95": {
  "note": "The specification (SpecSun.v) is written from the formulas of the book over the real numbers and shares no definition with the model. It takes universal time for dynamical time, as the code does in effect (delta T enters only the interpolation factor and is divided by 86400 twice), and leaves nutation out, which is part of the 0.0009."
 },
 "C96": {
  "note": "C96_double_nutation_refuted: (25.8) of the book corrects the mean obliquity by 0.00256 cos Omega, the code corrects the true one; in June 2006 the sine of the declination is too large by more than 0.00002. The effect on sunset is below a second, so C95 stands. Specification: SpecNut.v, without any model import."
 },
 "C97": {
  "note": "Objects of other classes are those whose own methods return NotImplemented for these classes."
 },
 "C98": {
  "note": "C98_dates, C98_long_dates, C98_times and C98_datetimes give the exact exceptions; C98_long_years_refuted and C98_zones_refuted the values beyond the limits."
 },
 "C99": {
  "note": "C99_instants supposes different offsets (for equal offsets the fields are compared, C26), and days outside the three stale years of C12. C99_trichotomy_refuted, C99_repeated_hour_refuted and C99_inherited_fromutc_refuted state what does not hold."
 },
 "C101": {
  "note": "C101_earth, C101_degrees and C101_apparent_latitude are the claim; C101_aberration and C101_apparent_longitude say exactly what the code computes; the three _refuted theorems show where it is not what the book says. Nothing in the package calls these functions but one another. C101_apparent_longitude uses the nutation of C96 with its bound."
 },
 "C102": {
  "note": "Delimiters that are digits, capital letters, the percent sign or letters of Kamál and Jamál, and words for PM without a letter of their own, are outside the statement. In locales with a clock of twelve hours %X loses AM and PM already when printed (C88_locale_time_refuted)."
 },
 "C103": {
  "note": "C103_carry_refuted shows the day 32 that unchecked seconds give."
 },
 "C104": {
  "note": "The bound of 174 degrees east is needed: close to 180 degrees, just after the March equinox, the single reduction by one day leaves the answer half a day before the midnight (found by reading, not proved). C104_on_meridian still holds there."
 }
}