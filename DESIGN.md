# Formal model of badidatetime in Coq 8.16.1 — design

First written before the proofs; kept up to date as the model grew.  104 properties, 436 theorems (MANIFEST.json).

## 1. Approach

* Shallow, executable Gallina model of the Python functions, branch by branch, in `rocq/theories/*Model.v`.
  Every definition cites the file and lines of /repo it models and says where it simplifies.
* Python exceptions are values: `res A := Ok a | Err e` (Base.v), with one constructor per exception class the code
  raises.  `re_error` stands for `re.error`.
* Python `int` is `Z`.  Records, tuples and lists stand for objects and tuples.  A `str` is the list of its code
  points.
* Python `float` is a rational `Q` with an explicit rounding `rnd : Q -> Q` applied after every inexact operation.
  Theorems quantify over **every** `rnd` that is a round-to-nearest onto binary numbers with 53-bit significands
  (`Nearest rnd`, Flt.v).  IEEE binary64 without overflow, underflow, NaN and infinities is one; a concrete one,
  `b64` (ties to even), is constructed and proved to qualify, and is used in the examples.
* The sun enters the calendar model as a function `m : Q -> Q -> Q -> Q` (Julian day, latitude, longitude to fraction
  of the day at sunset).  Theorems on the calendar need one or both of two conditions on `m`:
  - `evening rnd m` (SpecBadi.v): at Tehran the sun sets between 15:36 and 20:24 local mean time;
  - `naw_ruz_order rnd m` (SpecDate.v): no Naw-Ruz sunset is earlier in the day than the reference sunset.

  Both are **proved** of the function the code computes, `astro_set rnd lm` (AstroModel.v: delta-T, nutation,
  right ascension, declination, sidereal time, hour angle, iteration), for every `lm` accurate to nine decimals
  (C86_evening, C87_naw_ruz_order).  `accurate lm` (SpecAstro.v) is what is assumed of the C library's
  sin, cos, asin, acos and atan2; `real_libm_accurate` shows such a library exists.
* Import-time tables (`_YEAR_START`, leap years) are computed by the model, not assumed.
* Locale data, the geocoder, the system clock, the system zone and the compiled form of regular expressions in the
  cache theorem are parameters or inputs of each call; theorems hold for every value of them.
* Specifications live in `Spec*.v` and use model types but no model helpers of the property they describe; theorems
  live in `Properties*.v`, each with `Print Assumptions` below it and an `Example Cnn_case` beside it that exhibits
  a non-trivial case meeting the hypotheses.  Proof support is in the other files.
* Where the code does not have the property, the positive theorem states exactly where it holds and a theorem with
  the suffix `_refuted` proves that the code violates it there.

## 2. Properties, what is modelled, how it is proved

| id | property | modelled in | proved by | statements in | theorems |
|----|----|----|----|----|----|
| C01 | Gregorian year lengths follow the leap rule | GregModel | rational error bounds for any rounding; `lia` on floor divisions | PropertiesGreg.v | 3 |
| C02 | Exact Gregorian date to JD and back is the identity | GregModel | loop invariant of the year search, fuel proved sufficient; error bounds | PropertiesGreg.v | 4 |
| C03 | Exact Gregorian decoding breaks beyond the epoch-doubling point | GregModel | loop invariant of the year search, fuel proved sufficient; error bounds | PropertiesGreg.v | 1 |
| C04 | Historical (Meeus) Gregorian conversion is an order isomorphism with the 1582 gap | GregModel | 400-year and 4-year cycles, `lia`; witnesses for the refuted parts | PropertiesGreg.v | 6 |
| C05 | Exact and historical Julian days are inverse where both exist | BaseModel | case analysis on the break points, error bounds | PropertiesBase.v | 7 |
| C06 | Short and long form years are in bijection | BadiModel | error bounds of the float divisions for every year | PropertiesBadi.v | 4 |
| C07 | Normalising an out of range time in a long date keeps the instant | BadiModel | case analysis of the carry chain | PropertiesBadi2.v | 3 |
| C08 | Every Badi year has 365 or 366 days, fixed by the coefficient table alone | BadiModel | error bounds per day, one sweep over the 3006 supported years (the whole domain) | PropertiesBadi.v | 4 |
| C09 | Day number to year lookup is exact | BadiModel, TduModel | monotone year table; case analysis; `lia` | PropertiesBadi.v | 3 |
| C10 | Day of year and (month, day) are in bijection | BadiModel, TduModel | monotone year table; case analysis; `lia` | PropertiesBadi.v | 4 |
| C11 | The date constructor accepts exactly the valid dates | BadiModel, TduModel | monotone year table; case analysis; `lia` | PropertiesBadi.v, PropertiesDate.v | 6 |
| C12 | Ordinals advance by one per calendar day | TduModel, DateModel | ordinals as day numbers of the year table | PropertiesDate.v | 7 |
| C13 | fromordinal inverts toordinal | TduModel, DateModel | ordinals as day numbers of the year table | PropertiesDate.v | 5 |
| C14 | Date comparison agrees with chronological order outside Ayyam-i-Ha | DateModel | lexicographic order lemmas | PropertiesDate2.v | 3 |
| C15 | Date comparison is a total order on dates of one form | DateModel | lexicographic order lemmas | PropertiesDate2.v | 2 |
| C16 | Equal dates hash equal | DateModel | lexicographic order lemmas | PropertiesDate2.v | 3 |
| C17 | Date arithmetic is the integer line | TduModel, DateModel | day numbers, `lia` | PropertiesDate2.v | 5 |
| C18 | Weekdays cycle with period seven | TduModel, DateModel | day numbers, `lia` | PropertiesDate2.v | 3 |
| C19 | ISO calendar numbering is sound | TduModel, DateModel | day numbers, `lia` | PropertiesDate2.v | 1 |
| C20 | fromisocalendar inverts isocalendar except around week 52 | TduModel, DateModel | day numbers, `lia` | PropertiesDate2.v | 4 |
| C21 | Pickling a date restores it except in Ayyam-i-Ha | DateModel, TimeModel | byte codec round trip | PropertiesDate2.v | 3 |
| C22 | Pickling a time or datetime restores it except hour 24 / Ayyam-i-Ha | DateModel, TimeModel | byte codec round trip | PropertiesDt.v, PropertiesTime.v | 4 |
| C23 | Time comparison is a preorder compatible with hashing | TimeModel | `lia`; witnesses | PropertiesTime.v | 9 |
| C24 | Ordering naive against aware values raises TypeError | TimeModel | `lia`; witnesses | PropertiesDt.v, PropertiesTime.v | 3 |
| C25 | Datetime arithmetic is consistent with timedelta algebra | TimeModel | day numbers and `lia` | PropertiesDt.v | 6 |
| C26 | Datetime comparison ignores the long-form cycle fields | TimeModel | day numbers and `lia` | PropertiesDt.v | 6 |
| C27 | Fixed offset zones | TimeModel | day numbers and `lia` | PropertiesTime.v | 4 |
| C28 | UTC offset text determines the offset | TextModel | decimal printing/reading round trip, induction on texts | PropertiesText.v | 3 |
| C29 | ISO date text round trip | TextModel | decimal printing/reading round trip, induction on texts | PropertiesText.v, PropertiesText2.v | 6 |
| C30 | Basic and ordinal ISO date forms | TextModel | decimal printing/reading round trip, induction on texts | PropertiesText2.v | 7 |
| C31 | ISO time text round trip | TextModel | decimal printing/reading round trip, induction on texts | PropertiesText3.v | 6 |
| C32 | ISO offset text | TextModel | decimal printing/reading round trip, induction on texts | PropertiesText2.v | 5 |
| C33 | strftime copies literal text | StrfModel | induction on the format | PropertiesStrf.v | 6 |
| C34 | Numeric strftime fields are faithful | StrfModel | induction on the format | PropertiesStrf4.v | 9 |
| C35 | %z prints the offset | StrfModel | induction on the format | PropertiesStrf5.v | 5 |
| C36 | Regex cache of strptime is transparent | StateModel | invariants by induction on the history of calls | PropertiesState.v, PropertiesStrp5.v | 4 |
| C37 | Nutation cache is transparent after the first evaluation | StateModel | invariants by induction on the history of calls | PropertiesState.v | 3 |
| C38 | Local coordinates: last call wins | StateModel | invariants by induction on the history of calls | PropertiesState.v | 3 |
| C39 | Zone information leaks between coordinate time zones | StateModel | invariants by induction on the history of calls | PropertiesState.v | 3 |
| C40 | Integer divide and round is round-half-even | MiscModel | `nia` | PropertiesBase.v | 1 |
| C41 | Decoding a day fraction gives a valid clock time within tolerance | BaseModel | error bounds | PropertiesBase.v | 4 |
| C42 | Decoding a JD gives a valid date on the right day | BadiModel | error bounds, monotone sunsets | PropertiesBadi.v, PropertiesBadi2.v | 6 |
| C43 | Encoding a date gives its sunset, later dates give later JDs | BadiModel | error bounds, monotone sunsets | PropertiesBadi.v, PropertiesBadi2.v | 7 |
| C44 | Fractional days | BadiModel | error bounds, monotone sunsets | PropertiesBadi2.v | 2 |
| C45 | Packing a clock time into a day fraction | BadiModel | error bounds, monotone sunsets | PropertiesBadi2.v | 2 |
| C46 | Exclusive output flags | BaseModel | case analysis | PropertiesBase.v | 2 |
| C47 | Timestamps | BadiModel, TimeModel | error bounds | PropertiesBadi.v, PropertiesDt2.v | 3 |
| C48 | replace changes only the named fields | DateModel, TimeModel | case analysis | PropertiesDate2.v, PropertiesDt.v, PropertiesTime.v | 11 |
| C49 | Angle normalisation, Horner evaluation and three point interpolation | BaseModel, MiscModel | induction, rational arithmetic | PropertiesBase.v | 4 |
| C50 | Degrees-minutes-seconds | BaseModel, MiscModel | induction, rational arithmetic | PropertiesBase.v | 5 |
| C51 | Seconds to days/hours/minutes/seconds | BaseModel, MiscModel | induction, rational arithmetic | PropertiesBase.v, PropertiesTzDec.v | 3 |
| C52 | POSIX timestamp decoding fails on the last day of every year | BaseModel, MiscModel | induction, rational arithmetic | PropertiesBase.v | 2 |
| C53 | Trailing zero trimming | BaseModel, MiscModel | induction, rational arithmetic | PropertiesBase.v | 1 |
| C54 | struct_time validation | StrfModel | case analysis (iff) | PropertiesStrf2.v | 7 |
| C55 | Naw-Ruz falls in March | BadiModel, GregModel | from C04 and C08 | PropertiesBadi.v | 1 |
| C56 | Time and datetime constructors accept exactly the valid clocks | TimeModel | case analysis, error bounds for fractional fields | PropertiesDt.v, PropertiesTime.v | 2 |
| C57 | date(), timetz() and combine | TimeModel | case analysis, error bounds for fractional fields | PropertiesDt.v | 4 |
| C58 | astimezone keeps the instant | TimeModel | case analysis, error bounds for fractional fields | PropertiesDt.v | 1 |
| C59 | Fractional clock fields are split faithfully | TimeModel | case analysis, error bounds for fractional fields | PropertiesDt2.v | 5 |
| C60 | ISO datetime text round trip | TextModel | from C29-C32 | PropertiesText4.v | 4 |
| C61 | Time tuples describe the date | StrfModel | from C17-C20 and C33 | PropertiesStrf3.v | 6 |
| C62 | 12-hour clock | StrfModel | from C17-C20 and C33 | PropertiesNoon.v, PropertiesStrf5.v | 5 |
| C63 | Names tell values apart | StrfModel | from C17-C20 and C33 | PropertiesStrf5.v | 2 |
| C64 | ctime text | StrfModel | from C17-C20 and C33 | PropertiesStrf5.v | 1 |
| C65 | Pickling a coordinate time zone | StateModel | case analysis | PropertiesState.v | 3 |
| C66 | strptime reads what strftime prints | StrpModel | matching lemmas on the regular expressions, induction on the format | PropertiesStrp.v, PropertiesStrp2.v | 4 |
| C67 | Every result of strptime is a valid datetime | StrpModel | matching lemmas on the regular expressions, induction on the format | PropertiesStrp3.v, PropertiesStrp7.v | 2 |
| C68 | Week of the year in strptime | StrpModel | matching lemmas on the regular expressions, induction on the format | PropertiesStrp3.v | 3 |
| C69 | ISO week dates in strptime | StrpModel | matching lemmas on the regular expressions, induction on the format | PropertiesStrp3.v, PropertiesStrp7.v | 3 |
| C70 | Formats and texts strptime refuses | StrpModel | matching lemmas on the regular expressions, induction on the format | PropertiesStrp4.v | 5 |
| C71 | What a format leaves open is filled in | StrpModel | matching lemmas on the regular expressions, induction on the format | PropertiesStrp4.v | 1 |
| C72 | strptime ignores case | StrpModel | matching lemmas on the regular expressions, induction on the format | PropertiesStrp5.v | 2 |
| C73 | White space in strptime formats | StrpModel | matching lemmas on the regular expressions, induction on the format | PropertiesStrp5.v | 1 |
| C74 | Offsets in strptime | StrpModel | matching lemmas on the regular expressions, induction on the format | PropertiesStrp6.v | 4 |
| C75 | Twelve hour clock in strptime | StrpModel | matching lemmas on the regular expressions, induction on the format | PropertiesStrp6.v | 2 |
| C76 | Leap years follow the vernal equinox | BadiModel; data in SpecEquinox | sweep over the supported years (the whole domain) | PropertiesLeap.v | 7 |
| C77 | Badi dates as Gregorian dates | ConvModel | from C02, C42, C43 | PropertiesConv.v | 5 |
| C78 | Gregorian dates as Badi dates | ConvModel | from C02, C42, C43 | PropertiesConv.v | 2 |
| C79 | utc_sunset | ConvModel | from C02, C42, C43 | PropertiesConv.v | 2 |
| C80 | Dates and datetimes from time stamps | TsModel | error bounds | PropertiesTs.v | 4 |
| C81 | Time stamp round trips | TsModel | error bounds | PropertiesTs.v | 3 |
| C82 | repr evaluates back | ReprModel; reader in SpecRepr | induction on the text | PropertiesRepr.v | 5 |
| C83 | str of a datetime and of a timezone | ReprModel; reader in SpecRepr | induction on the text | PropertiesRepr.v | 4 |
| C84 | Sunrise and sunset exist and fall in the morning and evening | AstroModel | real analysis (contraction of the iteration), error bounds float against real | PropertiesAstro.v | 2 |
| C85 | At sunrise and sunset the sun is on the horizon | AstroModel | real analysis (contraction of the iteration), error bounds float against real | PropertiesAstro.v | 1 |
| C86 | The calendar with the sunsets the code computes | AstroModel | C84 at Tehran | PropertiesAstro.v | 6 |
| C87 | The sunsets opening the years are never earlier than the reference one, so the date classes count days with the sunsets the code computes | AstroModel | ball arithmetic proved sound (AstroBall), eight cells covering the Naw-Ruz of all years | PropertiesAstro2.v | 8 |
| C88 | Directives made of other directives | StrfModel | pieces of formats (as C33); witnesses and lengths for the refuted parts | PropertiesStrf6.v | 10 |
| C89 | Naw-Rúz holds the equinox | EquinoxModel, AstroModel | error bounds for the floats, then ball arithmetic proved sound, over all years | PropertiesEquinox.v | 6 |
| C90 | Moments of the equinoxes and solstices | EquinoxModel | error bounds of float polynomials and of the periodic sum; bounds of the mean seasons as polynomials | PropertiesEquinox.v | 4 |
| C91 | Time stamps of naive long form datetimes | TimeModel | error bounds of the stamp; the fields read in the wrong places | PropertiesLocal.v | 2 |
| C92 | Naive datetimes and the local time zone | LocalModel | the local zone has the offset of LOCAL whatever the stamp; then C25 twice | PropertiesLocal.v | 3 |
| C93 | A day lasts 24 hours, give or take some minutes | AstroModel, BadiModel | the horizon equation of C85 on two days, Lipschitz bounds of the hour angle and the sun in the reals; C43 for the dates | PropertiesDay.v | 4 |
| C94 | Length of the day as reported | ConvModel | C93 on the civil days of the Julian day; case analysis of the drift table | PropertiesDay.v | 3 |
| C95 | The sun stands on the horizon at the sunrise and sunset given | AstroModel; SpecSun (real specification, no model imports) | the three interpolation nodes are within 0.0013 degrees of the real coordinates; Taylor of second order bounds what interpolation loses; on_horizon of C84 then gives the altitude (SunPlace); monotony of the altitude within a half day and the intermediate value theorem give existence, uniqueness and the 23 s (SunTrue) | PropertiesSun.v | 2 |
| C96 | Nutation, obliquity, sidereal time and the place of the sun agree with the book | AstroModel; SpecNut (real specification, no model imports) | the rows of the table after the first four are bounded by the sum of their coefficients, the first four are compared with the formula; the arguments of the angles through apx (error and size of a float against a real); obliquity by the difference of the two polynomials | PropertiesNut.v | 6 |
| C97 | Operators on objects of different classes | ObjModel (Python's choice of method for two operands) | case analysis on the classes; sums and differences from C17 | PropertiesObj.v | 9 |
| C98 | The attributes min and max of the classes against the values the classes take | LimModel (class attributes as calls of the modelled constructors) | acceptance lemmas of the constructors, then comparison of tuples case by case | PropertiesLim.v | 8 |
| C99 | Datetimes in zones with summer time and in zones of any other kind | DstModel (a tzinfo as functions of the fields and the fold, with any answer) | reduction to a zone pinned to the answers at the two wall clocks, then C25 and C26 | PropertiesDst.v | 10 |
| C100 | format() and f-strings | FmtModel (__format__ of date, datetime and time over the strftime and str models) | C33, C34, C54 for the pieces of the format, C29 and C83 for the texts | PropertiesFmt.v | 3 |
| C101 | Positions of the earth and the sun by the planetary theory | PlanetModel (the tables of _astronomical_terms.py, _heliocentric_ecliptical_longitude/latitude, _radius_vector, _aberration, _apparent_solar_longitude/latitude); SpecPlanet (the series over the reals) | error bounds term by term and by Horner's rule over the framework of C85; range of the distance by the sum of the amplitudes; numeric bounds of sine and cosine at chosen instants for the refutations | PropertiesPlanet.v | 8 |
| C102 | Formats of the locale in strptime | LocModel (str.replace, LocaleTime: _calc_weekday, _calc_month, _calc_am_pm, _calc_timezone, _calc_date_time); SpecLoc (locales, delimiters, zone names) | the printed text is followed through the list of replacements, symbolically in delimiter, words and zone names; then C66, C71 and C88 | PropertiesLoc.v | 7 |
| C103 | Clock time and day fraction of Gregorian dates | YmdModel (ymdhms_from_date of three to seven parts); GregModel (date_from_ymdhms) | error of each rounding added up; nearest rounding never crosses the integer day; then C41 | PropertiesYmd.v | 5 |
| C104 | Transit of the sun | AstroModel (sun_transit, transit_correction, eccentricity_earth_orbit); SpecTransit (hour angle, meridian) | error bounds of C85 for right ascension, sidereal time and interpolation; one Newton step with the derivative bounded | PropertiesTransit.v | 3 |

Sweeps (`zforall … vm_compute`) are over the complete finite domain the code itself restricts years to
(-1843 … 1161); everything else is proved by induction, invariants and arithmetic without bounds.

## 3. Trusted base

1. Coq's kernel (8.16.1), including its virtual machine for `vm_compute`.  The whole development is also rechecked by
   `coqchk`.
2. `Print Assumptions`, run under every theorem:
   * every theorem of C01–C83 (but C62_midday, C62_am_pm and C62_hour), C88, C91, C92, C97–C100, C103 and C94_reform_refused: *Closed under the global context* (no axioms);
   * C84_same_day_same_sun and C104_eccentricity: `ClassicalDedekindReals.sig_forall_dec` and
     `FunctionalExtensionality.functional_extensionality_dep`;
   * C62_midday, C62_am_pm, C62_hour and all other theorems of C84–C87, C89, C90, C93–C96, C101, C102, C104: these two, `ClassicalDedekindReals.sig_not_dec` and `Classical_Prop.classic`.
     All four are axioms of the standard library's Reals; they appear because sine, cosine and π are those of Coq's
     real numbers.
   * No axiom, Parameter, Admitted, functor or module type is defined here; no kernel check is switched off.
3. The transcription of the Python code into Gallina (by hand, cited line by line).
4. The float abstraction of section 1, and `accurate lm` for the C library.
5. Simplifications stated in the model's comments, mainly:
   * text: digits are the ASCII digits (Python also accepts other decimal digits in `int`, `isdigit`); `lower()` is
     modelled for ASCII, Latin-1, Ā and Latin Extended Additional; `repr(str)` for code points below 256;
   * a tzinfo is a fixed offset with an identity (and for `TZWithCoords` its coordinates), so `fold` never changes an
     offset; only C99 models a tzinfo as any function of the fields and the fold, for comparison, difference, hash and
     conversion;
   * times of day have int fields except in the constructors' float branch (C59);
   * `hash` is modelled by its key; pickling by the state bytes and the constructor called on them;
   * calls are atomic (the only lock in the code protects the regex cache).

## 4. What is not modelled

* `_strptime.py`: `DotDict`; the C library behind `nl_langinfo` and `time.tzname` (parameters of C88 and C102).
* `datetime.py`: field accessors, error-raising helpers, `_IsoCalendarDate`'s own methods.
* Geocoding, IANA zone data, reading the system clock.

## 5. Deviations of the code found on the way

Each is a `_refuted` theorem or part of an exact characterisation.

* Conversions: the Gregorian decoder in exact mode fails beyond the doubled epoch (C03); the day after the 1582 gap
  (C77); `utc_sunset` is zone time (C79); Gregorian→Badi expects UT where Badi→Gregorian gives local time (C77, C78).
* Calendar: carries of out-of-range clocks move the instant (C07); years 1160 and 1161 are both leap (C76); lookups
  lose year 1161 after its first day (C09); the correction of years -1796, -1792, -1788 in `_ymd2ord` is stale:
  ordinals there are one too high, consecutive days are two apart, two days share an ordinal, weekdays and ISO weeks
  are off (C12, C13, C18, C87).
* Dates and times: Ayyám-i-Há compares and pickles wrongly (C14, C21, C22); long and short forms hash and compare
  inconsistently (C16, C26); hour-24 aware times break hashing (C23); `<=` of mixed times (C24); sub-minute offsets
  (C23); `datetime.date()` loses the cycle (C57); a date minus a part of a day is not the date plus its opposite, a date
  minus a datetime ignores the time of day (C97); date.min, date.max, time.max, datetime.max and timezone.min/max do not bound the values
  their classes take (C98); datetimes of one instant that are neither less, greater nor equal, and the two passes of a
  repeated hour that are equal, as in the standard library, but `astimezone` to a zone without its own `fromutc` fails (C99); fractional hours give minute 60 (C59); week 52/53 of
  `fromisocalendar` (C20); time stamps count microseconds twice (C47) and ignore the offset of a tzinfo without
  coordinates (C80, C81); `posix_timestamp` fails on the last day of years (C52).
* ISO text: years -999..-1, YYYYMMDD, day numbers beyond the year, negative offset minutes, offsets with seconds,
  +HHMM, microseconds lost through float (C29–C32, C60).
* strftime: literal text, %w, %z, %G, %I, %e, %C, %b, %:K (C33–C35, C62, C63).
* strftime of the locale: %c in years -999..-1 and long forms, %x where the date format has not eight characters, %X without
  AM/PM on a 12-hour clock, %D before year -100 (C88).
* strptime: hour 24, abbreviation of month 15, %u, %U, week 53, repeated directives, impossible dates, offset zero,
  hours printed as 00 (C66–C75).
* State: the regex cache is keyed by a wrong name, yet transparent (C36); nutation sentinel (C37); coordinates given as
  ints ignored (C38); zone leak and pickling of `TZWithCoords` (C39, C65).
* Time stamps of naive long form datetimes are those of another date, 300 days or more away (C91); where the local zone is
  at offset zero, naive datetimes cannot be converted (C92).
* The length of the day is given as two days on twelve days before the reform (C94).
* Seconds of Gregorian dates are not checked: 23:59:75 on 31 January is answered as the 32nd of January (C103). The transit
  of the sun is reduced by one day only: close to 180 degrees east, just after the March equinox, it is answered half a
  day before the midnight (found by reading; not a theorem, C104_noon stops at 174 degrees).
* The locale: delimiters that differ in the date format (C88); %c of long datetimes and %x with two digits for the year cannot
  be read back (C102).
* repr and str: aware times; long datetimes with few microseconds (C82, C83).
* Equinoxes: in 385 years, all before -278, Naw-Rúz is over before the code's own equinox, and year 1162 opens after it
  (C89); the divisor of the periodic terms is 1 + 0.0334 cos(W + 0.0007) cos 2W where the book has
  1 + 0.0334 cos W + 0.0007 cos 2W, and the answer stays in dynamical time (C90).
* Aberration applies `radians` to arc-seconds; the sun's apparent longitude adds nutation and aberration in degrees to radians;
  apparent latitudes south of the ecliptic come out near 360 degrees (C101).
* Nutation in obliquity is counted twice in the sun's right ascension and declination (C96).
* Astronomy: delta-T is divided by 86400 twice, so universal time stands for dynamical time, in C95 too; beyond the polar circles the cosine of the hour angle outside [-1, 1] is
  replaced by its fractional part (AstroModel.v, comments).

## 6. Tests of the theorems against wrong programs

seeded/LOG.jsonl lists the edits of the model tried in scratch copies. How far each line can be relied on:

* `failed_lemmas` and `messages` are what was observed: where the build stopped, and the first line of the error.
* `failed_theorems` was filled in by a script. `script_failed_in` are those whose own proof script was seen to fail.
  `inferred` are those whose text depends on a lemma that failed; they were not tried one by one. When the log was
  reviewed, 150 of the 249 lines with a failure had inferred theorems only.
* A proof script that fails does not show that the statement is false. An edit can break a script by changing the shape
  of a term. In 161 of the 249 lines every message is of a kind that such a change can cause ("Found no subterm", or
  "In environment" with the rest cut off). One such line, find_midday, turned out not to be a kill and says so.
* Of the edits of LocModel's `pairs`, `to_format` and `replace_from` each edited program was also run on seven printed
  dates; all but the edit marked harmless infer a wrong format there. The lines of `sun_transit` and `transit_correction`
  were tried with the edited definitions put before the proofs of C104, the unedited ones still proving.
* `negation_proved` names the theorems whose negation was proved of the edited model. Only these are settled.
* `tightened` and `note` say what was changed because an edit survived.
