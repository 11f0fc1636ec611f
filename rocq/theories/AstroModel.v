(** AstroModel.v -- model of the solar astronomy of /repo/badidatetime/base_calendar.py (Meeus, Astronomical
    Algorithms) by which sunrise and sunset are found.

    Floats are rationals with the rounding [rnd] (Flt.v); a decimal literal is rounded once.  The functions of the C
    library are a parameter [lm]: only their accuracy is assumed by the theorems (SpecAstro.v).  [math.radians] and
    [math.degrees] multiply by the constants pi/180 and 180/pi, as CPython does.  [x ** 2] and [x ** 3] are taken as
    correctly rounded.  The nutation cache (453-492) is left out: C37 shows that it does not change the values, except
    the longitude and obliquity at century 0 before any other request (0 then). *)
From Coq Require Import ZArith QArith Qround Qabs List Bool.
From Verif Require Import Base BaseModel GregModel.
Import ListNotations.
Local Open Scope Q_scope.

Record libm := { l_sin : Q -> Q; l_cos : Q -> Q; l_asin : Q -> Q; l_acos : Q -> Q; l_atan2 : Q -> Q -> Q }.

(** math.pi, the binary64 number nearest to pi *)
Definition pi64 : Q := 884279719003555 # 281474976710656.

(** _astronomical_terms.py:108-215  _NUT: LM, LS, F, D, OM, psi_sin, ten times t*sin, eps_cos, ten times t*cos (the
    column of periods in days is not used by the code) *)
Definition NUT : list (Z * Z * Z * Z * Z * Z * Z * Z * Z) :=
  [   (0, 0, 0, 0, 1, (-171996), (-1742), 92025, 89); (0, 0, 2, (-2), 2, (-13187), (-16), 5736, (-31));
   (0, 0, 2, 0, 2, (-2274), (-2), 977, (-5)); (0, 0, 0, 0, 2, 2062, 2, (-895), 5);
   (0, (-1), 0, 0, 0, (-1426), 34, 54, (-1)); (1, 0, 0, 0, 0, 712, 1, (-7), 0);
   (0, 1, 2, (-2), 2, (-517), 12, 224, (-6)); (0, 0, 2, 0, 1, (-386), (-4), 200, 0);
   (1, 0, 2, 0, 2, (-301), 0, 129, (-1)); (0, (-1), 2, (-2), 2, 217, (-5), (-95), 3);
   ((-1), 0, 0, 2, 0, 158, 0, (-1), 0); (0, 0, 2, (-2), 1, 129, 1, (-70), 0); ((-1), 0, 2, 0, 2, 123, 0, (-53), 0);
   (1, 0, 0, 0, 1, 63, 1, (-33), 0); (0, 0, 0, 2, 0, 63, 0, (-2), 0); ((-1), 0, 2, 2, 2, (-59), 0, 26, 0);
   ((-1), 0, 0, 0, 1, (-58), (-1), 32, 0); (1, 0, 2, 0, 1, (-51), 0, 27, 0); ((-2), 0, 0, 2, 0, (-48), 0, 1, 0);
   ((-2), 0, 2, 0, 1, 46, 0, (-24), 0); (0, 0, 2, 2, 2, (-38), 0, 16, 0); (2, 0, 2, 0, 2, (-31), 0, 13, 0);
   (2, 0, 0, 0, 0, 29, 0, (-1), 0); (1, 0, 2, (-2), 2, 29, 0, (-12), 0); (0, 0, 2, 0, 0, 26, 0, (-1), 0);
   (0, 0, 2, (-2), 0, (-22), 0, 0, 0); ((-1), 0, 2, 0, 1, 21, 0, (-10), 0); (0, 2, 0, 0, 0, 17, (-1), 0, 0);
   (0, 2, 2, (-2), 2, (-16), 1, 7, 0); ((-1), 0, 0, 2, 1, 16, 0, (-8), 0); (0, 1, 0, 0, 1, (-15), 0, 9, 0);
   (1, 0, 0, (-2), 1, (-13), 0, 7, 0); (0, (-1), 0, 0, 1, (-12), 0, 6, 0); (2, 0, (-2), 0, 0, 11, 0, 0, 0);
   ((-1), 0, 2, 2, 1, (-10), 0, 5, 0); (1, 0, 2, 2, 2, (-8), 0, 3, 0); (0, (-1), 2, 0, 2, (-7), 0, 3, 0);
   (0, 0, 2, 2, 1, (-7), 0, 3, 0); (1, 1, 0, (-2), 0, (-7), 0, 0, 0); (0, 1, 2, 0, 2, 7, 0, (-3), 0);
   ((-2), 0, 0, 2, 1, (-6), 0, 3, 0); (0, 0, 0, 2, 1, (-6), 0, 3, 0); (2, 0, 2, (-2), 2, 6, 0, (-3), 0);
   (1, 0, 0, 2, 0, 6, 0, 0, 0); (1, 0, 2, (-2), 1, 6, 0, (-3), 0); (0, 0, 0, (-2), 1, (-5), 0, 3, 0);
   (0, (-1), 2, (-2), 1, (-5), 0, 3, 0); (2, 0, 2, 0, 1, (-5), 0, 3, 0); (1, (-1), 0, 0, 0, 5, 0, 0, 0);
   (1, 0, 0, (-1), 0, (-4), 0, 0, 0); (0, 0, 0, 1, 0, (-4), 0, 0, 0); (0, 1, 0, (-2), 0, (-4), 0, 0, 0);
   (1, 0, (-2), 0, 0, 4, 0, 0, 0); (2, 0, 0, (-2), 1, 4, 0, (-2), 0); (0, 1, 2, (-2), 1, 4, 0, (-2), 0);
   (1, 1, 0, 0, 0, (-3), 0, 0, 0); (1, (-1), 0, (-1), 0, (-3), 0, 0, 0); ((-1), (-1), 2, 2, 2, (-3), 0, 1, 0);
   (0, (-1), 2, 2, 2, (-3), 0, 1, 0); (1, (-1), 2, 0, 2, (-3), 0, 1, 0); (3, 0, 2, 0, 2, (-3), 0, 1, 0);
   ((-2), 0, 2, 0, 2, (-3), 0, 1, 0); (1, 0, 2, 0, 0, 3, 0, 0, 0); ((-1), 0, 2, 4, 2, (-2), 0, 1, 0);
   (1, 0, 0, 0, 2, (-2), 0, 1, 0); ((-1), 0, 2, (-2), 1, (-2), 0, 1, 0); (0, (-2), 2, (-2), 1, (-2), 0, 1, 0);
   ((-2), 0, 0, 0, 1, (-2), 0, 1, 0); (2, 0, 0, 0, 1, 2, 0, (-1), 0); (3, 0, 0, 0, 0, 2, 0, 0, 0);
   (1, 1, 2, 0, 2, 2, 0, (-1), 0); (0, 0, 2, 1, 2, 2, 0, (-1), 0); (1, 0, 0, 2, 1, (-1), 0, 0, 0);
   (1, 0, 2, 2, 1, (-1), 0, 1, 0); (1, 1, 0, (-2), 1, (-1), 0, 0, 0); (0, 1, 0, 2, 0, (-1), 0, 0, 0);
   (0, 1, 2, (-2), 0, (-1), 0, 0, 0); (0, 1, (-2), 2, 0, (-1), 0, 0, 0); (1, 0, (-2), 2, 0, (-1), 0, 0, 0);
   (1, 0, (-2), (-2), 0, (-1), 0, 0, 0); (1, 0, 2, (-2), 0, (-1), 0, 0, 0); (1, 0, 0, (-4), 0, (-1), 0, 0, 0);
   (2, 0, 0, (-4), 0, (-1), 0, 0, 0); (0, 0, 2, 4, 2, (-1), 0, 0, 0); (0, 0, 2, (-1), 2, (-1), 0, 0, 0);
   ((-2), 0, 2, 4, 2, (-1), 0, 1, 0); (2, 0, 2, 2, 2, (-1), 0, 0, 0); (0, (-1), 2, 0, 1, (-1), 0, 0, 0);
   (0, 0, (-2), 0, 1, (-1), 0, 0, 0); (0, 0, 4, (-2), 2, 1, 0, 0, 0); (0, 1, 0, 0, 2, 1, 0, 0, 0);
   (1, 1, 2, (-2), 2, 1, 0, (-1), 0); (3, 0, 2, (-2), 2, 1, 0, 0, 0); ((-2), 0, 2, 2, 2, 1, 0, (-1), 0);
   ((-1), 0, 0, 0, 2, 1, 0, (-1), 0); (0, 0, (-2), 2, 1, 1, 0, 0, 0); (0, 1, 2, 0, 1, 1, 0, 0, 0);
   ((-1), 0, 4, 0, 2, 1, 0, 0, 0); (2, 1, 0, (-2), 0, 1, 0, 0, 0); (2, 0, 0, 2, 0, 1, 0, 0, 0);
   (2, 0, 2, (-2), 1, 1, 0, (-1), 0); (2, 0, (-2), 0, 1, 1, 0, 0, 0); (1, (-1), 0, (-2), 0, 1, 0, 0, 0);
   ((-1), 0, 0, 1, 1, 1, 0, 0, 0); ((-1), (-1), 0, 2, 1, 1, 0, 0, 0); (0, 1, 0, 1, 0, 1, 0, 0, 0)]%Z.

Section Astro.
Variable rnd : Q -> Q.
Variable lm : libm.

(** a float literal n / d *)
Definition lit (n : Z) (d : positive) : Q := rnd (n # d).

(** math.radians, math.degrees *)
Definition radians (x : Q) : Q := fmul rnd x (fdiv rnd pi64 180).
Definition degrees (x : Q) : Q := fmul rnd x (fdiv rnd 180 pi64).
(** base_calendar.py:1320-1336, 1338-1354  _sin_deg, _cos_deg *)
Definition sin_deg (x : Q) : Q := l_sin lm (radians x).
Definition cos_deg (x : Q) : Q := l_cos lm (radians x).
(** math.asin and math.acos raise ValueError outside [-1, 1]; float division by zero raises *)
Definition asin_e (x : Q) : res Q := if Qleb (-1) x && Qleb x 1 then Ok (l_asin lm x) else Err ValueError.
Definition acos_e (x : Q) : res Q := if Qleb (-1) x && Qleb x 1 then Ok (l_acos lm x) else Err ValueError.
Definition fdiv_e (x y : Q) : res Q := if Qeqb y 0 then Err ZeroDivisionError else Ok (fdiv rnd x y).
Definition sq (x : Q) : Q := rnd (x * x).
Definition cube (x : Q) : Q := rnd (x * x * x).

(** julian_period.py:33-41  _julian_centuries; 43-51  _julian_millennia; 25 _J2000 *)
Definition J2000 : Q := 2451545.
Definition julian_centuries (jde : Q) : Q := fdiv rnd (fsub rnd jde J2000) 36525.
Definition julian_millennia (jde : Q) : Q := fdiv rnd (fsub rnd jde J2000) 365250.

(** base_calendar.py:73-148  _delta_t, the polynomials in the decimal year, in seconds *)
Definition far_delta_t (year : Q) : Q :=
  fadd rnd (-20) (fmul rnd 32 (sq (fdiv rnd (fsub rnd year 1820) 100))).
Definition delta_t_year (year : Q) : Q :=
  if Qltb year (-500) then far_delta_t year
  else if Qltb year 500 then
    poly rnd (fdiv rnd year 100)
      [lit 105836 10; lit (-101441) 100; lit 3378311 100000; lit (-5952053) 1000000; lit (-1798452) 10000000;
       lit 22174192 1000000000; lit 90316521 10000000000]
  else if Qltb year 1600 then
    poly rnd (fdiv rnd (fsub rnd year 1000) 100)
      [lit 15742 10; lit (-55601) 100; lit 7123472 100000; lit 319781 1000000; lit (-8503463) 10000000;
       lit (-5050998) 1000000000; lit 83572073 10000000000]
  else if Qltb year 1700 then
    poly rnd (fsub rnd year 1600) [120; lit (-9808) 10000; lit (-1532) 100000; fdiv rnd 1 7129]
  else if Qltb year 1800 then
    poly rnd (fsub rnd year 1700)
      [lit 883 100; lit 1603 10000; lit (-59285) 10000000; lit 13336 100000000; fdiv rnd (-1) 1174000]
  else if Qltb year 1860 then
    poly rnd (fsub rnd year 1800)
      [lit 1372 100; lit (-332447) 1000000; lit 68612 10000000; lit 41116 10000000; lit (-37436) 100000000;
       lit 121272 10000000000; lit (-1699) 10000000000; lit 875 1000000000000]
  else if Qltb year 1900 then
    poly rnd (fsub rnd year 1860)
      [lit 762 100; lit 5737 10000; lit (-251754) 1000000; lit 1680668 100000000; lit (-4473624) 10000000000;
       fdiv rnd 1 233174]
  else if Qltb year 1920 then
    poly rnd (fsub rnd year 1900)
      [lit (-279) 100; lit 1494119 1000000; lit (-598939) 10000000; lit 61966 10000000; lit (-197) 1000000]
  else if Qltb year 1941 then
    poly rnd (fsub rnd year 1920) [lit 2120 100; lit 84493 100000; lit (-761) 10000; lit 20936 10000000]
  else if Qltb year 1961 then
    poly rnd (fsub rnd year 1950) [lit 2907 100; lit 407 1000; fdiv rnd (-1) 233; fdiv rnd 1 2547]
  else if Qltb year 1986 then
    poly rnd (fsub rnd year 1975) [lit 4545 100; lit 1067 1000; fdiv rnd (-1) 260; fdiv rnd (-1) 718]
  else if Qltb year 2005 then
    poly rnd (fsub rnd year 2000)
      [lit 6386 100; lit 3345 10000; lit (-60374) 1000000; lit 17275 10000000; lit 651814 1000000000;
       lit 2373599 100000000000]
  else if Qltb year 2050 then
    poly rnd (fsub rnd year 2000) [lit 6292 100; lit 32217 100000; lit 5589 1000000]
  else if Qltb year 2150 then
    fsub rnd (far_delta_t year) (fmul rnd (lit 5628 10000) (fsub rnd 2150 year))
  else far_delta_t year.
(** 73-148  _delta_t: the year and month are those of gregorian_date_from_jd with its default, Meeus' algorithm. *)
Definition decimal_year (y mo : Z) : Q := fadd rnd (inject_Z y) (fdiv rnd (inject_Z mo - (1 # 2)) 12).
Definition delta_t (jd : Q) (seconds : bool) : Q :=
  let '(y, mo, _) := date_meeus rnd jd in
  let dt := delta_t_year (decimal_year y mo) in if seconds then dt else fdiv rnd dt 86400.

(** base_calendar.py:543-557  _moon_mean_anomaly; 559-573  _sun_earth_mean_anomaly; 575-590  _moon_latitude;
    592-605  _mean_moon_elongation; 607-622  _moon_ascending_node_longitude *)
Definition moon_mean_anomaly (tc : Q) : Q :=
  coterminal_angle rnd (poly rnd tc [lit 13496298 100000; lit 477198867398 1000000; lit 86972 10000000; fdiv rnd 1 56250]).
Definition sun_earth_mean_anomaly (tc : Q) : Q :=
  coterminal_angle rnd (poly rnd tc [lit 35752772 100000; lit 3599905034 100000; lit (-1603) 10000000; fdiv rnd (-1) 300000]).
Definition moon_latitude (tc : Q) : Q :=
  coterminal_angle rnd (poly rnd tc [lit 9327191 100000; lit 483202017538 1000000; lit (-36825) 10000000; fdiv rnd 1 327270]).
Definition mean_moon_elongation (tc : Q) : Q :=
  coterminal_angle rnd (poly rnd tc [lit 29785036 100000; lit 44526711148 100000; lit (-19142) 10000000; fdiv rnd 1 189474]).
Definition moon_ascending_node_longitude (tc : Q) : Q :=
  coterminal_angle rnd (poly rnd tc [lit 12504452 100000; lit (-1934136261) 1000000; lit 20708 10000000; fdiv rnd 1 450000]).

(** base_calendar.py:494-541  _nutation_obliquity_longitude: one turn of the loop, then the whole *)
Definition nut_w (lm ls ff dd om : Q) (LM LS F D OM : Z) : Q :=
  fadd rnd (fadd rnd (fadd rnd (fadd rnd (fmul rnd (inject_Z LM) lm) (fmul rnd (inject_Z LS) ls)) (fmul rnd (inject_Z F) ff))
       (fmul rnd (inject_Z D) dd)) (fmul rnd (inject_Z OM) om).
Definition nut_step (tc a b c d e : Q) (s : Q * Q) (r : Z * Z * Z * Z * Z * Z * Z * Z * Z) : Q * Q :=
  let '(LM, LS, F, D, OM, psi, psit, eps, epst) := r in
  let w := nut_w a b c d e LM LS F D OM in
  (fadd rnd (fst s) (fmul rnd (fadd rnd (inject_Z psi) (fmul rnd (lit psit 10) tc)) (sin_deg w)),
   fadd rnd (snd s) (fmul rnd (fadd rnd (inject_Z eps) (fmul rnd (lit epst 10) tc)) (cos_deg w))).
Definition nutation_obliquity_longitude (tc : Q) (deg : bool) : Q * Q :=
  let s := fold_left (nut_step tc (moon_mean_anomaly tc) (sun_earth_mean_anomaly tc) (moon_latitude tc)
                        (mean_moon_elongation tc) (moon_ascending_node_longitude tc)) NUT (0, 0) in
  let lon := fdiv rnd (fst s) 36000000 in
  let obl := fdiv rnd (snd s) 36000000 in
  if deg then (coterminal_angle rnd (degrees lon), coterminal_angle rnd (degrees obl)) else (lon, obl).
(** 453-472  _nutation_longitude, 474-492  _nutation_obliquity without the cache *)
Definition nutation_longitude (tc : Q) : Q := fst (nutation_obliquity_longitude tc false).
Definition nutation_obliquity (tc : Q) : Q := snd (nutation_obliquity_longitude tc false).

(** base_calendar.py:624-646  _true_obliquity_of_ecliptic *)
Definition OBL : list Q :=
  [lit 2343929111111111 100000000000000; lit (-13002583333333335) 10000000000000000; lit (-43055555555555555) 100000000000000000000;
   lit 5553472222222222 10000000000000000; lit (-14272222222222223) 1000000000000000000; lit (-6935277777777778) 100000000000000000;
   lit (-10847222222222222) 1000000000000000000; lit 1977777777777778 1000000000000000000; lit 7741666666666667 1000000000000000000;
   lit 16083333333333334 10000000000000000000; lit 6805555555555556 10000000000000000000].
Definition true_obliquity_of_ecliptic (tc : Q) : Q :=
  fadd rnd (poly rnd (fdiv rnd tc 100) OBL) (nutation_obliquity tc).

(** base_calendar.py:150-166  _mean_sidereal_time_greenwich; 168-185  _apparent_sidereal_time_greenwich *)
Definition mean_sidereal_time_greenwich (tc : Q) : Q :=
  coterminal_angle rnd
    (fsub rnd (fadd rnd (fadd rnd (lit 28046061837 100000000) (fmul rnd (lit 36098564736629 100000000000) (fmul rnd tc 36525)))
                        (fmul rnd (lit 387933 1000000000) (sq tc)))
              (fdiv rnd (cube tc) 38710000)).
Definition apparent_sidereal_time_greenwich (tc : Q) : Q :=
  let t0 := mean_sidereal_time_greenwich tc in
  let eps := true_obliquity_of_ecliptic tc in
  let d_psi := nutation_longitude tc in
  coterminal_angle rnd (fadd rnd t0 (fmul rnd d_psi (cos_deg eps))).

(** base_calendar.py:648-663  _sun_mean_longitude; 665-677  _eccentricity_earth_orbit; 679-699
    _sun_equation_of_center; 701-717  _sun_true_longitude; 719-738  _sun_apparent_longitude *)
Definition sun_mean_longitude (tc : Q) : Q :=
  coterminal_angle rnd (poly rnd tc [lit 28046646 100000; lit 3600076983 100000; lit 3032 10000000]).
Definition eccentricity_earth_orbit (tc : Q) : Q :=
  poly rnd tc [lit 16708634 1000000000; lit (-42037) 1000000000; lit (-1267) 10000000000].
Definition sun_equation_of_center (tc : Q) : Q :=
  let m := sun_earth_mean_anomaly tc in
  fadd rnd (fadd rnd
    (fmul rnd (fsub rnd (fsub rnd (lit 1914602 1000000) (fmul rnd (lit 4817 1000000) tc)) (fmul rnd (lit 14 1000000) (sq tc))) (sin_deg m))
    (fmul rnd (fsub rnd (lit 19993 1000000) (fmul rnd (lit 101 1000000) tc)) (sin_deg (fmul rnd 2 m))))
    (fmul rnd (lit 290 1000000) (sin_deg (fmul rnd 3 m))).
Definition sun_true_longitude (tc : Q) : Q := fadd rnd (sun_mean_longitude tc) (sun_equation_of_center tc).
Definition sun_apparent_longitude (tc : Q) : Q :=
  fsub rnd (fsub rnd (sun_true_longitude tc) (lit 569 100000))
           (fmul rnd (lit 478 100000) (sin_deg (moon_ascending_node_longitude tc))).

(** base_calendar.py:740-761  _sun_apparent_right_ascension; 763-781  _sun_apparent_declination *)
Definition sun_eps (tc : Q) : Q :=
  fadd rnd (true_obliquity_of_ecliptic tc) (fmul rnd (lit 256 100000) (cos_deg (moon_ascending_node_longitude tc))).
Definition sun_apparent_right_ascension (tc : Q) : Q :=
  let eps := sun_eps tc in
  let lam := sun_apparent_longitude tc in
  coterminal_angle rnd (degrees (l_atan2 lm (fmul rnd (cos_deg eps) (sin_deg lam)) (cos_deg lam))).
Definition sun_apparent_declination (tc : Q) : res Q :=
  let eps := sun_eps tc in
  let lam := sun_apparent_longitude tc in
  let* a := asin_e (fmul rnd (sin_deg eps) (sin_deg lam)) in
  Ok (degrees a).

(** base_calendar.py:187-203  _altitude *)
Definition altitude (delta lat h : Q) : res Q :=
  let* a := asin_e (fadd rnd (fmul rnd (sin_deg lat) (sin_deg delta))
                             (fmul rnd (fmul rnd (cos_deg lat) (cos_deg delta)) (cos_deg h))) in
  Ok (degrees a).

(** base_calendar.py:205-246  _approx_local_hour_angle *)
Definition approx_local_hour_angle (tc lat offset : Q) : res Q :=
  let* delta := sun_apparent_declination tc in
  let* c := fdiv_e (fsub rnd (sin_deg (- offset)) (fmul rnd (sin_deg lat) (sin_deg delta)))
                   (fmul rnd (cos_deg lat) (cos_deg delta)) in
  let c := if Qltb c (-1) || Qltb 1 c then fsub rnd c (inject_Z (Qfloor c)) else c in
  let* a := acos_e c in
  Ok (degrees a).

(** base_calendar.py:433-451  _local_hour_angle *)
Definition local_hour_angle (srt lon alpha : Q) : Q :=
  let h := coterminal_angle rnd (fsub rnd (fadd rnd srt lon) alpha) in
  if Qltb 180 h then fsub rnd h 360 else h.

(** base_calendar.py:54  _SUN_OFFSET *)
Definition SUN_OFFSET : Q := lit 8333 10000.
Definition TURN : Q := lit 36098564736629 100000000000.

(** base_calendar.py:402-431  _rise_set_correction *)
Definition rise_set_correction (tc ast dt lat lon m offset : Q) : res Q :=
  let srt := fadd rnd ast (fmul rnd TURN m) in
  let n := fadd rnd m (fdiv rnd dt 86400) in
  let day := fdiv rnd 1 36525 in
  let ra0 := sun_apparent_right_ascension (fsub rnd tc day) in
  let ra1 := sun_apparent_right_ascension tc in
  let ra2 := sun_apparent_right_ascension (fadd rnd tc day) in
  let* de0 := sun_apparent_declination (fsub rnd tc day) in
  let* de1 := sun_apparent_declination tc in
  let* de2 := sun_apparent_declination (fadd rnd tc day) in
  let alpha := interpolation_from_three rnd ra0 ra1 ra2 n true in
  let delta := interpolation_from_three rnd de0 de1 de2 n false in
  let h := local_hour_angle srt lon alpha in
  let* alt := altitude delta lat h in
  fdiv_e (fadd rnd alt offset)
         (fmul rnd (fmul rnd (fmul rnd 360 (cos_deg delta)) (cos_deg lat)) (sin_deg h)).

(** base_calendar.py:390-396  the loop of _rising_setting: at most [n] corrections *)
Fixpoint corrections (n : nat) (tc ast dt lat lon m offset : Q) : res Q :=
  match n with
  | O => Ok m
  | S n' =>
      let* dm := rise_set_correction tc ast dt lat lon m offset in
      let m := fadd rnd m dm in
      if Qltb (Qabs dm) (lit 1 10000) then Ok m else corrections n' tc ast dt lat lon m offset
  end.

(** base_calendar.py:356-400  _rising_setting; [set] is sr_ss = 'SET' *)
Definition rising_setting (set : bool) (jd lat lon offset : Q) : res Q :=
  let tc := julian_centuries jd in
  let dt := delta_t jd false in
  let tc_td := fadd rnd (fdiv rnd dt 36525) tc in
  let alpha := sun_apparent_right_ascension tc_td in
  let ast := apparent_sidereal_time_greenwich tc in
  let* h0 := approx_local_hour_angle tc lat offset in
  let m0 := fmod1 rnd (fdiv rnd (fsub rnd (fsub rnd alpha lon) ast) 360) in
  let m := if set then fadd rnd m0 (fdiv rnd h0 360) else fsub rnd m0 (fdiv rnd h0 360) in
  let* m := corrections 3 tc ast dt lat lon m offset in
  Ok (fmod1 rnd m).

(** base_calendar.py:294-354  _sun_rising and _sun_setting: the local midnight before the moment, then the
    fraction of the day *)
Definition local_midnight (jd lon : Q) : Q :=
  let lon_frac := fdiv rnd lon 360 in
  fsub rnd (fsub rnd (inject_Z (Qfloor (fadd rnd (fadd rnd jd lon_frac) (1 # 2)))) (1 # 2)) lon_frac.
Definition sun_event (set : bool) (jd lat lon : Q) : res Q :=
  let jd0 := local_midnight jd lon in
  let* m := rising_setting set jd0 lat lon SUN_OFFSET in
  Ok (round12 rnd (fadd rnd jd0 m)).

(** base_calendar.py:272-292  _transit_correction; 248-270  _sun_transit *)
Definition transit_correction (tc ast dt lon m : Q) : Q :=
  let srt := fadd rnd ast (fmul rnd TURN m) in
  let n := fadd rnd m (fdiv rnd dt 86400) in
  let day := fdiv rnd 1 36525 in
  let ra0 := sun_apparent_right_ascension (fsub rnd tc day) in
  let ra1 := sun_apparent_right_ascension tc in
  let ra2 := sun_apparent_right_ascension (fadd rnd tc day) in
  let alpha := interpolation_from_three rnd ra0 ra1 ra2 n true in
  fdiv rnd (- local_hour_angle srt lon alpha) 360.
Definition sun_transit (jd lon : Q) : Q :=
  let tc := julian_centuries jd in
  let dt := delta_t jd false in
  let tc_td := fadd rnd (fdiv rnd dt 36525) tc in
  let alpha := sun_apparent_right_ascension tc_td in
  let ast := apparent_sidereal_time_greenwich tc in
  let m := fdiv rnd (fsub rnd (fsub rnd alpha lon) ast) 360 in
  let m := if Qleb m 0 then fadd rnd m 1 else if Qleb 1 m then fsub rnd m 1 else m in
  fadd rnd m (transit_correction tc ast dt lon m).

End Astro.

(** The sunset computation handed to the rest of the model ([m] in BaseModel.sun_setting): the fraction of the local
    day at sunset; an exception is replaced by 0 (theorem C84 excludes it on the days of the calendar). *)
Definition astro_set (rnd : Q -> Q) (lm : libm) (jd lat lon : Q) : Q :=
  match rising_setting rnd lm true jd lat lon (SUN_OFFSET rnd) with Ok v => v | Err _ => 0 end.
