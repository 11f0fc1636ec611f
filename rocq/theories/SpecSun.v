(** SpecSun.v -- where the sun is, after J. Meeus, Astronomical Algorithms (2nd ed.), in exact real arithmetic.
    Nothing of the model is used here.  Angles are in degrees. *)
From Coq Require Import Reals.
Local Open Scope R_scope.

Definition sind (x : R) : R := sin (x * (PI / 180)).
Definition cosd (x : R) : R := cos (x * (PI / 180)).
(** (12.1): Julian centuries from J2000.0 *)
Definition centuries_of (jd : R) : R := (jd - 2451545) / 36525.
(** (25.2): geometric mean longitude; chapter 22: mean anomaly *)
Definition sun_mean_lon (t : R) : R := 280.46646 + 36000.76983 * t + 0.0003032 * (t * t).
Definition sun_anomaly (t : R) : R := 357.52772 + 35999.05034 * t - 0.0001603 * (t * t) - t * t * t / 300000.
(** chapter 25: equation of the centre, and the longitude corrected for aberration *)
Definition sun_center (t : R) : R :=
  (1.914602 - 0.004817 * t - 0.000014 * (t * t)) * sind (sun_anomaly t)
  + (0.019993 - 0.000101 * t) * sind (2 * sun_anomaly t) + 0.00029 * sind (3 * sun_anomaly t).
Definition sun_lon (t : R) : R := sun_mean_lon t + sun_center t - 0.00569.
(** (22.2): mean obliquity of the ecliptic, 23 deg 26' 21.448'' - 46.8150'' t - 0.00059'' t^2 + 0.001813'' t^3 *)
Definition obliquity (t : R) : R := 23 + 26 / 60 + (21.448 - 46.8150 * t - 0.00059 * (t * t) + 0.001813 * (t * t * t)) / 3600.
(** (12.4): mean sidereal time at Greenwich *)
Definition sidereal (t : R) : R := 280.46061837 + 360.98564736629 * (t * 36525) + 0.000387933 * (t * t) - t * t * t / 38710000.

(** The sine of the sun's altitude at latitude [lat] and longitude [lon] (east positive) at Julian day [jd]: the scalar
    product of the direction of the sun, (cos l, cos e sin l, sin e sin l) in equatorial coordinates (13.3, 13.4), with
    that of the zenith, which is at declination [lat] and at the local sidereal time in right ascension (13.6). *)
Definition sun_altitude_sine (lat lon jd : R) : R :=
  let t := centuries_of jd in
  let l := sun_lon t in let e := obliquity t in let th := sidereal t + lon in
  cosd lat * cosd th * cosd l + cosd lat * sind th * (cosd e * sind l) + sind lat * (sind e * sind l).
