(** SpecNut.v -- the nutation of the earth's axis by the short formulas of J. Meeus, Astronomical Algorithms (2nd ed.),
    chapter 22, p. 144, in exact real arithmetic.  Nothing of the model is used here. *)
From Coq Require Import Reals.
From Verif Require Import SpecSun.
Local Open Scope R_scope.

(** longitude of the ascending node of the moon's orbit; mean longitudes of the sun and the moon; in degrees, for [t]
    Julian centuries from J2000.0 *)
Definition moon_node (t : R) : R := 125.04452 - 1934.136261 * t + 0.0020708 * (t * t) + t * t * t / 450000.
Definition sun_mean (t : R) : R := 280.4665 + 36000.7698 * t.
Definition moon_mean (t : R) : R := 218.3165 + 481267.8813 * t.
(** nutation in longitude and in obliquity, in seconds of arc *)
Definition nutation_psi (t : R) : R :=
  -17.20 * sind (moon_node t) - 1.32 * sind (2 * sun_mean t) - 0.23 * sind (2 * moon_mean t) + 0.21 * sind (2 * moon_node t).
Definition nutation_eps (t : R) : R :=
  9.20 * cosd (moon_node t) + 0.57 * cosd (2 * sun_mean t) + 0.10 * cosd (2 * moon_mean t) - 0.09 * cosd (2 * moon_node t).
(** (22.3): Laskar's mean obliquity of the ecliptic, in degrees, with u in units of 10000 Julian years *)
Definition laskar (t : R) : R :=
  let u := t / 100 in
  23 + 26 / 60 + (21.448 + u * (-4680.93 + u * (-1.55 + u * (1999.25 + u * (-51.38 + u * (-249.67 + u * (-39.05
    + u * (7.12 + u * (27.87 + u * (5.79 + u * 2.45)))))))))) / 3600.
(** chapter 25: the sun's apparent longitude, corrected for nutation by the node alone *)
Definition apparent_lon (t : R) : R := sun_lon t - 0.00478 * sind (moon_node t).
(** (25.8): the mean obliquity corrected by 0.00256 cos Omega; and the same correction made to the true obliquity *)
Definition book_eps (t : R) : R := laskar t + 0.00256 * cosd (moon_node t).
Definition used_eps (t : R) : R := laskar t + nutation_eps t / 3600 + 0.00256 * cosd (moon_node t).
