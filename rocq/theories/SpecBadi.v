(** SpecBadi.v -- the Badi calendar, stated without reference to the conversion code. *)
From Coq Require Import ZArith QArith Qabs List.
From Verif Require Import Base BaseModel BadiModel.
Import ListNotations.
Local Open Scope Z_scope.

(** Every month has 19 days except Ayyam-i-Ha (month 0), which has 4 or, in a leap year, 5. *)
Definition bmonth_len (leap : bool) (mo : Z) : Z := if mo =? 0 then (if leap then 5 else 4) else 19.

(** A valid Badi date; [leap y] says whether year [y] has 366 days. *)
Definition valid_bday (leap : Z -> bool) (y mo d : Z) : Prop :=
  0 <= mo <= 19 /\ 1 <= d <= bmonth_len (leap y) mo.

(** Calendar successor: Ayyam-i-Ha comes after month 18, month 19 ends the year. *)
Inductive next_bday (leap : Z -> bool) : Z * Z * Z -> Z * Z * Z -> Prop :=
| nb_day y mo d : 0 <= mo <= 19 -> 1 <= d < bmonth_len (leap y) mo -> next_bday leap (y, mo, d) (y, mo, d + 1)
| nb_month y mo : 1 <= mo < 18 -> next_bday leap (y, mo, 19) (y, mo + 1, 1)
| nb_ayyam y : next_bday leap (y, 18, 19) (y, 0, 1)
| nb_ala y : next_bday leap (y, 0, bmonth_len (leap y) 0) (y, 19, 1)
| nb_year y : next_bday leap (y, 19, 19) (y + 1, 1, 1).

(** Position of a month in the year: 1..18, then Ayyam-i-Ha, then 19. *)
Definition bmonth_pos (mo : Z) : Z := if mo =? 0 then 19 else if mo =? 19 then 20 else mo.
(** Chronological order of dates. *)
Definition bearlier (y mo d y' mo' d' : Z) : Prop :=
  y < y' \/ (y = y' /\ (bmonth_pos mo < bmonth_pos mo' \/ (mo = mo' /\ d < d'))).

(** The leap days of the historical (Julian) calendar that the exact scale skips make the encoder reject
    one Badi date each: the last day of Ayyam-i-Ha or the first of month 19. *)
Definition skipped_bdates : list (Z * Z * Z) :=
  [(-1744, 19, 1); (-1644, 0, 5); (-1544, 0, 4); (-1344, 19, 1); (-1244, 0, 5); (-1144, 0, 4);
   (-944, 19, 1); (-844, 0, 5); (-744, 0, 4); (-544, 19, 1); (-444, 0, 5); (-344, 0, 4)].
(** The ten days of the 1582 reform gap, and the day after them. *)
Definition reform_bdates : list (Z * Z * Z) :=
  [(-261, 11, 9); (-261, 11, 10); (-261, 11, 11); (-261, 11, 12); (-261, 11, 13); (-261, 11, 14);
   (-261, 11, 15); (-261, 11, 16); (-261, 11, 17); (-261, 11, 18)].
Definition after_reform : Z * Z * Z := (-261, 11, 19).

(** The admissible sunset computations: for every day of the supported period the sun sets at Tehran
    between 15:36 and 20:24 local mean time.  [m jd lat lon] is the fraction of the local day at sunset, asked at
    the local mean midnight, which at longitude 51.288701 is [H - 1/2 - 51.288701/360] for a whole number [H].
    PropertiesAstro.v proves this of the algorithm of the code. *)
Definition evening (rnd : Q -> Q) (m : Q -> Q -> Q -> Q) : Prop :=
  forall (H : Z) (jd : Q), 1700001 < H < 2900000 ->
    (Qabs (jd - (inject_Z H - (1 # 2) - (51288701 # 360000000))) <= 1 # 100000000)%Q ->
    (13 # 20 <= m jd (TEHRAN_LAT rnd) (TEHRAN_LON rnd) <= 17 # 20)%Q.

(** isleap() as a total function: is the year found to have 366 days? *)
Definition leap_of (rnd : Q -> Q) (m : Q -> Q -> Q -> Q) (y : Z) : bool :=
  match is_leap_badi (year_table rnd m) y with Ok b => b | Err _ => false end.

(** Python ints as they appear in date tuples; no clock fields. *)
Definition bd (y mo d : Z) : sdate := {| s_y := y; s_m := mo; s_d := inject_Z d; s_t := [] |}.
(** jd_from_badi_date with the default (Tehran) coordinates and the year table built at import. *)
Definition to_jd (rnd : Q -> Q) (m : Q -> Q -> Q -> Q) (d : sdate) : res Q :=
  jd_from_badi_date rnd m (year_table rnd m) d (TEHRAN_LAT rnd) (TEHRAN_LON rnd).

(** Dates near a discontinuity of the historical scale: the skipped dates, the day after each, the reform
    gap and the two days after it. *)
Definition after_skipped : list (Z * Z * Z) :=
  [(-1744, 19, 2); (-1644, 19, 1); (-1544, 19, 1); (-1344, 19, 2); (-1244, 19, 1); (-1144, 19, 1);
   (-944, 19, 2); (-844, 19, 1); (-744, 19, 1); (-544, 19, 2); (-444, 19, 1); (-344, 19, 1)].
Definition irregular_bdates : list (Z * Z * Z) :=
  skipped_bdates ++ after_skipped ++ reform_bdates ++ [after_reform; (-261, 12, 1)].

(** the day part of badi_date_from_jd with the default coordinates: (year, month, day, fraction of a day
    since sunset) *)
Definition of_jd (rnd : Q -> Q) (m : Q -> Q -> Q -> Q) (jd : Q) : res (Z * Z * Z * Q) :=
  badi_day_from_jd rnd m (year_table rnd m) jd (TEHRAN_LAT rnd) (TEHRAN_LON rnd).
(** A float instant within about a millisecond of local mean midnight at Tehran (longitude 51.288701). *)
Definition near_midnight (jd : Q) : Prop :=
  exists k : Z, (Qabs (jd + (51288701 # 360000000) + (1 # 2) - inject_Z k) < 1 # 100000000)%Q.

(** Day of the year, 1..365/366, in calendar order. *)
Definition bday_of_year (leap : bool) (mo d : Z) : Z :=
  if mo =? 0 then 342 + d else if mo =? 19 then 342 + bmonth_len leap 0 + d else 19 * (mo - 1) + d.
