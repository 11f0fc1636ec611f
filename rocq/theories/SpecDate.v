(** SpecDate.v -- vocabulary for the statements about ordinals, weekdays, ISO weeks and the date classes. *)
From Coq Require Import ZArith QArith Qround List Bool.
From Verif Require Import Base BaseModel BadiModel DateModel SpecBadi.
Import ListNotations.
Local Open Scope Z_scope.

(** The number of days from the reference day to a Badi date: the rata die of the first day of the year (table
    built at import) plus the days elapsed in the year.  Rata die 1 is the civil day 0001-01-01 of the proleptic
    Gregorian calendar, a Monday (a Badi day is numbered by the civil day whose evening opens it). *)
Definition rata_die (rnd : Q -> Q) (m : Q -> Q -> Q -> Q) (y mo d r : Z) : Prop :=
  exists z, year_table rnd m y = Some z /\ r = z + bday_of_year (leap_of rnd m y) mo d - 1.

(** Time of day (Universal Time, fraction since noon) at which a Badi day opens. *)
Definition opening (rnd : Q -> Q) (m : Q -> Q -> Q -> Q) (y mo d : Z) (f : Q) : Prop :=
  exists j, to_jd rnd m (bd y mo d) = Ok j /\ f = (j - inject_Z (Qfloor j))%Q.

(** The Naw-Ruz of year y opens earlier in the day than (-1843, 19, 19) did. *)
Definition opens_earlier (rnd : Q -> Q) (m : Q -> Q -> Q -> Q) (y : Z) : Prop :=
  exists f f0, opening rnd m y 1 1 f /\ opening rnd m (-1843) 19 19 f0 /\ (f < f0)%Q.

(** No Naw-Ruz opens earlier in the day than (-1843, 19, 19): a fact about the sunsets at Tehran, on which the
    ordinals rest.  C87 proves it of the sunsets the code computes. *)
Definition naw_ruz_order (rnd : Q -> Q) (m : Q -> Q -> Q -> Q) : Prop :=
  forall y, -1843 <= y <= 1162 -> ~ opens_earlier rnd m y.
(** The three years singled out by _ymd2ord, whose ordinals it raises by one.  The correction is out of date: C87. *)
Definition stale_years : list Z := [-1796; -1792; -1788].

(** The date object [a] stands for day (y, mo, d) of the short form. *)
Definition denotes (a : pdate) (y mo d : Z) : Prop :=
  match a with
  | DShort y' mo' d' => y' = y /\ mo' = mo /\ d' = d
  | DLong k v yy mo' d' => 1 <= v <= 19 /\ 1 <= yy <= 19 /\ (k - 1) * 361 + (v - 1) * 19 + yy = y /\ mo' = mo /\ d' = d
  end.
(** ... and that day is a valid day of the supported years MINYEAR..MAXYEAR. *)
Definition supported (rnd : Q -> Q) (m : Q -> Q -> Q -> Q) (a : pdate) (y mo d : Z) : Prop :=
  denotes a y mo d /\ -1842 <= y <= 1161 /\ valid_bday (leap_of rnd m) y mo d.

(** The days whose ordinal fromordinal refuses inside its range. *)
Definition refused_bdates : list (Z * Z * Z) := skipped_bdates ++ reform_bdates.

(** Days numbered by rata die: 1 is a Monday; the week opens on Saturday (Jalal). *)
Definition is_saturday (r : Z) : Prop := r mod 7 = 6.
(** [w] opens week 1 of a year whose first day is [f]: it is a Saturday, its week has at least four days in
    the year and the week before has fewer than four. *)
Definition opens_week1 (f w : Z) : Prop := is_saturday w /\ 4 <= w + 7 - f /\ w - f < 4.
