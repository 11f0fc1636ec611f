(** SpecTime.v -- vocabulary for the statements about times of day, datetimes and fixed zones. *)
From Coq Require Import ZArith QArith List Bool.
From Verif Require Import Base BadiModel SpecBadi DateModel SpecDate TimeModel.
Local Open Scope Z_scope.

(** Clock fields the library documents as valid (hour 24 and second 60 included). *)
Definition valid_clock (h mi s us : Z) : Prop := 0 <= h <= 24 /\ 0 <= mi <= 59 /\ 0 <= s <= 60 /\ 0 <= us <= 999999.
(** ... and those of an ordinary day. *)
Definition plain_clock (h mi s us : Z) : Prop := 0 <= h <= 23 /\ 0 <= mi <= 59 /\ 0 <= s <= 59 /\ 0 <= us <= 999999.

(** Offset of an optional tzinfo, in microseconds; None for a naive object. *)
Definition offset (t : option tz) : option Z := match t with Some z => tz_off z | None => None end.
(** Offsets a tzinfo may report: strictly within a day. *)
Definition good_offset (t : option tz) : Prop := forall o, offset t = Some o -> -86400000000 < o < 86400000000.
Definition whole_minutes (o : Z) : Prop := o mod 60000000 = 0.
(** Python identity: two references to one object see one object. *)
Definition coherent (x y : option tz) : Prop := same_tz x y = true -> offset x = offset y.

Definition valid_time (a : ptime) : Prop :=
  valid_clock (t_h a) (t_mi a) (t_s a) (t_us a) /\ (t_fold a = 0 \/ t_fold a = 1) /\ good_offset (t_tz a).
Definition valid_pair (a b : ptime) : Prop := valid_time a /\ valid_time b /\ coherent (t_tz a) (t_tz b).

(** Microseconds since 00:00 of the wall clock. *)
Definition clock_us (h mi s us : Z) : Z := ((h * 60 + mi) * 60 + s) * 1000000 + us.
Definition wall (a : ptime) : Z := clock_us (t_h a) (t_mi a) (t_s a) (t_us a).

(** Position of a time in the order of (minute, second, microsecond) with seconds 0..60; [min] the minute. *)
Definition position (min s us : Z) : Z := (min * 61 + s) * 1000000 + us.
(** Minute of the clock, of UTC (whole minutes of the offset only). *)
Definition local_minute (a : ptime) : Z := t_h a * 60 + t_mi a.
Definition utc_minute (a : ptime) (o : Z) : Z := t_h a * 60 + t_mi a - o / 60000000.

(** The operators answer as the comparison of two integers. *)
Definition compares_as (a b : ptime) (x y : Z) : Prop :=
  time_eq a b = Ok (x =? y) /\ time_lt a b = Ok (x <? y) /\ time_le a b = Ok (x <=? y) /\
  time_gt a b = Ok (y <? x) /\ time_ge a b = Ok (y <=? x).

(** ** Datetimes on the line of microseconds *)
Definition dt_clock (a : pdt) : Z := clock_us (dt_h a) (dt_mi a) (dt_s a) (dt_us a).
Definition valid_dt_clock (a : pdt) : Prop :=
  valid_clock (dt_h a) (dt_mi a) (dt_s a) (dt_us a) /\ (dt_fold a = 0 \/ dt_fold a = 1) /\ good_offset (dt_tz a).
(** [a] is a supported datetime whose wall clock shows [l] microseconds since 0001-01-01 00:00 minus one day
    (rata die times a day plus the clock). *)
Definition on_line (rnd : Q -> Q) (m : Q -> Q -> Q -> Q) (a : pdt) (l : Z) : Prop :=
  exists y mo d r, supported rnd m (dt_d a) y mo d /\ rata_die rnd m y mo d r /\ l = r * 86400000000 + dt_clock a.
(** The datetime's day is in none of the three years whose ordinals the code computes wrongly (C12). *)
Definition steady_dt (a : pdt) : Prop := forall y mo d, denotes (dt_d a) y mo d -> ~ In y stale_years.
(** Neither is it within a year of them. *)
Definition calm_dt (a : pdt) : Prop := forall y mo d y', denotes (dt_d a) y mo d -> y - 1 <= y' <= y + 1 -> ~ In y' stale_years.
Definition dt_compares_as (rnd : Q -> Q) (m : Q -> Q -> Q -> Q) (a b : pdt) (x y : Z) : Prop :=
  dt_eq rnd m a b = Ok (x =? y) /\ dt_lt rnd m a b = Ok (x <? y) /\ dt_le rnd m a b = Ok (x <=? y) /\
  dt_gt rnd m a b = Ok (y <? x) /\ dt_ge rnd m a b = Ok (y <=? x).
