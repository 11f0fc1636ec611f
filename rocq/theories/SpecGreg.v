(** SpecGreg.v -- the Gregorian calendar, stated without reference to the model. *)
From Coq Require Import ZArith QArith List.
Local Open Scope Z_scope.

(** Leap years: 4|100|400 rule, or the 4|128 rule. *)
Definition leap_rule (alt : bool) (y : Z) : Prop :=
  if alt then (4 | y) /\ ~ (128 | y)
  else (4 | y) /\ (~ (100 | y) \/ (400 | y)).

(** Number of days [n] of month [m] in a year that is / is not leap. *)
Inductive month_len (leap : Prop) : Z -> Z -> Prop :=
| ml31 m : In m (1 :: 3 :: 5 :: 7 :: 8 :: 10 :: 12 :: nil) -> month_len leap m 31
| ml30 m : In m (4 :: 6 :: 9 :: 11 :: nil) -> month_len leap m 30
| ml29 : leap -> month_len leap 2 29
| ml28 : ~ leap -> month_len leap 2 28.

(** A valid civil date: the day exists in the month. *)
Definition valid_gdate (leap : Z -> Prop) (y m d : Z) : Prop :=
  exists n, month_len (leap y) m n /\ 1 <= d <= n.

(** Calendar successor of a civil date. *)
Inductive next_gday (leap : Z -> Prop) : Z * Z * Z -> Z * Z * Z -> Prop :=
| nd_day y m d n : month_len (leap y) m n -> 1 <= d < n ->
    next_gday leap (y, m, d) (y, m, d + 1)
| nd_month y m n : month_len (leap y) m n -> m < 12 ->
    next_gday leap (y, m, n) (y, m + 1, 1)
| nd_year y : next_gday leap (y, 12, 31) (y + 1, 1, 1).

(** The historical civil calendar: Julian leap years up to 1582, Gregorian afterwards; the ten days
    5..14 October 1582 do not exist. *)
Definition hist_leap (y : Z) : Prop := if y <=? 1582 then (4 | y) else leap_rule false y.
Definition in_reform_gap (y m d : Z) : Prop := y = 1582 /\ m = 10 /\ 5 <= d <= 14.
Definition hist_date (y m d : Z) : Prop := valid_gdate hist_leap y m d /\ ~ in_reform_gap y m d.
(** successor in the historical calendar: 4 October 1582 is followed by 15 October *)
Inductive next_hist : Z * Z * Z -> Z * Z * Z -> Prop :=
| nh_reform : next_hist (1582, 10, 4) (1582, 10, 15)
| nh_next y m d q : (y, m, d) <> (1582, 10, 4) -> next_gday hist_leap (y, m, d) q ->
    next_hist (y, m, d) q.

(** Chronological order of civil dates is the lexicographic order of (year, month, day). *)
Definition earlier (y m d y' m' d' : Z) : Prop :=
  y < y' \/ (y = y' /\ (m < m' \/ (m = m' /\ d < d'))).
