(** SpecConv.v -- counting civil days, stated without reference to the conversion code. *)
From Coq Require Import ZArith QArith List.
From Verif Require Import SpecGreg.
Local Open Scope Z_scope.

(** [q] is [n] days after [p] in the Gregorian calendar (extended to all years). *)
Inductive days_after : Z * Z * Z -> Z * Z * Z -> Z -> Prop :=
| da_same p : days_after p p 0
| da_next p q r n : days_after p q n -> next_gday (leap_rule false) q r -> days_after p r (n + 1).

(** The day counts of the library put midnight of 1 January 1 at 1721423.5, so midnight of 1 January of the year
    0, a leap year, at 1721057.5. *)
Definition midnight (y mo d : Z) (j : Q) : Prop :=
  exists n, days_after (0, 1, 1) (y, mo, d) n /\ (j == (3442115 # 2) + inject_Z n)%Q.

(** Seconds since midnight shown by a tuple of clock fields: hour, minute, second and perhaps microsecond. *)
Definition clock_seconds (c : list Q) : Q :=
  (nth 0 c 0 * 3600 + nth 1 c 0 * 60 + nth 2 c 0 + nth 3 c 0 * (1 # 1000000))%Q.
(** A proper clock time; hour 24 only as 24:00:00. *)
Definition proper_clock (c : list Q) : Prop :=
  exists h mi u : Z, exists s : Q, (c = inject_Z h :: inject_Z mi :: s :: nil /\ u = 0 \/ c = inject_Z h :: inject_Z mi :: s :: inject_Z u :: nil) /\
    0 <= h <= 24 /\ 0 <= mi <= 59 /\ (0 <= s < 60)%Q /\ 0 <= u <= 999999 /\ (h = 24 -> mi = 0 /\ (s == 0)%Q /\ u = 0).
