(** LimModel.v -- model of the class attributes min, max, longmin and longmax of /repo/badidatetime/datetime.py. *)
From Coq Require Import ZArith QArith List Bool String.
From Verif Require Import Base BaseModel BadiModel TduModel DateModel TimeModel.
Import ListNotations.
Local Open Scope Z_scope.

Section Limits.
Variable rnd : Q -> Q.
Variable m : Q -> Q -> Q -> Q.

(** datetime.py:984-985  date.min, date.max *)
Definition date_min : res pdate := date_new rnd m [MINYEAR; 1; 1].
Definition date_max : res pdate := date_new rnd m [MAXYEAR; 19; 19].
(** datetime.py:986-987  date.longmin, date.longmax *)
Definition date_longmin : res pdate := date_new rnd m [-5; 18; 1; 1; 1].
Definition date_longmax : res pdate := date_new rnd m [4; 5; 2; 19; 19].
(** datetime.py:1580-1581  time.min, time.max *)
Definition time_min : res ptime := time_new 0 0 0 0 None 0.
Definition time_max : res ptime := time_new 24 0 3 0 None 0.
(** datetime.py:2642-2643  datetime.min, datetime.max *)
Definition dt_min : res pdt := dt_new rnd m [MINYEAR; 1; 1] 0 0 0 0 None 0.
Definition dt_max : res pdt := dt_new rnd m [MAXYEAR; 19; 19] 0 0 0 0 None 0.
End Limits.

(** datetime.py:2954-2955  timezone.min, timezone.max: timezone._create(timedelta), which does not check the offset (2684-2697) *)
Definition zone_min : zone := {| z_off := - (23 * 60 + 59) * MINUTE; z_name := None |}.
Definition zone_max : zone := {| z_off := (23 * 60 + 59) * MINUTE; z_name := None |}.
