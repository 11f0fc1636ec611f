(** SpecTs.v -- time stamps and Julian dates. *)
From Coq Require Import ZArith QArith Qabs.
Local Open Scope Q_scope.

(** The time stamp of a Julian date, with the epoch the package uses (2440585.5; its Julian dates are two days
    behind the astronomical ones for current dates). *)
Definition stamp_of (jd : Q) : Q := (jd - (4881171 # 2)) * 86400.
(** A time stamp within about two milliseconds of local mean midnight at Tehran (longitude 51.288701). *)
Definition midnight_stamp (t : Q) : Prop :=
  exists k : Z, Qabs (t / 86400 + (4881171 # 2) + (51288701 # 360000000) + (1 # 2) - inject_Z k) < 2 # 100000000.
