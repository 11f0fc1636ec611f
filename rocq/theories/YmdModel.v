(** YmdModel.v -- model of ymdhms_from_date of /repo/badidatetime/gregorian_calendar.py for dates of three to seven
    parts (GregModel.v has it for the three part dates gregorian_date_from_jd passes). *)
From Coq Require Import ZArith QArith Qround List Bool.
From Verif Require Import Base BaseModel GregModel ConvModel.
Import ListNotations.
Local Open Scope Q_scope.

Section Ymd.
Variable rnd : Q -> Q.

(** gregorian_calendar.py:286-311  ymdhms_from_date; a part the tuple lacks is 0 here as it is there.  None among the
    parts (accepted by the check, a TypeError in the sum) is not modelled. *)
Definition ymdhms_parts (us : bool) (y m : Z) (d hh mm ss u : Q) : res gdate :=
  let* _ := check_greg rnd false y m d hh mm ss in
  let total := fadd rnd (fadd rnd (fadd rnd (fmul rnd hh 3600) (fmul rnd mm 60)) ss) (fdiv rnd u 1000000) in
  let day := fadd rnd d (fdiv rnd total SECONDS_PER_DAY) in
  Ok (y, m, inject_Z (Qfloor day), clock_of rnd us day).
End Ymd.
