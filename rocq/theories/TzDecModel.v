(** TzDecModel.v -- time zones as parts of a revolution. *)
From Coq Require Import ZArith QArith.
From Verif Require Import Base Flt BaseModel.

Section TzDec.
Variable rnd : Q -> Q.
(** base_calendar.py:1218-1237  _tz_decimal_from_dhms *)
Definition tz_decimal_from_dhms (days hours minutes : Z) (seconds : Q) : res Q :=
  let* s := seconds_from_dhms rnd days hours minutes seconds 0 0 in Ok (fdiv rnd s 86400).
(** base_calendar.py:1239-1256  _tz_dhms_from_decimal *)
Definition tz_dhms_from_decimal (dec : Q) : Z * Z * Z * Q := dhms_from_seconds rnd (fmul rnd dec 86400) 0.
End TzDec.
