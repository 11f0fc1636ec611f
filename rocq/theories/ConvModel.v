(** ConvModel.v -- model of the conversions between Badi and Gregorian dates of
    /repo/badidatetime/badi_calendar.py.  [T] is the year table built at import.  A result [Ok None] stands for
    the year search of gregorian_date_from_jd not ending (excluded by theorem). *)
From Coq Require Import ZArith QArith Qround Qabs List Bool.
From Verif Require Import Base BaseModel GregModel BadiModel.
Import ListNotations.
Local Open Scope Q_scope.

(** year, month, day (with its fraction if no clock is asked for) and the clock fields *)
Definition gdate := (Z * Z * Q * list Q)%type.

Section Conv.
Variable rnd : Q -> Q.
Variable m : Q -> Q -> Q -> Q.
Variable T : Z -> option Z.

(** base_calendar.py:1256-1285  _hms_from_decimal_day as a tuple: microseconds only on request *)
Definition clock_of (us : bool) (d : Q) : list Q :=
  if us then let '(h, mi, s, u) := hmsu_from_decimal_day rnd d in [inject_Z h; inject_Z mi; inject_Z s; inject_Z u]
  else let '(h, mi, s) := hms_from_decimal_day rnd d in [inject_Z h; inject_Z mi; s].

(** gregorian_calendar.py:84-184  gregorian_date_from_jd; 286-311 ymdhms_from_date for its three part date (the
    seconds it adds to the day are 0.0) *)
Definition gregorian_date_from_jd (hms us exact alt : bool) (jd : Q) : res (option gdate) :=
  match (if exact then date_exact rnd alt jd else Some (date_meeus rnd jd)) with
  | None => Ok None
  | Some (y, mo, d) =>
      if hms
      then let* _ := check_greg rnd false y mo d 0 0 0 in Ok (Some (y, mo, inject_Z (Qfloor d), clock_of us d))
      else Ok (Some (y, mo, d, []))
  end.

(** badi_calendar.py:493-520  gregorian_date_from_badi_date; lat, lon and zone given (the caller passes Tehran's
    when one of them is None) *)
Definition gregorian_date_from_badi_date (us exact : bool) (d : sdate) (lat lon zone : Q) : res (option gdate) :=
  let* jd := jd_from_badi_date rnd m T d lat lon in
  gregorian_date_from_jd true us exact false (fadd rnd jd (HR rnd zone)).

(** badi_calendar.py:116-137  naw_ruz_g_date *)
Definition naw_ruz_g_date (hms : bool) (year : Z) (lat lon zone : Q) : res (option gdate) :=
  let* jd := jd_from_badi_date rnd m T {| s_y := year; s_m := 1; s_d := 1; s_t := [] |} lat lon in
  gregorian_date_from_jd hms false true false (fadd rnd jd (HR rnd zone)).

(** badi_calendar.py:139-163  first_day_of_ridvan_g_date *)
Definition first_day_of_ridvan_g_date (hms : bool) (year : Z) (lat lon zone : Q) : res (option gdate) :=
  let* jd := jd_from_badi_date rnd m T {| s_y := year; s_m := 2; s_d := 13; s_t := [] |} lat lon in
  gregorian_date_from_jd hms false true false (fadd rnd jd (HR rnd zone)).

(** badi_calendar.py:96-114  utc_sunset *)
Definition utc_sunset (d : sdate) (lat lon zone : Q) : res (list Q) :=
  let* jd := jd_from_badi_date rnd m T {| s_y := s_y d; s_m := s_m d; s_d := s_d d; s_t := [] |} lat lon in
  Ok (clock_of false (fadd rnd (fadd rnd jd (HR rnd zone)) (1 # 2))).

(** badi_calendar.py:458-491  badi_date_from_gregorian_date *)
Definition badi_date_from_gregorian_date (us short trim rtd exact : bool) (y mo : Z) (d hh mm ss lat lon : Q) : res bdate :=
  let* jd := jd_from_gregorian_date rnd exact false y mo d hh mm ss in
  badi_date_from_jd rnd m T us short false trim rtd jd lat lon.

(** gregorian_calendar.py:255-263  gregorian_year_from_jd *)
Definition gregorian_year_from_jd (jd : Q) : Z := fst (fst (date_meeus rnd jd)).

(** badi_calendar.py:746-779  _day_length; the decimal answer on the left, the clock on the right *)
Definition day_length (decimal : bool) (jd lat lon : Q) : res (Q + list Q) :=
  let jd0 := inject_Z (Qfloor jd) in
  let* n := meeus_from_exact rnd (jd0 + 1) in
  let ss1 := sun_setting rnd m n lat lon in
  let* n := meeus_from_exact rnd jd0 in
  let ss0 := sun_setting rnd m n lat lon in
  let ut := fsub rnd ss1 ss0 in
  if decimal then Ok (inl (round12 rnd ut))
  else let '(h, mi, s) := hms_from_decimal_day rnd ut in
       Ok (inr [inject_Z (if (h =? 0)%Z then 24 else h); inject_Z mi; s]).
End Conv.

(** badi_calendar.py:28  _BAHAI_LOCATION[2] *)
Definition TEHRAN_ZONE : Q := 7 # 2.
