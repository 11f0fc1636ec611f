(** TduModel.v -- model of the calendar arithmetic of /repo/badidatetime/_timedateutils.py: ordinals, weekdays
    and ISO weeks.  Years, months, days and weeks are Python ints; [rnd] is the float rounding, [m] the sunset
    oracle (BadiModel.v) and the year table is the one built at import.  Default (Tehran) coordinates: the
    functions below never pass others. *)
From Coq Require Import ZArith QArith Qround List Bool.
From Verif Require Import Base BaseModel BadiModel.
Import ListNotations.
Local Open Scope Z_scope.

(** _timedateutils.py:50-58 *)
Definition DAYS_BEFORE_1ST_YEAR : Z := 77.

Section Tdu.
Variable rnd : Q -> Q.
Variable m : Q -> Q -> Q -> Q.
Let T := year_table rnd m.
Let LAT := TEHRAN_LAT rnd.
Let LON := TEHRAN_LON rnd.

(** _timedateutils.py:50 *)
Definition ORDINAL_1ST_YEAR_EPOCH : Q := rnd (1721501260417 # 1000000).

(** (year, month, day) passed to jd_from_badi_date *)
Definition jd_of (y mo d : Z) : res Q :=
  jd_from_badi_date rnd m T {| s_y := y; s_m := mo; s_d := inject_Z d; s_t := [] |} LAT LON.

(** _timedateutils.py:988-999  _days_before_year *)
Definition days_before_year (year : Z) : res Z :=
  let* jd0 := jd_of (MINYEAR - 1) 19 19 in
  let* jd1 := jd_of year 1 1 in
  Ok (Qfloor (fsub rnd jd1 jd0) - 1).

(** _timedateutils.py:1001-1018  _days_before_month *)
Definition days_before_month (year month : Z) : res Z :=
  let month := month - (if month <? 2 then -18 else if (1 <? month) && (month <? 19) then 1 else 19) in
  if (0 <? month) && (month <? 19) then Ok (month * 19)
  else if month =? 0 then let* b := is_leap_badi T year in Ok (18 * 19 + 4 + b2z b)
  else Ok 0.

(** _timedateutils.py:1035-1062  _ymd2ord *)
Definition ymd2ord (year month day : Z) : res Z :=
  let fudge := if existsb (Z.eqb year) [-1796; -1792; -1788] then 1 else 0 in
  let* a := days_before_year year in
  let* b := days_before_month year month in
  Ok (a + b + day + fudge + DAYS_BEFORE_1ST_YEAR).

(** _timedateutils.py:1020-1033  _day_of_week *)
Definition day_of_week (year month day : Z) : res Z :=
  let* n := ymd2ord year month day in
  Ok (((n + 1) mod 7 + 7) mod 7).

(** _timedateutils.py:1064-1087  _ord2ymd *)
Definition ord2ymd (short : bool) (n : Z) : res bdate :=
  let jd := fadd rnd (fsub rnd (fsub rnd ORDINAL_1ST_YEAR_EPOCH 1) (inject_Z DAYS_BEFORE_1ST_YEAR)) (inject_Z n) in
  let jd0 := fadd rnd (inject_Z (Qfloor jd)) (1 # 2) in
  badi_date_from_jd rnd m T false short false true true jd0 LAT LON.

(** _timedateutils.py:1155-1172  _isoweek1jalal *)
Definition isoweek1jalal (year : Z) : res Z :=
  let* firstday := ymd2ord year 1 1 in
  let firstweekday := (firstday - 6) mod 7 in
  let week1jalal := firstday - firstweekday in
  Ok (if 3 <? firstweekday then week1jalal + 7 else week1jalal).

(** _timedateutils.py:1113-1153  _isoweek_to_badi *)
Definition isoweek_to_badi (short : bool) (year week day : Z) : res bdate :=
  let* p_offset :=
    (if negb ((0 <? week) && (week <? 52)) then
       let* dow := day_of_week year 1 1 in
       let day_one := dow + 1 in
       if (day_one =? 3) || (day_one =? 4) then
         let* _ := passert (week =? 52) in Ok 7
       else Ok 0
     else Ok 0) in
  let* _ := passert ((0 <? day) && (day <? 8)) in
  let day_offset := (week - 1) * 7 + (day - 1) + p_offset in
  let* day_1 := isoweek1jalal year in
  ord2ymd short (day_1 + day_offset).

(** _timedateutils.py:959-986  _year_week_day, week0=False (isocalendar) and True (strptime) *)
Definition year_week_day (week0 : bool) (year month day : Z) : res (Z * Z * Z) :=
  let* week1jalal := isoweek1jalal year in
  let* today := ymd2ord year month day in
  let week := (today - week1jalal) / 7 in
  let day := (today - week1jalal) mod 7 in
  if week0 then Ok (year, week + 1, day + 1)
  else if week <? 0 then
    let* week1jalal := isoweek1jalal (year - 1) in
    Ok (year - 1, (today - week1jalal) / 7 + 1, (today - week1jalal) mod 7 + 1)
  else if 52 <=? week then
    let* next := isoweek1jalal (year + 1) in
    if next <=? today then Ok (year + 1, 1, day + 1) else Ok (year, week + 1, day + 1)
  else Ok (year, week + 1, day + 1).

End Tdu.
