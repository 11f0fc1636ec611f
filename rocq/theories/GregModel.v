(** GregModel.v -- model of /repo/badidatetime/gregorian_calendar.py. *)
From Coq Require Import ZArith QArith Qround Qabs List Bool.
From Verif Require Import Base BaseModel.
Import ListNotations.
Local Open Scope Q_scope.

(** gregorian_calendar.py:19  _MONTHS *)
Definition MONTHS : list Z := [31; 28; 31; 30; 31; 30; 31; 31; 30; 31; 30; 31]%Z.

(** gregorian_calendar.py:313-330  _is_leap_year (Boolean products and sums written as and/or; the
    two summands of the 4|100|400 rule exclude each other exactly as in the source: their sum is
    compared with 1) *)
Definition is_leap_g (alt : bool) (y : Z) : bool :=
  (if alt
   then (b2z (y mod 4 =? 0) * b2z (negb (y mod 128 =? 0)) =? 1)
   else (b2z (y mod 4 =? 0) * (b2z (negb (y mod 100 =? 0)) + b2z (y mod 400 =? 0)) =? 1))%Z.

(** julian_period.py:31  _JULIAN_LEAP_YEAR *)
Definition julian_leap_year (y : Z) : bool := (y mod 4 =? 0)%Z.

(** list(_MONTHS) with month_days[1] += leap *)
Definition month_days (leap : bool) : list Z := [31; 28 + b2z leap; 31; 30; 31; 30; 31; 31; 30; 31; 30; 31]%Z.

(** Python slice [l[:k]] for an int k (negative k counts from the end). *)
Definition slice_to {A} (l : list A) (k : Z) : list A :=
  let n := Z.of_nat (length l) in
  firstn (Z.to_nat (if k <? 0 then Z.max 0 (n + k) else k)%Z) l.

Definition zsum (l : list Z) : Z := fold_right Z.add 0%Z l.

Section Greg.
Variable rnd : Q -> Q.

(** gregorian_calendar.py:332-374  _check_valid_gregorian_month_day.
    month and year are ints, day/hour/minute/second ints or floats. *)
Definition check_greg (historical : bool) (y m : Z) (d hh mm ss : Q) : res unit :=
  let month := Z.abs m in
  let day := Qabs d in
  let ly := if (historical && (y <? 1583)%Z)%bool then julian_leap_year y else is_leap_g false y in
  let* _ := passert ((1 <=? month) && (month <=? 12))%Z in
  let days := (nth (Z.to_nat (month - 1)) MONTHS 0 + (if (month =? 2)%Z then b2z ly else 0))%Z in
  let* _ := passert ((1 <=? Qfloor day) && (Qfloor day <=? days))%Z in
  let* _ := passert (Qltb hh 24) in
  let* _ := passert (Qltb mm 60) in
  let nz x := negb (Qeqb x 0) in
  let* _ := (if nz hh || nz mm || nz ss then passert (Qeqb (fmod1 rnd day) 0) else Ok tt) in
  let* _ := (if nz mm || nz ss then passert (Qeqb (fmod1 rnd hh) 0) else Ok tt) in
  (if nz ss then passert (Qeqb (fmod1 rnd mm) 0) else Ok tt).

(** gregorian_calendar.py:265-284  date_from_ymdhms *)
Definition date_from_ymdhms (y m : Z) (d hh mm ss : Q) : res (Z * Z * Q) :=
  let* _ := check_greg false y m d hh mm ss in
  Ok (y, m, fadd rnd d (round12 rnd (fadd rnd (fadd rnd (HR rnd hh) (MN rnd mm)) (SEC rnd ss)))).

Definition GREG0 : Q := 3442845 # 2.    (* _GREGORIAN_EPOCH - 1 = 1721422.5 *)

(** gregorian_calendar.py:55-61  exact branch of jd_from_gregorian_date after date_from_ymdhms *)
Definition jd_exact (alt : bool) (year month : Z) (day : Q) : Q :=
  let td := days_in_years alt (year - 1) in
  let days := fadd rnd (inject_Z td) GREG0 in
  let md := month_days (is_leap_g alt year) in
  let days := fadd rnd days (fadd rnd (inject_Z (zsum (slice_to md (month - 1)))) day) in
  round12 rnd days.

(** gregorian_calendar.py:62-80  Meeus branch *)
Definition jd_meeus (year month : Z) (day : Q) : res Q :=
  let* _ := passert (negb ((year =? 1582)%Z && (month =? 10)%Z &&
                           existsb (fun d => Qeqb day (inject_Z d)) [5;6;7;8;9;10;11;12;13;14]%Z)) in
  let '(year, month) := if (month <=? 2)%Z then (year - 1, month + 12)%Z else (year, month) in
  let ge := (* (year, month, day) >= (1582, 10, 15) *)
    ((1582 <? year) || ((year =? 1582) && ((10 <? month) || ((month =? 10) && Qleb 15 day))))%Z%bool in
  let b := if ge then (let a := Qfloor (fdiv rnd (inject_Z year) 100) in
                       2 - a + Qfloor (fdiv rnd (inject_Z a) 4))%Z else 0%Z in
  let s := inject_Z (Qfloor (fmul rnd (1461 # 4) (inject_Z year))
                     + Qfloor (fmul rnd (rnd (306001 # 10000)) (inject_Z (month + 1)))) in
  Ok (round12 rnd (fadd rnd (fadd rnd (fadd rnd s day) (inject_Z b)) (3441989 # 2))).

(** gregorian_calendar.py:26-82  jd_from_gregorian_date on (y, m, d, hh, mm, ss) *)
Definition jd_from_gregorian_date (exact alt : bool) (y m : Z) (d hh mm ss : Q) : res Q :=
  let* (y, m, d) := date_from_ymdhms y m d hh mm ss in
  if exact then Ok (jd_exact alt y m d) else jd_meeus y m d.

(** gregorian_calendar.py:121-124  the while loop: one iteration of "while days > 365" *)
Definition gstep (alt : bool) (md : Q) (year : Z) : Z :=
  if Qltb 365 (fsub rnd md (inject_Z (days_in_years alt year))) then (year + 1)%Z else year.

(** Fuel: the loop body is iterated [fuel] times; if the guard still holds afterwards the model
    answers [None] (excluded by theorem). *)
Definition gloop (alt : bool) (md : Q) (start : Z) : option Z :=
  let fuel := Z.to_pos (2 * Z.abs start + 4) in
  let y := Pos.iter (gstep alt md) start fuel in
  if Qltb 365 (fsub rnd md (inject_Z (days_in_years alt y))) then None else Some y.

(** gregorian_calendar.py:133-139  the month search; returns (month, day) with day = 0 and the last
    month when no month matches *)
Fixpoint gmonth (days : Q) (d : Z) (month : Z) (l : list Z) : Z * Q :=
  match l with
  | [] => ((month - 1)%Z, 0)
  | ds :: l' =>
      let d := (d + ds)%Z in
      if Qltb (inject_Z d) days then gmonth days d (month + 1) l'
      else (month, inject_Z (Qceiling (fsub rnd days (inject_Z (d - ds)))))
  end.

(** MEAN_TROPICAL_YEAR = 365.2421897, base_calendar.py:44 *)
Definition TROPICAL : Q := rnd (3652421897 # 10000000).

(** gregorian_calendar.py:112-149  exact branch of gregorian_date_from_jd *)
Definition date_exact (alt : bool) (jd : Q) : option (Z * Z * Q) :=
  let md := fsub rnd jd GREG0 in
  let year := (Qfloor (Qabs (fdiv rnd md TROPICAL)) + 1)%Z in
  let year := (if Qltb md GREG0 then - year else year)%Z in
  match gloop alt md year with
  | None => None
  | Some year =>
    let days := fsub rnd md (inject_Z (days_in_years alt year)) in
    let '(days, year) :=
      if Qeqb days 0
      then ((if ((year <? 0) && negb (year mod 4 =? 0))%Z%bool then 365 else 366), year)
      else (days, (year + 1)%Z) in
    let ml := month_days (is_leap_g alt year) in
    let '(month, day) := gmonth days 0 1 ml in
    let f := fmod1 rnd jd in
    let day := fadd rnd day (fsub rnd f (if Qltb (1#2) f then 3#2 else 1#2)) in
    let '(year, month, day) :=
      if Qltb day 1
      then let month := (if 1 <? month then month - 1 else month + 11)%Z in
           let day := fadd rnd (inject_Z (nth (Z.to_nat (month - 1)) ml 0%Z)) day in
           let year := (if month =? 12 then year - 1 else year)%Z in
           (year, month, day)
      else (year, month, day) in
    Some (year, month, round12 rnd day)
  end.

(** gregorian_calendar.py:150-179  Meeus branch of gregorian_date_from_jd *)
Definition date_meeus (jd : Q) : Z * Z * Q :=
  let j_day := fadd rnd jd (1#2) in
  let z := Qfloor j_day in
  let f := fmod1 rnd j_day in
  let a := if (2299161 <=? z)%Z
           then let alpha := Qfloor (fdiv rnd (fsub rnd (inject_Z z) (7468865 # 4)) (146097 # 4)) in
                (z + 1 + alpha - Qfloor (fdiv rnd (inject_Z alpha) 4))%Z
           else z in
  let b := (a + 1524)%Z in
  let c := Qfloor (fdiv rnd (fsub rnd (inject_Z b) (rnd (1221 # 10))) (1461 # 4)) in
  let d := Qfloor (fmul rnd (1461 # 4) (inject_Z c)) in
  let e := Qfloor (fdiv rnd (inject_Z (b - d)) (rnd (306001 # 10000))) in
  let day := fadd rnd (inject_Z (b - d - Qfloor (fmul rnd (rnd (306001 # 10000)) (inject_Z e)))) f in
  let month := (if 13 <? e then e - 13 else e - 1)%Z in
  let year := (if 2 <? month then c - 4716 else c - 4715)%Z in
  (year, month, round12 rnd day).

(** gregorian_calendar.py:286-311  ymdhms_from_date for a three part date *)
Definition ymdhms_from_date (y m : Z) (d : Q) : res (Z * Z * Z * (Z * Z * Q)) :=
  let* _ := check_greg false y m d 0 0 0 in
  Ok (y, m, Qfloor d, hms_from_decimal_day rnd d).

End Greg.

(** gregorian_calendar.py:210-218  year search of posix_timestamp (used in MiscModel.v).
    The [while True] loop runs on fuel. *)
Fixpoint posix_year (fuel : nat) (year days : Z) : option (Z * Z) :=
  match fuel with
  | O => None
  | S k =>
      let diy := (365 + b2z (is_leap_g false year))%Z in
      if (days <? diy)%Z then Some (year, days) else posix_year k (year + 1) (days - diy)%Z
  end.

(** gregorian_calendar.py:220-233  month search of posix_timestamp *)
Fixpoint posix_month (days before month : Z) (l : list Z) : Z * Z :=
  match l with
  | [] => ((month - 1)%Z, 0%Z)    (* loop exhausted: unreachable, days <= 366 *)
  | dm :: l' =>
      let before' := (before + dm)%Z in
      if (before' <? days)%Z then posix_month days before' (month + 1) l'
      else (month, (days - before)%Z)
  end.
