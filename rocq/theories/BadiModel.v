(** BadiModel.v -- model of /repo/badidatetime/badi_calendar.py and _coefficients.py.

    Parameters: [rnd], the float rounding (Flt.v); [m], the fraction of the local day at which the sun sets
    (base_calendar.py:356-400 _rising_setting, an oracle: astronomy is not modelled); [T], the class attribute
    _YEAR_START as a finite map from years to rata die ([None]: KeyError).
    Years and months are ints; days and clock fields are ints or floats, hence rationals. *)
From Coq Require Import ZArith QArith Qround Qabs List Bool.
From Verif Require Import Base BaseModel MiscModel.
Import ListNotations.
Local Open Scope Q_scope.

(** ** _coefficients.py *)

(** _coefficients.py:14-41 *)
Definition P1 : list (Z * Z) :=
  [(-1783, -1747); (-1651, -1615); (-1499, -1483); (-1383, -1347);
   (-1251, -1215); (-1099, -1083); (-983, -947); (-851, -815);
   (-699, -683); (-583, -547); (-451, -415); (-299, -283); (-179, -143);
   (-47, -11); (101, 117); (213, 249); (345, 381); (501, 513);
   (609, 645); (741, 777); (901, 909); (1005, 1041); (1137, 1162)]%Z.
Definition P1100 : list (Z * Z) :=
  [(-1699, -1683); (-1299, -1283); (-899, -883); (-499, -483);
   (-99, -79); (301, 313); (701, 709); (1101, 1105)]%Z.
Definition P1110 : list (Z * Z) :=
  [(-1799, -1783); (-1683, -1651); (-1399, -1383); (-1283, -1251);
   (-999, -983); (-883, -851); (-599, -583); (-483, -451);
   (-199, -179); (-79, -47); (201, 213); (313, 345); (601, 609);
   (709, 741); (1001, 1005); (1105, 1137)]%Z.
Definition P2 : list (Z * Z) :=
  [(-1519, -1499); (-1119, -1099); (-719, -699); (-319, -299);
   (85, 101); (477, 501); (873, 901)]%Z.
Definition P2111 : list (Z * Z) :=
  [(-1747, -1715); (-1615, -1583); (-1483, -1451); (-1347, -1315);
   (-1215, -1183); (-1083, -1051); (-947, -915); (-815, -783);
   (-683, -651); (-547, -515); (-415, -383); (-283, -243);
   (-143, -111); (-11, 21); (117, 149); (249, 281); (381, 413);
   (513, 545); (645, 677); (777, 809); (909, 941); (1041, 1073)]%Z.
Definition P2211 : list (Z * Z) :=
  [(-1843, -1815); (-1715, -1699); (-1583, -1551); (-1451, -1415);
   (-1315, -1299); (-1183, -1151); (-1051, -1019); (-915, -899);
   (-783, -751); (-651, -619); (-515, -499); (-383, -351);
   (-243, -211); (-111, -99); (21, 53); (149, 185); (281, 301);
   (413, 445); (545, 577); (677, 701); (809, 841); (941, 973);
   (1073, 1101)]%Z.
Definition P2221 : list (Z * Z) :=
  [(-1815, -1799); (-1551, -1519); (-1415, -1399); (-1151, -1119);
   (-1019, -999); (-751, -719); (-619, -599); (-351, -319);
   (-211, -199); (53, 85); (185, 201); (445, 477); (577, 601);
   (841, 873); (973, 1001)]%Z.

(** _coefficients.py:64-74  process_segment *)
Definition process_segment (y a : Z) (onoff0 : list Z) (b : Z) (onoff1 : list Z) : Z :=
  let func y onoff := ((0 <? y) && (y <? 100) && existsb (Z.eqb (y mod 4)) onoff)%Z%bool in
  (if negb (a =? 0) && func y onoff0 then a
   else if negb (b =? 0) && func y onoff1 then b else 0)%Z%bool.

(** _coefficients.py:76-86  process_segments: the last matching segment wins *)
Definition process_segments (year : Z) (pn : list (Z * Z)) (a : Z) (onoff0 : list Z) (b : Z) (onoff1 : list Z) : Z :=
  fold_left (fun coeff se =>
    let '(start, end_) := se in
    if ((start <=? year) && (year <? end_))%Z%bool
    then let coeff0 := process_segment (end_ - year) a onoff0 0 [] in
         let coeff1 := process_segment (end_ - year) 0 [] b onoff1 in
         if negb (coeff0 =? 0)%Z then coeff0 else coeff1
    else coeff) pn 0%Z.

(** Python [a or b] on ints *)
Definition zor (a b : Z) : Z := (if a =? 0 then b else a)%Z.

(** _coefficients.py:43-95  _get_day_coeff *)

Definition get_day_coeff (year : Z) : Z :=
  zor (process_segments year P1 (-1) [0;1;2;3]%Z 0 []%Z)
 (zor (process_segments year P1100 (-1) [0;3]%Z 0 []%Z)
 (zor (process_segments year P1110 (-1) [0;2;3]%Z 0 []%Z)
 (zor (process_segments year P2 (-2) [0;1;2;3]%Z 0 []%Z)
 (zor (process_segments year P2111 (-2) [0]%Z (-1) [1;2;3]%Z)
 (zor (process_segments year P2211 (-2) [0;3]%Z (-1) [1;2]%Z)
 (zor (process_segments year P2221 (-2) [0;2;3]%Z (-1) [1]%Z) 0))))))%Z.

(** ** badi_calendar.py *)

(** badi_calendar.py:53-65 *)
Definition MINYEAR : Z := (-1842)%Z.
Definition MAXYEAR : Z := 1161%Z.
Definition KULLISHAY_MIN : Z := (-5)%Z.
Definition KULLISHAY_MAX : Z := 4%Z.
Definition RD_START : Z := (-287)%Z.
Definition PROLEPTIC_GREG_1ST_DAY : Q := 3442847 # 2.   (* 1721423.5 *)

(** badi_calendar.py:725-744  _get_hms: missing fields are 0 *)
Definition get_hms (hms : list Q) : Q * Q * Q * Q := (nth 0 hms 0, nth 1 hms 0, nth 2 hms 0, nth 3 hms 0).

Record sdate := { s_y : Z; s_m : Z; s_d : Q; s_t : list Q }.            (* short form tuple *)
Record ldate := { l_k : Z; l_v : Z; l_y : Z; l_m : Z; l_d : Q; l_t : list Q }.  (* long form tuple *)
(** result of functions with a [short] switch *)
Inductive bdate := Short (d : sdate) | Long (d : ldate).

(** (kull_i_shay - 1) * 361 + (vahid - 1) * 19 + year *)
Definition long_year (k v y : Z) : Z := ((k - 1) * 361 + (v - 1) * 19 + y)%Z.

Section Badi.
Variable rnd : Q -> Q.
Variable m : Q -> Q -> Q -> Q.
Variable T : Z -> option Z.

(** badi_calendar.py:28-29  latitude and longitude of _BAHAI_LOCATION *)
Definition TEHRAN_LAT : Q := rnd (3569435 # 100000).
Definition TEHRAN_LON : Q := rnd (51288701 # 1000000).

(** badi_calendar.py:30  _BADI_EPOCH *)
Definition BADI_EPOCH : Q := rnd (239464311511551 # 100000000).

Definition lookup (y : Z) : res Z := match T y with Some z => Ok z | None => Err KeyError end.

(** badi_calendar.py:715-723  _is_leap_year *)
Definition is_leap_badi (year : Z) : res bool :=
  let* b := lookup (year + 1) in
  let* a := lookup year in
  Ok (b - a =? 366)%Z.

(** badi_calendar.py:690-713  _check_valid_badi_time *)
Definition check_time (hour minute second us : Q) (maxsec : Q) : res unit :=
  let* _ := passert (Qleb 0 hour && Qltb hour 25) in
  let* _ := passert (Qleb 0 minute && Qltb minute 60) in
  let* _ := passert (Qleb 0 second && Qltb second maxsec) in
  passert (Qleb 0 us && Qltb us 1000000).

Definition nonzero (x : Q) : bool := negb (Qeqb x 0).

(** badi_calendar.py:665-688  the part common to short and long dates; [ly] is the short year *)
Definition check_mdt (ly month : Z) (day : Q) (hms : list Q) : res unit :=
  let '(hour, minute, second, us) := get_hms hms in
  let* _ := passert ((0 <=? month) && (month <? 20))%Z in
  let* cycle := (if (month =? 0)%Z then let* b := is_leap_badi ly in Ok (5 + b2z b)%Z else Ok 20%Z) in
  let* _ := passert (Qleb 1 day && Qltb day (inject_Z cycle)) in
  let* _ := check_time hour minute second us 60 in
  let* _ := (if nonzero hour || nonzero minute || nonzero second then passert (Qeqb (fmod1 rnd day) 0) else Ok tt) in
  let* _ := (if nonzero minute || nonzero second then passert (Qeqb (fmod1 rnd hour) 0) else Ok tt) in
  (if nonzero second then passert (Qeqb (fmod1 rnd minute) 0) else Ok tt).

(** badi_calendar.py:626-688  _check_valid_badi_date, short_in=True and False *)
Definition check_short (d : sdate) : res unit :=
  let* _ := passert ((MINYEAR - 1 <=? s_y d) && (s_y d <=? MAXYEAR + 1))%Z in
  check_mdt (s_y d) (s_m d) (s_d d) (s_t d).
Definition check_long (d : ldate) : res unit :=
  let* _ := passert ((KULLISHAY_MIN - 1 <=? l_k d) && (l_k d <=? KULLISHAY_MAX + 1))%Z in
  let* _ := passert ((1 <=? l_v d) && (l_v d <? 20))%Z in
  let* _ := passert ((1 <=? l_y d) && (l_y d <? 20))%Z in
  check_mdt (long_year (l_k d) (l_v d) (l_y d)) (l_m d) (l_d d) (l_t d).

(** badi_calendar.py:187-193  days before the month *)
Definition days_before_month_enc (year month : Z) : res Z :=
  (if month =? 0 then Ok (18 * 19)
   else if month <? 19 then Ok ((month - 1) * 19)
   else let* b := is_leap_badi year in Ok (18 * 19 + 4 + b2z b))%Z.

(** badi_calendar.py:165-210  jd_from_badi_date; lat and lon given (the caller passes Tehran's when
    lat, lon or zone is None) *)
Definition jd_from_badi_date (d : sdate) (lat lon : Q) : res Q :=
  let* _ := check_short d in
  let '(hh, mm, ss, us) := get_hms (s_t d) in
  let* days := days_before_month_enc (s_y d) (s_m d) in
  let td := days_in_years false (s_y d - 1) in
  let jd := fadd rnd (inject_Z (td + Qfloor (fadd rnd BADI_EPOCH 1) + days)) (s_d d) in
  let* jd0 := meeus_from_exact rnd jd in
  let jd0 := fadd rnd jd0 (inject_Z (get_day_coeff (s_y d))) in
  let jd_ss := sun_setting rnd m jd0 lat lon in
  let* a_ss := exact_from_meeus rnd jd_ss in
  let* day_frac := decimal_day_from_hms rnd hh mm ss us in
  Ok (round12 rnd (fadd rnd a_ss day_frac)).

(** badi_calendar.py:811-823  one entry of _build_badi_year_start (month 1: the table is not consulted) *)
Definition year_start_entry (year : Z) : res Z :=
  let lon_div := fdiv rnd TEHRAN_LON 360 in
  let* jd := jd_from_badi_date {| s_y := year; s_m := 1; s_d := 1; s_t := [] |} TEHRAN_LAT TEHRAN_LON in
  let jd_int := Qtrunc jd in
  let frac := fsub rnd jd (inject_Z jd_int) in
  Ok (Qfloor (fadd rnd (fsub rnd (inject_Z jd_int) PROLEPTIC_GREG_1ST_DAY)
                (fadd rnd (fadd rnd (fadd rnd frac lon_div) (1#2)) (rnd (1 # 1000000000000))))).

(** badi_calendar.py:781-809  _utc_to_badi_time *)
Definition utc_to_badi_time (jd lat lon : Q) : res (Q * Q) :=
  let get_sunset hist inc := exact_from_meeus rnd (sun_setting rnd m (fadd rnd hist inc) lat lon) in
  let* hist := meeus_from_exact rnd jd in
  let* ss_prev := get_sunset hist (-1) in
  let* ss_curr := get_sunset hist 0 in
  let astro_ss := if Qleb ss_curr jd then ss_curr else ss_prev in
  let delta := fsub rnd jd astro_ss in
  let astro_ss := if Qltb delta 0 then fsub rnd astro_ss 1
                  else if Qleb 1 delta then fadd rnd astro_ss 1 else astro_ss in
  Ok (astro_ss, fsub rnd jd astro_ss).

(** badi_calendar.py:285-305  _badi_year_from_rd; __init__.py:117 sets _RD_END to the start of MAXYEAR *)
Definition badi_year_from_rd (rd : Z) : res Z :=
  let* rd_end := lookup MAXYEAR in
  let* _ := passert ((RD_START <=? rd) && (rd <=? rd_end))%Z in
  let y := (Qtrunc (fdiv rnd (inject_Z (rd - RD_START)) (rnd (3652425 # 10000))) + MINYEAR)%Z in
  let y := (if y <? MINYEAR then MINYEAR else if MAXYEAR <? y then MAXYEAR else y)%Z in
  let* s := lookup y in
  Ok (if rd <? s then y - 1
      else if (match T (y + 1)%Z with Some e => e | None => rd_end + 1 end) <=? rd then y + 1 else y)%Z.

(** badi_calendar.py:258-267  month and day of a day of the year *)
Definition month_day_of_doy (doy ayyamiha : Z) : Z * Z :=
  (if doy <=? 342 then ((doy - 1) / 19 + 1, (doy - 1) mod 19 + 1)
   else if doy <=? 342 + ayyamiha then (0, doy - 342)
   else (19, doy - (342 + ayyamiha)))%Z.

(** badi_calendar.py:244-267  day part of badi_date_from_jd: year, month, day and fraction since sunset *)
Definition badi_day_from_jd (jd lat lon : Q) : res (Z * Z * Z * Q) :=
  let* (astro_ss, frac) := utc_to_badi_time jd lat lon in
  let local_civil_day := Qfloor (fadd rnd (fadd rnd astro_ss (fdiv rnd lon 360)) (1#2)) in
  let civil_epoch := Qfloor (fadd rnd PROLEPTIC_GREG_1ST_DAY (1#2)) in
  let rd := (local_civil_day - civil_epoch + 1)%Z in
  let* year := badi_year_from_rd rd in
  let* start := lookup year in
  let doy := (rd - start + 1)%Z in
  let* b := is_leap_badi year in
  let '(month, day) := month_day_of_doy doy (4 + b2z b) in
  Ok (year, month, day, frac).

(** badi_calendar.py:307-351  short_date_from_long_date *)
Definition short_date_from_long_date (trim : bool) (d : ldate) : res sdate :=
  let '(hh, mm, ss, us) := get_hms (l_t d) in
  let y := long_year (l_k d) (l_v d) (l_y d) in
  let* dm := (if ((1 <=? l_m d) && (l_m d <? 20))%Z%bool then Ok 19%Z
              else let* b := is_leap_badi y in Ok (4 + b2z b)%Z) in
  let '(mm, ss) := if Qleb 60 ss then (fadd rnd mm 1, fsub rnd ss 1) else (mm, ss) in
  let '(hh, mm) := if Qleb 60 mm then (fadd rnd hh 1, fsub rnd mm 1) else (hh, mm) in
  let '(day, hh) := if Qleb 24 hh then (fadd rnd (l_d d) 1, fsub rnd hh 1) else (l_d d, hh) in
  let '(month, day) :=
    if Qltb (inject_Z dm) day
    then (if ((dm =? 4) || (dm =? 5))%Z%bool then (19%Z, 1) else ((l_m d + 1)%Z, fsub rnd day 1))
    else (l_m d, day) in
  let '(month, y) := (if 19 <? month then (1, y + 1) else (month, y))%Z in
  let hmsms := [hh; mm; ss; us] in
  let date := {| s_y := y; s_m := month; s_d := day; s_t := if trim then trim_hms hmsms else hmsms |} in
  let* _ := check_short date in
  Ok date.

(** badi_calendar.py:365-378  kull-i-shay, vahid and year of a short year *)
Definition long_year_parts (y : Z) : Z * Z * Z :=
  let k := fdiv rnd (inject_Z y) 361 in
  let kull_i_shay := (if y =? 0 then 0 else Qceiling k)%Z in
  let k0 := truncate_decimal rnd (fmod1 rnd k) 12 in
  let v := fmul rnd (fdiv rnd k0 19) 361 in
  if Qeqb v 0 then (kull_i_shay, 19%Z, 19%Z)
  else (kull_i_shay, Qceiling v, Qceiling (fmul rnd (fmod1 rnd v) 19)).

(** badi_calendar.py:353-380  long_date_from_short_date *)
Definition long_date_from_short_date (trim : bool) (d : sdate) : res ldate :=
  let '(hh, mm, ss, us) := get_hms (s_t d) in
  let '(k, v, y) := long_year_parts (s_y d) in
  let hmsms := [hh; mm; ss; us] in
  let date := {| l_k := k; l_v := v; l_y := y; l_m := s_m d; l_d := s_d d;
                 l_t := if trim then trim_hms hmsms else hmsms |} in
  let* _ := check_long date in
  Ok date.

(** badi_calendar.py:382-402  date_from_kvymdhms *)
Definition date_from_kvymdhms (short : bool) (d : ldate) : res bdate :=
  let* _ := check_long d in
  let '(hour, minute, second, us) := get_hms (l_t d) in
  let frac := fround rnd 6 (fadd rnd (fadd rnd (fadd rnd (HR rnd hour) (MN rnd minute)) (SEC rnd second)) (US rnd us)) in
  let date := {| l_k := l_k d; l_v := l_v d; l_y := l_y d; l_m := l_m d; l_d := fadd rnd (l_d d) frac; l_t := [] |} in
  if short then let* s := short_date_from_long_date true date in Ok (Short s) else Ok (Long date).

(** badi_calendar.py:404-456  kvymdhms_from_b_date *)
Definition kvymdhms_from_b_date (us short trim : bool) (d : ldate) : res bdate :=
  let hms := trim_hms (l_t d) in
  let d := {| l_k := l_k d; l_v := l_v d; l_y := l_y d; l_m := l_m d; l_d := l_d d; l_t := hms |} in
  let* _ := check_long d in
  let '(hour, minute, second) :=
    match hms with
    | [] => let hd := partial_day_to_hours rnd (l_d d) in
            let md := partial_hour_to_minute rnd hd in
            (inject_Z (Qfloor hd), inject_Z (Qfloor md), fround rnd 6 (partial_minute_to_second rnd md))
    | _ => (nth 0 hms 0, nth 1 hms 0, nth 2 hms 0)
    end in
  let hmsms := if us then let '(s, u) := sec_microsec_from_seconds rnd second in
                          [hour; minute; inject_Z s; inject_Z u]
               else [hour; minute; second] in
  let date := {| l_k := l_k d; l_v := l_v d; l_y := l_y d; l_m := l_m d; l_d := inject_Z (Qfloor (l_d d));
                 l_t := if trim then trim_hms hmsms else hmsms |} in
  if short then let* s := short_date_from_long_date trim date in Ok (Short s) else Ok (Long date).

(** badi_calendar.py:212-283  badi_date_from_jd *)
Definition badi_date_from_jd (us short fraction trim rtd : bool) (jd lat lon : Q) : res bdate :=
  let* _ := passert (xor_boolean [fraction; us; rtd]) in
  let* (year, month, day, frac) := badi_day_from_jd jd lat lon in
  if fraction
  then Ok (Short {| s_y := year; s_m := month; s_d := fround rnd 6 (fadd rnd (inject_Z day) frac); s_t := [] |})
  else if rtd
  then let b := {| s_y := year; s_m := month; s_d := inject_Z (rne (fadd rnd (inject_Z day) frac)); s_t := [] |} in
       if short then Ok (Short b) else let* l := long_date_from_short_date trim b in Ok (Long l)
  else let trim := if us then trim else true in
       let '(h, mi, s) := hms_from_decimal_day rnd frac in
       let date := {| s_y := year; s_m := month; s_d := inject_Z day; s_t := [inject_Z h; inject_Z mi; s] |} in
       let* l := long_date_from_short_date true date in
       kvymdhms_from_b_date us short trim l.

(** badi_calendar.py:522-545  badi_date_from_timestamp; 547-561  timestamp_from_badi_date *)
Definition badi_date_from_timestamp (us short trim rtd : bool) (t lat lon : Q) : res bdate :=
  badi_date_from_jd us short false trim rtd (fadd rnd (fdiv rnd t 86400) POSIX_EPOCH) lat lon.
Definition timestamp_from_badi_date (d : sdate) (lat lon : Q) : res Q :=
  let* jd := jd_from_badi_date d lat lon in
  Ok (round12 rnd (fmul rnd (fsub rnd jd POSIX_EPOCH) 86400)).

End Badi.

(** badi_calendar.py:811-823 and __init__.py:111-117: the table built at import.  During construction
    _YEAR_START is None; only dates of month 1 are encoded, which do not consult it. *)
Definition year_table (rnd : Q -> Q) (m : Q -> Q -> Q -> Q) (y : Z) : option Z :=
  if ((MINYEAR - 1 <=? y) && (y <? MAXYEAR + 2))%Z%bool
  then match year_start_entry rnd m (fun _ => None) y with Ok z => Some z | Err _ => None end
  else None.
