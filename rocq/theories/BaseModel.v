(** BaseModel.v -- model of the numeric helpers of /repo/badidatetime/base_calendar.py.

    All definitions take the float rounding [rnd] (see Flt.v): [rnd := fun x => x] is exact
    arithmetic, [rnd := b64] is binary64.  Python ints mixed into float expressions are injected. *)
From Coq Require Import ZArith QArith Qround Qabs List Bool.
From Verif Require Import Base.
Import ListNotations.
Local Open Scope Q_scope.

Section BaseModel.
Variable rnd : Q -> Q.

Definition fadd (x y : Q) : Q := rnd (x + y).
Definition fsub (x y : Q) : Q := rnd (x - y).
Definition fmul (x y : Q) : Q := rnd (x * y).
Definition fdiv (x y : Q) : Q := rnd (x / y).

(** Python [x % 1] on floats: C fmod (exact), then +1 (rounded) when negative. *)
Definition fmod1 (x : Q) : Q :=
  let r := x - inject_Z (Qtrunc x) in
  if Qltb r 0 then rnd (r + 1) else r.

(** Python [round(x, n)] on a float: correctly rounded decimal, read back as a float. *)
Definition fround (n : positive) (x : Q) : Q := rnd (qround n x).

(** base_calendar.py:23-29  _HR, _MN, _SEC, _US *)
Definition HR (x : Q) : Q := fdiv x 24.
Definition MN (x : Q) : Q := fdiv (fdiv x 24) 60.
Definition SEC (x : Q) : Q := fdiv (fdiv (fdiv x 24) 60) 60.
Definition US (x : Q) : Q := fdiv x 1000000.

(** base_calendar.py:39-42  _PARTIAL_* *)
Definition partial_day_to_hours (x : Q) : Q := fround 6 (fmul (fmod1 x) 24).
Definition partial_hour_to_minute (x : Q) : Q := fround 6 (fmul (fmod1 x) 60).
Definition partial_minute_to_second (x : Q) : Q := partial_hour_to_minute x.
Definition partial_second_to_microsecond (x : Q) : Z := Qtrunc (fmul (fround 6 (fmod1 x)) 1000000).

(** base_calendar.py:57  _ROUNDING_PLACES = 12 *)
Definition round12 (x : Q) : Q := fround 12 x.

(** base_calendar.py:60, 62 *)
Definition POSIX_EPOCH : Q := 4881171 # 2.     (* 2440585.5 *)
Definition SECONDS_PER_DAY : Q := 86400.

(** base_calendar.py:325-354  _sun_setting.  [m] models _rising_setting(jd0, lat, lon, SET)
    (lines 356-400), the fraction of the local day at sunset; a parameter here; AstroModel.v
    models the computation itself and PropertiesAstro.v proves what the theorems assume of [m]. *)
Definition sun_setting (m : Q -> Q -> Q -> Q) (jd lat lon : Q) : Q :=
  let lon_frac := fdiv lon 360 in
  let jd_local := fadd jd lon_frac in
  let jd0 := fsub (inject_Z (Qfloor (fadd jd_local (1#2)))) (1#2) in
  let jd0 := fsub jd0 lon_frac in
  round12 (fadd jd0 (m jd0 lat lon)).

(** base_calendar.py:1256-1285  _hms_from_decimal_day with us=False / us=True *)
Definition hms_from_decimal_day (dec : Q) : Z * Z * Q :=
  let h := partial_day_to_hours dec in
  let hour := Qfloor h in
  let m := partial_hour_to_minute h in
  let minute := Qfloor m in
  let second := partial_minute_to_second m in
  (hour, minute, second).

Definition hmsu_from_decimal_day (dec : Q) : Z * Z * Z * Z :=
  let '(hour, minute, second) := hms_from_decimal_day dec in
  (hour, minute, Qfloor second, partial_second_to_microsecond second).

(** base_calendar.py:1287-1303  _decimal_day_from_hms.  [s % 1] truthiness as a comparison with 0;
    h, m are ints or floats, us an int: all injected in Q. *)
Definition decimal_day_from_hms (h m s us : Q) : res Q :=
  let sfrac := negb (Qeqb (fmod1 s) 0) in
  let us0 := Qeqb us 0 in
  if (sfrac && us0) || (negb sfrac && negb us0) || (negb sfrac && us0)
  then Ok (fdiv (fadd (fadd (fadd (fmul h 3600) (fmul m 60)) s) (US us)) SECONDS_PER_DAY)
  else Err AssertionError.

(** base_calendar.py:1305-1318  _sec_microsec_from_seconds *)
Definition sec_microsec_from_seconds (second : Q) : Z * Z :=
  let p := fmod1 second in
  let s := fsub (Qabs second) p in
  let s := if Qltb second 0 then - s else s in
  (Qfloor s, partial_second_to_microsecond second).

(** base_calendar.py:1415-1444  _days_in_years *)
Definition days_in_years (alt : bool) (y : Z) : Z :=
  (let n_4 := y / 4 in
   let n_leap_years :=
     if alt then n_4 - y / 128
     else n_4 - y / 100 + y / 400 in
   let a := y - n_leap_years in
   let b := y - a in
   a * 365 + b * 366)%Z.

(** base_calendar.py:1463-1468 and 1546-1551: break points written as twice their value (all are
    half-integers), with the day difference below the break point. *)
Definition meeus_breaks : list (Z * Z) :=
  [(3515283, 0); (3588331, 1); (3661379, 2); (3807477, 3); (3880525, 4); (3953573, 5);
   (4099671, 6); (4172719, 7); (4245767, 8); (4391865, 9); (4464913, 10); (4537961, 11);
   (4598297, 12)]%Z.
Definition exact_breaks : list (Z * Z) :=
  [(3515283, 0); (3588333, 1); (3661383, 2); (3807483, 3); (3880533, 4); (3953583, 5);
   (4099683, 6); (4172733, 7); (4245783, 8); (4391883, 9); (4464933, 10); (4537983, 11);
   (4598321, 12)]%Z.
(** base_calendar.py:1535-1540: first half-day bound of each non-existing historical day. *)
Definition invalid_days : list Z :=
  [3515283; 3588333; 3661383; 3807483; 3880533; 3953583; 4099683; 4172733; 4245783; 4391883;
   4464933; 4537983]%Z.

Definition half (z : Z) : Q := z # 2.

(** the [for j, df in jd_diff: if jd < j: ... break] loop, with default 2 *)
Fixpoint find_diff (jd : Q) (l : list (Z * Z)) : Z :=
  match l with
  | [] => 2%Z
  | (j, df) :: l' => if Qltb jd (half j) then df else find_diff jd l'
  end.

(** base_calendar.py:1446-1476  _meeus_from_exact *)
Definition meeus_from_exact (jd : Q) : res Q :=
  if Qleb (half 4598297) jd && Qltb jd (half 4598317) then Err ValueError
  else Ok (fadd jd (inject_Z (find_diff jd meeus_breaks))).

(** base_calendar.py:1478-1559  _exact_from_meeus *)
Definition in_invalid_day (jd : Q) : bool :=
  existsb (fun s => Qleb (half s) jd && Qltb jd (half (s + 2))) invalid_days.
Definition exact_from_meeus (jd : Q) : res Q :=
  if in_invalid_day jd then Err ValueError
  else Ok (fsub jd (inject_Z (find_diff jd exact_breaks))).

(** base_calendar.py:1597-1612  _truncate_decimal; p = 10^places is an int, n * p a float product,
    floor(...)/p an int/int true division *)
Definition truncate_decimal (n : Q) (places : positive) : Q :=
  let p := inject_Z (10 ^ Zpos places) in
  fdiv (inject_Z (Qfloor (fmul n p))) p.

(** base_calendar.py:1614-1625  _xor_boolean *)
Definition xor_boolean (l : list bool) : bool :=
  let count := fold_right (fun b n => (b2z b + n)%Z) 0%Z l in
  ((count mod 2 =? 1) || (count =? 0))%Z%bool.

(** base_calendar.py:1561-1571  _coterminal_angle: C fmod by 360 is exact *)
Definition fmod360 (x : Q) : Q := x - 360 * inject_Z (Qtrunc (x / 360)).
Definition coterminal_angle (v : Q) : Q :=
  let v := fmod360 v in if Qltb v 0 then fadd v 360 else v.

(** base_calendar.py:1386-1413  _poly *)
Fixpoint poly (x : Q) (a : list Q) : Q :=
  match a with [] => 0 | a0 :: a' => fadd a0 (fmul x (poly x a')) end.

(** base_calendar.py:1573-1595  _interpolation_from_three *)
Definition interpolation_from_three (y1 y2 y3 n : Q) (normalize : bool) : Q :=
  let a := fsub y2 y1 in
  let b := fsub y3 y2 in
  let a := if normalize then fadd a (if Qltb a 0 then 360 else 0) else a in
  let b := if normalize then fadd b (if Qltb b 0 then 360 else 0) else b in
  let c := fsub b a in
  fadd y2 (fmul (fdiv n 2) (fadd (fadd a b) (fmul n c))).

(** base_calendar.py:1150-1175  _seconds_from_dhms (zone in hours as in the code) *)
Definition seconds_from_dhms (days hours minutes : Z) (seconds : Q) (us : Z) (zone : Q) : res Q :=
  let* sec :=
    (if (0 <? us)%Z
     then let* _ := passert (Qeqb (fmod1 seconds) 0) in
          Ok (fadd seconds (US (inject_Z us)))
     else Ok seconds) in
  Ok (fadd (fadd (inject_Z (days * 86400 + hours * 3600 + minutes * 60)) sec) (fmul zone 3600)).

(** base_calendar.py:1177-1216  _dhms_from_seconds, us=False *)
Definition dhms_from_seconds (seconds zone : Q) : Z * Z * Z * Q :=
  let seconds := fadd seconds (fmul zone 3600) in
  let hours := Qfloor (fdiv seconds 3600) in
  let m := fdiv (fsub seconds (inject_Z (hours * 3600))) 60 in
  let minutes := Qfloor m in
  let '(day, hours, seconds) :=
    (if (hours <? 24)%Z then (0%Z, hours, seconds)
     else (1%Z, (hours - 24)%Z, fsub seconds 86400)) in
  let sec := fsub (fsub seconds (inject_Z (hours * 3600))) (inject_Z (minutes * 60)) in
  (day, hours, minutes, sec).

(** base_calendar.py:1627-1667  _local_zone_correction.  [None] is [None]. *)
Definition local_zone_correction (jd_ut : Q) (zone lon : option Q) (inverse mod_jd : bool) : res Q :=
  let* _ := passert (match zone with None => true | Some z => Qleb (-180) z && Qleb z 180 end) in
  let* _ := passert (match zone, lon with None, None => false | _, _ => true end) in
  let zone := match zone, lon with
              | Some z, _ => z
              | None, Some l => fdiv l 360
              | None, None => 0
              end in
  let dec_hr := HR zone in
  let modified := if inverse then fsub jd_ut dec_hr else fadd jd_ut dec_hr in
  Ok (if mod_jd then modified else round12 (fmod1 modified)).

End BaseModel.

(** base_calendar.py:1356-1384  _sigma over exact values: [None] is the AssertionError on ragged
    lists; zip of the lists is the list of columns. *)
Fixpoint columns (n : nat) (ls : list (list Q)) : list (list Q) :=
  match n with
  | O => []
  | S k => map (fun l => hd 0 l) ls :: columns k (map (@tl Q) ls)
  end.
Definition sigma (ls : list (list Q)) (f : list Q -> Q) : res Q :=
  match ls with
  | [] => Err AssertionError
  | l :: rest =>
      if forallb (fun l' => Nat.eqb (length l') (length l)) rest
      then Ok (fold_left (fun acc c => acc + f c) (columns (length l) ls) 0)
      else Err AssertionError
  end.
