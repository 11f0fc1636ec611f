(** MiscModel.v -- models of small helpers: integer rounding division (datetime.py), trailing zero
    trimming (badi_calendar.py), degrees/minutes/seconds (base_calendar.py), the clock part of
    posix_timestamp (gregorian_calendar.py). *)
From Coq Require Import ZArith QArith Qround Qabs List Bool Ascii String.
From Verif Require Import Base BaseModel GregModel.
Import ListNotations.
Local Open Scope Q_scope.

(** datetime.py:35-43  _cmp on ints *)
Definition cmpZ (x y : Z) : Z := (if x =? y then 0 else if y <? x then 1 else -1)%Z.

(** datetime.py:46-66  _divide_and_round; Python divmod and Coq's [/], [mod] both floor *)
Definition divide_and_round (a b : Z) : res Z :=
  (if b =? 0 then Err ZeroDivisionError
   else
     let q := a / b in
     let r := (a mod b) * 2 in
     let greater_than_half := if 0 <? b then b <? r else r <? b in
     Ok (q + (if greater_than_half || ((r =? b) && (q mod 2 =? 1)) then 1 else 0)))%Z%bool.

(** badi_calendar.py:589-624  _trim_hms: scan from the right, skip zeros until a non-zero was seen *)
Fixpoint trim_scan (has : bool) (l : list Q) : list Q :=
  match l with
  | [] => []
  | v :: l' => if Qeqb v 0 && negb has then trim_scan has l' else v :: trim_scan true l'
  end.
Definition trim_hms (hms : list Q) : list Q := rev (trim_scan false (rev hms)).

(** ASCII [str.upper()] *)
Definition upper_ascii (c : ascii) : ascii :=
  let n := nat_of_ascii c in
  if Nat.leb 97 n && Nat.leb n 122 then ascii_of_nat (n - 32) else c.
Fixpoint upper (s : string) : string :=
  match s with EmptyString => EmptyString | String c s' => String (upper_ascii c) (upper s') end.

(** base_calendar.py:1037-1077  _decimal_from_dms; floats are exact rationals here *)
Definition decimal_from_dms (degrees minutes : Z) (seconds : Q) (direction : string) : res Q :=
  let d := upper direction in
  let* _ := passert (existsb (String.eqb d) ["N"; "S"; "E"; "W"]%string) in
  let decimal := inject_Z (Z.abs degrees) + inject_Z minutes / 60 + seconds / 3600 in
  Ok (if existsb (String.eqb d) ["S"; "W"]%string then - decimal else decimal).

(** base_calendar.py:1079-1107  _dms_from_decimal *)
Definition dms_from_decimal (coord : Q) (direction : string) : res (Z * Z * Q * string) :=
  let direction := upper direction in
  let* _ := passert ((3 <=? String.length direction)%nat &&
                     (String.prefix direction "LATITUDE" || String.prefix direction "LONGITUDE")) in
  let degrees := Qfloor (Qabs coord) in
  let minutes := Qfloor ((Qabs coord - inject_Z degrees) * 60) in
  let seconds := (Qabs coord - inject_Z degrees - inject_Z minutes / 60) * 3600 in
  let direc := if Qltb coord 0
               then (if String.eqb direction "LAT" then "S" else "W")%string
               else (if String.eqb direction "LAT" then "N" else "E")%string in
  Ok (degrees, minutes, seconds, direc).

(** base_calendar.py:1109-1128  _degrees_from_hms and 1130-1148  _hms_from_degrees, exact rationals *)
Definition degrees_from_hms (h m : Z) (s : Q) : Q :=
  15 * inject_Z h + 15 * inject_Z m / 60 + 15 * s / 3600.
Definition hms_from_degrees (deg : Q) : Z * Z * Q :=
  let h := Qfloor (deg / 15) in
  let m := Qfloor ((deg / 15 - inject_Z h) * 60) in
  let s := (deg / 15 - inject_Z h - inject_Z m / 60) * 3600 in
  (h, m, s).

(** gregorian_calendar.py:186-253  posix_timestamp, us=False, on an integer time stamp; [t] is the
    stamp with zone * 3600 already added (line 206).  [t % 86400], [/ 60] and their floors are exact on these
    ints (the floor of the float quotient t / 86400 is the integer quotient for |t| < 2^52, and round(.., 6)
    of an int is the int), so integer arithmetic is used. *)
Definition posix_timestamp (fuel : nat) (t : Z) : option (res (Z * Z * Z * Z * Z * Z)) :=
  match posix_year fuel 1970 (Z.abs (t / 86400) + 1) with
  | None => None
  | Some (year, days) =>
      let '(month, day) := posix_month days 0 1 (month_days (is_leap_g false year)) in
      let seconds := (t mod 86400)%Z in
      let minutes := (seconds / 60)%Z in
      let minute := (minutes mod 60)%Z in
      let hour := (minutes / 60)%Z in
      let second := (seconds mod 60)%Z in
      Some (let* _ := check_greg (fun x => x) true year month (inject_Z day) (inject_Z hour) (inject_Z minute) (inject_Z second) in
            Ok (year, month, day, hour, minute, second))
  end.
