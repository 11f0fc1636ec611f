(** LocalModel.v -- the local time zone of a datetime and astimezone in full (datetime.py:2077-2143).
    [lat], [lon]: LOCAL_COORD; [off]: the offset of LOCAL in microseconds. *)
From Coq Require Import ZArith QArith Qround List Bool.
From Verif Require Import Base BaseModel BadiModel TduModel DateModel TimeModel.
Import ListNotations.
Local Open Scope Z_scope.

Section Local.
Variable rnd : Q -> Q.
Variable m : Q -> Q -> Q -> Q.
Variable utc : tz.         (* timezone.utc *)
Variables lat lon : Q.
Variable off : Z.

(** timedelta(seconds=x) of a float, in microseconds (CPython: whole seconds exactly, the fraction times 10**6
    in floating point and rounded half to even) *)
Definition td_seconds (x : Q) : Z :=
  Qtrunc x * 1000000 + rne (fmul rnd 1000000 (x - inject_Z (Qtrunc x))).

(** datetime.py:2092-2103 and _timedateutils.py:1089-1111, _structures.py:145-188: the date read from the stamp, its clock
    completed by zeros, made into a struct.  Only what can raise is kept: the weekday, the day of the year, and the
    datetime with LOCAL as tzinfo.  The clock has at most three members (no microseconds were asked for); the
    second may have a fraction. *)
Definition local_struct (b : bdate) : res unit :=
  let* (y, mo, d) :=
    (match b with
     | Short sd => Ok (s_y sd, s_m sd, Qfloor (s_d sd))
     | Long ld => let* x := short_date_from_long_date rnd (year_table rnd m) false ld in Ok (s_y x, s_m x, Qfloor (s_d x))
     end) in
  let* _ := day_of_week rnd m y mo d in
  let* _ := days_before_month rnd m y mo in
  let '(args, hms) := match b with
                      | Short sd => ([s_y sd; s_m sd; Qfloor (s_d sd)], s_t sd)
                      | Long ld => ([l_k ld; l_v ld; l_y ld; l_m ld; Qfloor (l_d ld)], l_t ld)
                      end in
  let '(h, mi, s, _) := get_hms hms in
  let* x := dt_newf rnd m args h mi s 0 (Some {| tz_id := -1; tz_off := Some off |}) 0 in
  let* _ := utcoffset (dt_tz x) in
  Ok tt.

(** datetime.py:2077-2107  _local_timezone; [id] the identity of the new timezone.  tm_gmtoff is None when the offset
    is zero (_structures.py:179-180): timedelta(seconds=None) raises TypeError.  The name, LOCAL.tzname(), is a text. *)
Definition local_timezone (id : Z) (a : pdt) : res tz :=
  let* ts := (match dt_tz a with
              | None => dt_mktime rnd m a lat lon
              | Some _ => let* d := dt_sub rnd m a (EPOCH utc) in Ok (inject_Z (d / 1000000))
              end) in
  let* b := badi_date_from_timestamp rnd m (year_table rnd m) false (is_short (dt_d a)) true false ts lat lon in
  let* _ := local_struct b in
  if off =? 0 then Err TypeError
  else
    let o := td_seconds (fdiv rnd (inject_Z off) 1000000) in
    if (- (DAY - 1) <=? o) && (o <=? DAY - 1) then Ok {| tz_id := id; tz_off := Some o |} else Err ValueError.

(** datetime.py:2109-2143  astimezone; [target]: None when the argument is omitted; [i1], [i2]: identities of the
    timezones made on the way.  (A target without offset is not one of the classes of the package: zone_fromutc.) *)
Definition dt_astimezone_any (i1 i2 : Z) (a : pdt) (target : option tz) : res pdt :=
  let* z := (match target with Some z => Ok z | None => local_timezone i1 a end) in
  let* mytz := (match dt_tz a with
                | None => local_timezone i2 a
                | Some z0 =>
                  match tz_off z0 with
                  | Some _ => Ok z0
                  | None =>
                    let* n := dt_replace rnd m a None None None None None None None None None (Some None) None in
                    local_timezone i2 n
                  end
                end) in
  match tz_off mytz with
  | None => Err TypeError
  | Some myoff =>
    if tz_id z =? tz_id mytz then Ok a
    else
      let* u := dt_sub_td rnd m a myoff in
      let* u := dt_replace rnd m u None None None None None None None None None (Some (Some z)) None in
      zone_fromutc rnd m z u
  end.
End Local.
