(** TimeModel.v -- model of the classes time, datetime and timezone of /repo/badidatetime/datetime.py.
    An instance is its fields; the clock fields are ints (float clock fields only appear in [create_time]).
    A tzinfo object is its identity and the constant answer of its utcoffset() method: true of timezone and
    TZWithCoords, the classes of the package; for a tzinfo whose offset depends on the date see DstModel.v.
    A timedelta is its number of microseconds; its limit of 999999999 days is not modelled (exceeding it raises
    OverflowError, as do the range checks below). *)
From Coq Require Import ZArith QArith Qround List Bool String.
From Verif Require Import Base BaseModel BadiModel TduModel DateModel.
Import ListNotations.
Local Open Scope Z_scope.

Definition MINUTE : Z := 60000000.
Definition HOUR : Z := 3600000000.
Definition DAY : Z := 86400000000.

(** tzinfo object; [tz_off]: utcoffset() in microseconds or None *)
Record tz := { tz_id : Z; tz_off : option Z }.
(** [x is y] on tzinfo attributes *)
Definition same_tz (x y : option tz) : bool :=
  match x, y with
  | None, None => true
  | Some a, Some b => tz_id a =? tz_id b
  | _, _ => false
  end.
(** == on timedelta-or-None *)
Definition opt_eqb (x y : option Z) : bool :=
  match x, y with None, None => true | Some a, Some b => a =? b | _, _ => false end.

(** datetime.py:69-95  _check_offset on None or a timedelta *)
Definition check_offset (o : option Z) : res unit :=
  match o with
  | None => Ok tt
  | Some z => if (- DAY <? z) && (z <? DAY) then Ok tt else Err ValueError
  end.
(** datetime.py:1414-1425, 2279-2287  utcoffset of a time or datetime *)
Definition utcoffset (t : option tz) : res (option Z) :=
  match t with
  | None => Ok None
  | Some z => let* _ := check_offset (tz_off z) in Ok (tz_off z)
  end.

(** ** timezone *)
(** datetime.py:2647-2697, 2793-2794  timezone.__new__, _create: name [None] is an omitted name; [utc] is the instance
    timezone.utc returned for a zero offset without name.  An instance is its offset and name. *)
Record zone := { z_off : Z; z_name : option string }.
Definition timezone_new (utc : zone) (offset : Z) (name : option string) : res zone :=
  match name with
  | None => if offset =? 0 then Ok utc
            else if (- (DAY - 1) <=? offset) && (offset <=? DAY - 1) then Ok {| z_off := offset; z_name := None |} else Err ValueError
  | Some n => if (- (DAY - 1) <=? offset) && (offset <=? DAY - 1) then Ok {| z_off := offset; z_name := Some n |} else Err ValueError
  end.
(** datetime.py:2699-2703  __eq__; 2826-2827  __hash__ (hash of the offset); 2745-2758  utcoffset *)
Definition zone_eq (a b : zone) : bool := z_off a =? z_off b.
Definition zone_hash (a : zone) : Z := z_off a.
Definition zone_utcoffset (a : zone) : Z := z_off a.
(** datetime.py:2823-2824  __getinitargs__ with an omitted or a non-empty name, and the call on unpickling *)
Definition zone_initargs (a : zone) : Z * option string :=
  (z_off a, match z_name a with Some n => if String.eqb n "" then None else Some n | None => None end).

(** ** time *)
Record ptime := { t_h : Z; t_mi : Z; t_s : Z; t_us : Z; t_tz : option tz; t_fold : Z }.

(** _timedateutils.py:1445-1461  _check_time_fields *)
Definition check_time_fields (h mi s us : Z) (fold : Z) : res unit :=
  let* _ := check_time (inject_Z h) (inject_Z mi) (inject_Z s) (inject_Z us) 61 in
  passert ((fold =? 0) || (fold =? 1)).
(** datetime.py:1089-1133  time.__new__ on ints *)
Definition time_new (h mi s us : Z) (tzi : option tz) (fold : Z) : res ptime :=
  let* _ := check_time_fields h mi s us fold in
  Ok {| t_h := h; t_mi := mi; t_s := s; t_us := us; t_tz := tzi; t_fold := fold |}.

(** datetime.py:1220-1259  time._cmp *)
Definition time_cmp (allow_mixed : bool) (a b : ptime) : res Z :=
  let fields x := [t_h x; t_mi x; t_s x; t_us x] in
  if same_tz (t_tz a) (t_tz b) then Ok (cmp_tuple (fields a) (fields b))
  else
    let* myoff := utcoffset (t_tz a) in
    let* otoff := utcoffset (t_tz b) in
    if opt_eqb myoff otoff then Ok (cmp_tuple (fields a) (fields b))
    else match myoff, otoff with
         | Some x, Some y =>
           Ok (cmp_tuple [t_h a * 60 + t_mi a - x / MINUTE; t_s a; t_us a] [t_h b * 60 + t_mi b - y / MINUTE; t_s b; t_us b])
         | _, _ => if allow_mixed then Ok 2 else Err TypeError
         end.
(** datetime.py:1200-1218  comparisons; __le__ passes the class time as allow_mixed *)
Definition time_eq a b := let* c := time_cmp true a b in Ok (c =? 0).
Definition time_le a b := let* c := time_cmp true a b in Ok (c <=? 0).
Definition time_lt a b := let* c := time_cmp false a b in Ok (c <? 0).
Definition time_ge a b := let* c := time_cmp false a b in Ok (0 <=? c).
Definition time_gt a b := let* c := time_cmp false a b in Ok (0 <? c).

(** datetime.py:1482-1514  replace; [tzi]: None keeps the tzinfo *)
Definition time_replace (a : ptime) (h mi s us : option Z) (tzi : option (option tz)) (fold : option Z) : res ptime :=
  time_new (dflt h (t_h a)) (dflt mi (t_mi a)) (dflt s (t_s a)) (dflt us (t_us a))
           (match tzi with Some z => z | None => t_tz a end) (dflt fold (t_fold a)).

(** three bytes of the microsecond: divmod(us, 256), divmod(us2, 256) *)
Definition us_bytes (us : Z) : list Z := [us / 256 / 256; (us / 256) mod 256; us mod 256].
(** datetime.py:1518-1536  _getstate(protocol): bytes and tzinfo *)
Definition time_getstate (protocol : Z) (a : ptime) : res (list Z * option tz) :=
  let h := if negb (t_fold a =? 0) && (3 <? protocol) then t_h a + 128 else t_h a in
  let* bs := to_bytes ([h; t_mi a; t_s a] ++ us_bytes (t_us a)) in Ok (bs, t_tz a).
(** datetime.py:1105-1121, 1538-1557  __new__ and __setstate on the pickled bytes.  Bytes not taken for a state
    are compared with an int (check of the hour): TypeError. *)
Definition time_unpickle (st : list Z * option tz) : res ptime :=
  match st with
  | ([h; mi; s; u1; u2; u3], tzi) =>
    if h mod 128 <? 24 then
      Ok {| t_h := if 127 <? h then h - 128 else h; t_mi := mi; t_s := s;
            t_us := (u1 * 256 + u2) * 256 + u3; t_tz := tzi; t_fold := if 127 <? h then 1 else 0 |}
    else Err TypeError
  | _ => Err TypeError
  end.

(** what is hashed: bytes, a tuple of ints, or a timedelta *)
Inductive hkey := HBytes (l : list Z) | HTuple (l : list Z) | HDelta (d : Z).
(** hash of a time without offset *)
Definition time_hash_naive (a : ptime) : res hkey := let* st := time_getstate 3 a in Ok (HBytes (fst st)).
(** datetime.py:1263-1294  time.__hash__ *)
Definition time_hash (a : ptime) : res hkey :=
  let* t := (if negb (t_fold a =? 0) then time_replace a None None None None None (Some 0) else Ok a) in
  let* tzoff := utcoffset (t_tz t) in
  match tzoff with
  | None => time_hash_naive t
  | Some off =>
    if off =? 0 then time_hash_naive t
    else
      let d := t_h a * HOUR + t_mi a * MINUTE - off in
      let h := d / HOUR in
      let mm := d mod HOUR in
      let* _ := passert (mm mod MINUTE =? 0) in
      let mm := mm / MINUTE in
      if (0 <=? h) && (h <? 24) then let* t := time_new h mm (t_s a) (t_us a) None 0 in time_hash_naive t
      else Ok (HTuple [h; mm; t_s a; t_us a])
  end.

(** ** datetime *)
Record pdt := { dt_d : pdate; dt_h : Z; dt_mi : Z; dt_s : Z; dt_us : Z; dt_tz : option tz; dt_fold : Z }.

Section DT.
Variable rnd : Q -> Q.
Variable m : Q -> Q -> Q -> Q.

(** datetime.py:1665-1710  _create_time; clock arguments are ints or floats *)
Definition create_time (h mi s : Q) (us : Z) : res (Z * Z * Z * Z) :=
  let frac x := nonzero (fmod1 rnd x) in
  let nzu := negb (us =? 0) in
  if frac h && (nonzero mi || nonzero s || nzu) then Err ValueError
  else if frac mi && (nonzero s || nzu) then Err ValueError
  else if frac s && nzu then Err ValueError
  else if frac h then
    let mm := partial_hour_to_minute rnd h in
    let ss := partial_minute_to_second rnd mm in
    Ok (Qfloor h, Qfloor mm, Qfloor ss, partial_second_to_microsecond rnd ss)
  else if frac mi then
    let ss := partial_minute_to_second rnd mi in
    Ok (Qfloor h, Qfloor mi, Qfloor ss, partial_second_to_microsecond rnd ss)
  else if frac s then Ok (Qfloor h, Qfloor mi, Qfloor s, partial_second_to_microsecond rnd s)
  else Ok (Qfloor h, Qfloor mi, Qfloor s, us).

(** datetime.py:1595-1663  datetime.__new__ with whole clock fields; a date of 3 or 5 ints *)
Definition dt_new (args : list Z) (h mi s us : Z) (tzi : option tz) (fold : Z) : res pdt :=
  let* _ := passert ((List.length args =? 3)%nat || (List.length args =? 5)%nat) in
  let* (hh, mm, ss, uu) := create_time (inject_Z h) (inject_Z mi) (inject_Z s) us in
  let* d := date_new rnd m args in
  let* _ := check_time_fields h mi s us fold in
  Ok {| dt_d := d; dt_h := hh; dt_mi := mm; dt_s := ss; dt_us := uu; dt_tz := tzi; dt_fold := fold |}.
(** the same with float clock fields *)
Definition dt_newf (args : list Z) (h mi s : Q) (us : Z) (tzi : option tz) (fold : Z) : res pdt :=
  let* _ := passert ((List.length args =? 3)%nat || (List.length args =? 5)%nat) in
  let* (hh, mm, ss, uu) := create_time h mi s us in
  let* d := date_new rnd m args in
  let* _ := check_time h mi s (inject_Z us) 61 in
  let* _ := passert ((fold =? 0) || (fold =? 1)) in
  Ok {| dt_d := d; dt_h := hh; dt_mi := mm; dt_s := ss; dt_us := uu; dt_tz := tzi; dt_fold := fold |}.

(** datetime.py:1885-1912  combine; [tzi]: None takes the tzinfo of the time *)
Definition dt_combine (d : pdate) (t : ptime) (tzi : option (option tz)) : res pdt :=
  dt_new (b_date d) (t_h t) (t_mi t) (t_s t) (t_us t) (match tzi with Some z => z | None => t_tz t end) (t_fold t).

(** attributes _year, _month, _day *)
Definition ymd (a : pdate) : Z * Z * Z := match a with DShort y mo d => (y, mo, d) | DLong _ _ y mo d => (y, mo, d) end.
(** datetime.py:1988-1995  date(), 1997-2005  time(), 2007-2015  timetz() *)
Definition dt_date (a : pdt) : res pdate := let '(y, mo, d) := ymd (dt_d a) in date_new rnd m [y; mo; d].
Definition dt_time (a : pdt) : res ptime := time_new (dt_h a) (dt_mi a) (dt_s a) (dt_us a) None (dt_fold a).
Definition dt_timetz (a : pdt) : res ptime := time_new (dt_h a) (dt_mi a) (dt_s a) (dt_us a) (dt_tz a) (dt_fold a).

(** datetime.py:2017-2075  replace, with 663-744  _replace_short, _replace_long *)
Definition dt_replace (a : pdt) (k v y mo d h mi s us : option Z) (tzi : option (option tz)) (fold : option Z) : res pdt :=
  let build args := dt_new args (dflt h (dt_h a)) (dflt mi (dt_mi a)) (dflt s (dt_s a)) (dflt us (dt_us a))
                           (match tzi with Some z => z | None => dt_tz a end) (dflt fold (dt_fold a)) in
  match dt_d a with
  | DShort y0 mo0 d0 => if truthy k || truthy v then Err ValueError else build [dflt y y0; dflt mo mo0; dflt d d0]
  | DLong k0 v0 y0 mo0 d0 =>
    match y with
    | Some yy => if (yy <? 1) || (19 <? yy) then Err ValueError else build [dflt k k0; dflt v v0; yy; dflt mo mo0; dflt d d0]
    | None => build [dflt k k0; dflt v v0; y0; dflt mo mo0; dflt d d0]
    end
  end.

(** datetime.py:2419-2445  __add__ of a timedelta *)
Definition dt_add (a : pdt) (td : Z) : res pdt :=
  let* n := toordinal rnd m (dt_d a) in
  let delta := n * DAY + dt_h a * HOUR + dt_mi a * MINUTE + dt_s a * 1000000 + dt_us a + td in
  let days := delta / DAY in
  let seconds := (delta mod DAY) / 1000000 in
  let us := delta mod 1000000 in
  let hour := seconds / 3600 in
  let rem := seconds mod 3600 in
  if (DAYS_BEFORE_1ST_YEAR <? days) && (days <=? MAXORDINAL) then
    let* d := fromordinal rnd m (is_short (dt_d a)) days in
    let* t := time_new hour (rem / 60) (rem mod 60) us (dt_tz a) 0 in
    dt_combine d t None
  else Err OverflowError.
(** datetime.py:2449-2485  __sub__ of a timedelta, of a datetime *)
Definition dt_sub_td (a : pdt) (td : Z) : res pdt := dt_add a (- td).
Definition dt_secs (a : pdt) : Z := dt_s a + dt_mi a * 60 + dt_h a * 3600.
Definition dt_sub (a b : pdt) : res Z :=
  let* days1 := toordinal rnd m (dt_d a) in
  let* days2 := toordinal rnd m (dt_d b) in
  let base := (days1 - days2) * DAY + (dt_secs a - dt_secs b) * 1000000 + (dt_us a - dt_us b) in
  if same_tz (dt_tz a) (dt_tz b) then Ok base
  else
    let* myoff := utcoffset (dt_tz a) in
    let* otoff := utcoffset (dt_tz b) in
    if opt_eqb myoff otoff then Ok base
    else match myoff, otoff with
         | Some x, Some y => Ok (base + y - x)
         | _, _ => Err TypeError
         end.

(** datetime.py:2366-2417  _cmp.  The check of the offset under the other fold (2391-2396) cannot fire: the
    offsets modelled here do not depend on the fold.  (It makes copies with replace(), which check the clock again:
    they raise only for a datetime unpickled from bytes whose clock is out of range, left out here.) *)
Definition dt_fields (a : pdt) : list Z :=
  let '(y, mo, d) := ymd (dt_d a) in [y; mo; d; dt_h a; dt_mi a; dt_s a; dt_us a].
Definition dt_cmp (allow_mixed : bool) (a b : pdt) : res Z :=
  if same_tz (dt_tz a) (dt_tz b) then Ok (cmp_tuple (dt_fields a) (dt_fields b))
  else
    let* myoff := utcoffset (dt_tz a) in
    let* otoff := utcoffset (dt_tz b) in
    if opt_eqb myoff otoff then Ok (cmp_tuple (dt_fields a) (dt_fields b))
    else match myoff, otoff with
         | Some _, Some _ =>
           let* diff := dt_sub a b in
           Ok (if diff / DAY <? 0 then -1 else if diff =? 0 then 0 else 1)
         | _, _ => if allow_mixed then Ok 2 else Err TypeError
         end.
(** datetime.py:2326-2364  comparisons with a datetime *)
Definition dt_eq a b := let* c := dt_cmp true a b in Ok (c =? 0).
Definition dt_le a b := let* c := dt_cmp false a b in Ok (c <=? 0).
Definition dt_lt a b := let* c := dt_cmp false a b in Ok (c <? 0).
Definition dt_ge a b := let* c := dt_cmp false a b in Ok (0 <=? c).
Definition dt_gt a b := let* c := dt_cmp false a b in Ok (0 <? c).

(** datetime.py:2550-2583  _getstate(protocol) *)
Definition dt_getstate (protocol : Z) (a : pdt) : res (list Z * option tz) :=
  let flag := if negb (dt_fold a =? 0) && (3 <? protocol) then 128 else 0 in
  let clock := [dt_h a; dt_mi a; dt_s a] ++ us_bytes (dt_us a) in
  let* bs := to_bytes (match dt_d a with
                       | DShort y mo d => [(y - MINYEAR) / 256; (y - MINYEAR) mod 256; mo + flag; d] ++ clock
                       | DLong k v y mo d => [k + 19; v; y; mo + flag; d] ++ clock
                       end) in
  Ok (bs, dt_tz a).
(** datetime.py:2514-2548  _is_pickle_data, 2585-2620  __setstate, 1628-1632, 1659-1663  __new__: the date
    is checked, the clock fields are not.  Bytes not taken for a state leave one or two date fields. *)
Definition dt_unpickle (st : list Z * option tz) : res pdt :=
  let mk args mo h mi s u1 u2 u3 tzi :=
    let* d := date_new rnd m args in
    Ok {| dt_d := d; dt_h := h; dt_mi := mi; dt_s := s; dt_us := (u1 * 256 + u2) * 256 + u3; dt_tz := tzi;
          dt_fold := if 127 <? mo then 1 else 0 |} in
  match st with
  | ([yhi; ylo; mo; d; h; mi; s; u1; u2; u3], tzi) =>
    if (1 <=? mo mod 128) && (mo mod 128 <=? 19) then
      mk [yhi * 256 + MINYEAR + ylo; if 127 <? mo then mo - 128 else mo; d] mo h mi s u1 u2 u3 tzi
    else Err AssertionError
  | ([k; v; y; mo; d; h; mi; s; u1; u2; u3], tzi) =>
    if (1 <=? mo mod 128) && (mo mod 128 <=? 19) then
      mk [k - 19; v; y; if 127 <? mo then mo - 128 else mo; d] mo h mi s u1 u2 u3 tzi
    else Err AssertionError
  | _ => Err AssertionError
  end.

(** datetime.py:2487-2510  __hash__; an aware long form datetime is hashed from _year, _month, _day *)
Definition dt_hash (a : pdt) : res hkey :=
  let* t := (if negb (dt_fold a =? 0) then dt_replace a None None None None None None None None None None (Some 0) else Ok a) in
  let* tzoff := utcoffset (dt_tz t) in
  match tzoff with
  | None => let* st := dt_getstate 3 t in Ok (HBytes (fst st))
  | Some off =>
    let '(y, mo, d) := ymd (dt_d a) in
    let* days := ymd2ord rnd m y mo d in
    Ok (HDelta (days * DAY + (dt_h a * 3600 + dt_mi a * 60 + dt_s a) * 1000000 + dt_us a - off))
  end.

(** datetime.py:2783-2791  timezone.fromutc; 2109-2143  astimezone of an aware datetime to a fixed zone
    (for the cases that consult the local time zone, for which the last two TypeErrors stand here, see LocalModel.v) *)
Definition zone_fromutc (z : tz) (a : pdt) : res pdt :=
  match dt_tz a, tz_off z with
  | Some z', Some off => if tz_id z' =? tz_id z then dt_add a off else Err ValueError
  | _, _ => Err ValueError
  end.
Definition dt_astimezone (a : pdt) (z : tz) : res pdt :=
  match dt_tz a with
  | Some z0 =>
    match tz_off z0 with
    | Some myoff =>
      if tz_id z =? tz_id z0 then Ok a
      else
        let* u := dt_sub_td a myoff in
        let* u := dt_replace u None None None None None None None None None (Some (Some z)) None in
        zone_fromutc z u
    | None => Err TypeError
    end
  | None => Err TypeError
  end.

(** datetime.py:1944-1952  _mktime: the tuple b_date + b_time, which timestamp_from_badi_date takes for a short form
    date: of a long form datetime the kull-i-shay is read as the year, the vahid as the month, the year as the day, the
    month as the hour, the day as the minute, the hour as the second and the minute as the microsecond. *)
Definition dt_tuple (a : pdt) : sdate :=
  let clock := [inject_Z (dt_h a); inject_Z (dt_mi a); inject_Z (dt_s a); inject_Z (dt_us a)] in
  match dt_d a with
  | DShort y mo d => {| s_y := y; s_m := mo; s_d := inject_Z d; s_t := clock |}
  | DLong k v y mo d => {| s_y := k; s_m := v; s_d := inject_Z y; s_t := inject_Z mo :: inject_Z d :: clock |}
  end.
Definition dt_mktime (a : pdt) (lat lon : Q) : res Q := timestamp_from_badi_date rnd m (year_table rnd m) (dt_tuple a) lat lon.
(** datetime.py:1954-1964  timestamp of a naive datetime, at the default coordinates *)
Definition dt_timestamp_naive (a : pdt) : res Q :=
  let* t := dt_mktime a (TEHRAN_LAT rnd) (TEHRAN_LON rnd) in
  Ok (fadd rnd t (fdiv rnd (inject_Z (dt_us a)) 1000000)).

(** datetime.py:2956-2957  _EPOCH, datetime.py:1963-1964  timestamp of an aware datetime; timedelta.total_seconds
    divides the microseconds by 10**6 *)
Definition EPOCH (utc : tz) : pdt :=
  {| dt_d := DShort 126 16 2; dt_h := 7; dt_mi := 59; dt_s := 32; dt_us := 492400; dt_tz := Some utc; dt_fold := 0 |}.
Definition dt_timestamp_aware (utc : tz) (a : pdt) : res Q :=
  let* d := dt_sub a (EPOCH utc) in Ok (fdiv rnd (inject_Z d) 1000000).
End DT.
