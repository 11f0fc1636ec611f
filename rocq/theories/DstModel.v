(** DstModel.v -- model of times and datetimes whose tzinfo is any object of a subclass of tzinfo, with an offset that may
    depend on the date, the clock and the fold (summer time) and methods that may answer anything
    (/repo/badidatetime/datetime.py).

    A method of a tzinfo is a function of what it is handed: the fields of a datetime (given here as a datetime without
    tzinfo) or None.  A method with a memory is not modelled. *)
From Coq Require Import ZArith QArith List Bool.
From Verif Require Import Base BaseModel BadiModel TduModel DateModel TimeModel TextModel.
Import ListNotations.
Local Open Scope Z_scope.

(** What a method of a tzinfo does: return None, a timedelta (microseconds), a str or some other object, or raise. *)
Inductive answer := ANone | ADelta (us : Z) | AText (t : text) | AOther | ARaise (e : exn).
(** A tzinfo object: its identity and its methods.  [x_fromutc]: the datetime returned (it carries the tzinfo itself), or an
    exception; the method that a class inherits from the standard library raises TypeError, for it wants a datetime of the
    standard library. *)
Record xzone := { x_id : Z; x_utcoffset : option pdt -> answer; x_dst : option pdt -> answer; x_tzname : option pdt -> answer; x_fromutc : pdt -> res pdt }.
(** A datetime or time: its fields, without tzinfo, and its tzinfo. *)
Record xdt := { x_wall : pdt; x_tz : option xzone }.
Record xtime := { xt_wall : ptime; xt_tz : option xzone }.

(** datetime.py:69-95  _check_offset, and the return of the offset checked *)
Definition checked_offset (a : answer) : res (option Z) :=
  match a with
  | ANone => Ok None
  | ADelta z => if (- DAY <? z) && (z <? DAY) then Ok (Some z) else Err ValueError
  | AText _ | AOther => Err TypeError
  | ARaise e => Err e
  end.
(** datetime.py:193-202  _check_tzname, and the return of the name checked *)
Definition checked_name (a : answer) : res (option text) :=
  match a with
  | ANone => Ok None
  | AText t => Ok (Some t)
  | ADelta _ | AOther => Err TypeError
  | ARaise e => Err e
  end.

(** datetime.py:1414-1425  time.utcoffset; 1462-1480  time.dst; 1443-1460  time.tzname: the tzinfo is asked about None *)
Definition xtime_utcoffset (a : xtime) : res (option Z) := match xt_tz a with None => Ok None | Some z => checked_offset (x_utcoffset z None) end.
Definition xtime_dst (a : xtime) : res (option Z) := match xt_tz a with None => Ok None | Some z => checked_offset (x_dst z None) end.
Definition xtime_tzname (a : xtime) : res (option text) := match xt_tz a with None => Ok None | Some z => checked_name (x_tzname z None) end.
(** datetime.py:1427-1441  time.badioffset; BADI_COORD[2] is 3.5 (base_calendar.py) *)
Definition xtime_badioffset (a : xtime) : res (option Z) :=
  match xt_tz a with
  | None => Ok None
  | Some z => let* o := xtime_utcoffset a in Ok (match o with Some x => Some (x - 7 * HOUR / 2) | None => None end)
  end.
(** datetime.py:2279-2287  datetime.utcoffset; 2306-2322  datetime.dst; 2289-2304  datetime.tzname *)
Definition xdt_utcoffset (a : xdt) : res (option Z) := match x_tz a with None => Ok None | Some z => checked_offset (x_utcoffset z (Some (x_wall a))) end.
Definition xdt_dst (a : xdt) : res (option Z) := match x_tz a with None => Ok None | Some z => checked_offset (x_dst z (Some (x_wall a))) end.
Definition xdt_tzname (a : xdt) : res (option text) := match x_tz a with None => Ok None | Some z => checked_name (x_tzname z (Some (x_wall a))) end.

(** [x is y] on tzinfo attributes *)
Definition same_zone (x y : option xzone) : bool :=
  match x, y with None, None => true | Some a, Some b => x_id a =? x_id b | _, _ => false end.

Section Dst.
Variable rnd : Q -> Q.
Variable m : Q -> Q -> Q -> Q.

(** datetime.py:2017-2075  replace(fold=f): [dt_replace] with no other argument *)
Definition with_fold (a : xdt) (f : Z) : res xdt :=
  let* w := dt_replace rnd m (x_wall a) None None None None None None None None None None (Some f) in Ok {| x_wall := w; x_tz := x_tz a |}.

(** datetime.py:2449-2485  __sub__ of a datetime *)
Definition xdt_sub (a b : xdt) : res Z :=
  let* days1 := toordinal rnd m (dt_d (x_wall a)) in
  let* days2 := toordinal rnd m (dt_d (x_wall b)) in
  let base := (days1 - days2) * DAY + (dt_secs (x_wall a) - dt_secs (x_wall b)) * 1000000 + (dt_us (x_wall a) - dt_us (x_wall b)) in
  if same_zone (x_tz a) (x_tz b) then Ok base
  else
    let* myoff := xdt_utcoffset a in
    let* otoff := xdt_utcoffset b in
    if opt_eqb myoff otoff then Ok base
    else match myoff, otoff with
         | Some x, Some y => Ok (base + y - x)
         | _, _ => Err TypeError
         end.

(** datetime.py:2390-2396  does the other fold give another offset? *)
Definition fold_matters (a : xdt) (off : option Z) : res bool :=
  let* a' := with_fold a (if dt_fold (x_wall a) =? 0 then 1 else 0) in
  let* off' := xdt_utcoffset a' in
  Ok (negb (opt_eqb off off')).
(** datetime.py:2366-2417  _cmp *)
Definition xdt_cmp (allow_mixed : bool) (a b : xdt) : res Z :=
  if same_zone (x_tz a) (x_tz b) then Ok (cmp_tuple (dt_fields (x_wall a)) (dt_fields (x_wall b)))
  else
    let* myoff := xdt_utcoffset a in
    let* otoff := xdt_utcoffset b in
    let* mine := (if allow_mixed then fold_matters a myoff else Ok false) in
    if mine then Ok 2
    else
      let* others := (if allow_mixed then fold_matters b otoff else Ok false) in
      if others then Ok 2
      else if opt_eqb myoff otoff then Ok (cmp_tuple (dt_fields (x_wall a)) (dt_fields (x_wall b)))
      else match myoff, otoff with
           | Some _, Some _ =>
             let* diff := xdt_sub a b in
             Ok (if diff / DAY <? 0 then -1 else if diff =? 0 then 0 else 1)
           | _, _ => if allow_mixed then Ok 2 else Err TypeError
           end.
(** datetime.py:2326-2364  comparisons with a datetime *)
Definition xdt_eq a b := let* c := xdt_cmp true a b in Ok (c =? 0).
Definition xdt_le a b := let* c := xdt_cmp false a b in Ok (c <=? 0).
Definition xdt_lt a b := let* c := xdt_cmp false a b in Ok (c <? 0).
Definition xdt_ge a b := let* c := xdt_cmp false a b in Ok (0 <=? c).
Definition xdt_gt a b := let* c := xdt_cmp false a b in Ok (0 <? c).

(** datetime.py:2487-2510  __hash__ *)
Definition xdt_hash (a : xdt) : res hkey :=
  let* t := (if negb (dt_fold (x_wall a) =? 0) then with_fold a 0 else Ok a) in
  let* tzoff := xdt_utcoffset t in
  match tzoff with
  | None => let* st := dt_getstate 3 (x_wall t) in Ok (HBytes (fst st))
  | Some off =>
    let '(y, mo, d) := ymd (dt_d (x_wall a)) in
    let* days := ymd2ord rnd m y mo d in
    Ok (HDelta (days * DAY + (dt_h (x_wall a) * 3600 + dt_mi (x_wall a) * 60 + dt_s (x_wall a)) * 1000000 + dt_us (x_wall a) - off))
  end.

(** datetime.py:2109-2143  astimezone to a tzinfo given.  The offset is not checked here; a naive datetime and an offset None
    consult the local zone, which is not modelled (TypeError stands for it). *)
Definition xdt_astimezone (a : xdt) (z : xzone) : res xdt :=
  match x_tz a with
  | None => Err TypeError
  | Some z0 =>
    match x_utcoffset z0 (Some (x_wall a)) with
    | ANone => Err TypeError
    | ARaise e => Err e
    | ans =>
      if x_id z =? x_id z0 then Ok a
      else match ans with
           | ADelta off =>
             let* u := dt_sub_td rnd m (x_wall a) off in
             let* w := x_fromutc z u in Ok {| x_wall := w; x_tz := Some z |}
           | _ => Err TypeError
           end
    end
  end.
End Dst.
