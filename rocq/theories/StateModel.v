(** StateModel.v -- model of the mutable state of the package: the nutation cache of a calendar object, the local
    coordinates, the class attribute of TZWithCoords and the regex cache of strptime.  A method that changes state
    is a function from state to state and result. *)
From Coq Require Import ZArith QArith Qround List Bool.
From Verif Require Import Base BaseModel BadiModel TimeModel TextModel.
Import ListNotations.
Local Open Scope Z_scope.

(** ** Nutation cache *)
(** base_calendar.py:66, 453-492.  [compute] is _nutation_obliquity_longitude (494-560): longitude and obliquity at a
    time, in radians or degrees; the astronomy is not modelled. *)
Record ncache := { n_lon : Q * Q * bool; n_obl : Q * Q * bool }.
Definition ncache0 : ncache := {| n_lon := (0%Q, 0%Q, false); n_obl := (0%Q, 0%Q, false) |}.
Inductive nquery := NLon (tc : Q) (degrees : bool) | NObl (tc : Q) (degrees : bool).
Section Nutation.
Variable compute : Q -> bool -> Q * Q.
(** 464-470, 484-490: one cache entry decides, both are replaced *)
Definition n_refresh (entry : Q * Q * bool) (tc : Q) (degrees : bool) (s : ncache) : ncache :=
  let '(tc_day, _, deg) := entry in
  if negb (Qeqb tc tc_day) || negb (Bool.eqb degrees deg) then
    let '(lon_sum, obl_sum) := compute tc degrees in
    {| n_lon := (tc, lon_sum, degrees); n_obl := (tc, obl_sum, degrees) |}
  else s.
(** 453-472  _nutation_longitude, 474-492  _nutation_obliquity *)
Definition nutation (q : nquery) (s : ncache) : ncache * Q :=
  match q with
  | NLon tc d => let s' := n_refresh (n_lon s) tc d s in (s', snd (fst (n_lon s')))
  | NObl tc d => let s' := n_refresh (n_obl s) tc d s in (s', snd (fst (n_obl s')))
  end.
Definition n_after (h : list nquery) : ncache := fold_left (fun s q => fst (nutation q s)) h ncache0.
End Nutation.

(** ** Local coordinates *)
(** a coordinate argument: omitted, an int or a float *)
Inductive coord := CNone | CInt (z : Z) | CFloat (q : Q).
(** arguments of set_local_coordinates; [None]: a false locale ('' or 0) *)
Record lcall := { lc_lat : coord; lc_lon : coord; lc_locale : option text }.
(** what the system answers during a call: the UTC offset in seconds of the local zone, and the geocoder *)
Record lenv := { le_offset : Q; le_geocode : text -> option (Q * Q) }.
Section Local.
Variable rnd : Q -> Q.
(** badi_calendar.py:28-29, datetime.py:25  BADI_COORD: latitude, longitude, zone in hours *)
Definition BADI_COORD : Q * Q * Q := (TEHRAN_LAT rnd, TEHRAN_LON rnd, 7 # 2).
(** __init__.py:46-70  _get_local_coordinates, after 105 has stored the arguments; [None]: latitude and longitude None *)
Definition get_local_coordinates (e : lenv) (c : lcall) : res (option (Q * Q * Q)) :=
  let zone := fdiv rnd (le_offset e) 3600 in
  match lc_lat c, lc_lon c with
  | CFloat lat, CFloat lon => Ok (Some (lat, lon, zone))
  | _, _ =>
    match lc_locale c with
    | Some l => match le_geocode e l with Some (lat, lon) => Ok (Some (lat, lon, zone)) | None => Err AssertionError end
    | None => Ok None
    end
  end.
(** __init__.py:73-108  set_local_coordinates and _locale_config: the state is datetime.LOCAL_COORD; the zone
    datetime.LOCAL is made from its third member *)
Definition set_local (e : lenv) (c : lcall) (s : Q * Q * Q) : Q * Q * Q * res unit :=
  match get_local_coordinates e c with
  | Ok (Some coords) => (coords, Ok tt)
  | Ok None => (BADI_COORD, Ok tt)
  | Err x => (s, Err x)
  end.
(** after the call set_local_coordinates() at import (__init__.py:124) and a history of calls *)
Definition local_after (h : list (lenv * lcall)) : Q * Q * Q :=
  fold_left (fun s x => fst (set_local (fst x) (snd x) s)) h BADI_COORD.
End Local.

(** ** TZWithCoords *)
(** datetime.py:2836-2867  the attributes of an object; _offset in microseconds *)
Record tzc := { tc_lat : Q; tc_lon : Q; tc_zone : option Q; tc_key : text; tc_name : option text; tc_coords : Q * Q * option Q; tc_off : Z }.
Section TZC.
Variable td_hours : Q -> Z.     (* timedelta(hours=x) in microseconds *)
(** datetime.py:2838-2867  __new__ *)
Definition tzc_new (lat lon : Q) (zone : option Q) (key : option text) : res tzc :=
  let off := match zone with None => 0 | Some z => td_hours z end in
  let name := match key with None => [] | Some k => k end in
  if (- (DAY - 1) <=? off) && (off <=? DAY - 1) then
    Ok {| tc_lat := lat; tc_lon := lon; tc_zone := zone; tc_key := name; tc_name := match name with [] => None | _ => Some name end;
          tc_coords := (lat, lon, zone); tc_off := off |}
  else Err ValueError.
(** datetime.py:2764-2772  tzname *)
Definition tzc_tzname (o : tzc) : text := match tc_name o with None => name_from_offset (tc_off o) | Some n => n end.
(** datetime.py:2924-2932  __reduce__: arguments and state *)
Definition tzc_reduce (o : tzc) : (Q * Q) * (option Q * text) := ((tc_lat o, tc_lon o), (snd (tc_coords o), tc_key o)).
(** datetime.py:2934-2949  unpickling: the class called with the arguments, then __setstate__ *)
Definition tzc_unpickle (p : (Q * Q) * (option Q * text)) : res tzc :=
  let '((lat, lon), (zone, key)) := p in
  let* o := tzc_new lat lon None None in
  Ok {| tc_lat := tc_lat o; tc_lon := tc_lon o; tc_zone := tc_zone o; tc_key := key; tc_name := tc_name o;
        tc_coords := (tc_lat o, tc_lon o, zone); tc_off := match zone with Some z => td_hours z | None => tc_off o end |}.

(** a program's history: objects made, directly or from a ZoneInfo [z] whose key is [zi_key z] *)
Variable zone_info : Type.
Variable zi_key : zone_info -> text.
Inductive tzop := TNew (lat lon : Q) (zone : option Q) (key : option text) | TFrom (z : zone_info) (lat lon zone : Q).
(** datetime.py:2900-2914  fromzoneinfo stores the ZoneInfo in the class; state: the class attribute and the objects made *)
Definition tz_step (s : option zone_info * list tzc) (op : tzop) : option zone_info * list tzc :=
  match op with
  | TNew lat lon zone key => match tzc_new lat lon zone key with Ok o => (fst s, snd s ++ [o]) | Err _ => s end
  | TFrom z lat lon zone => match tzc_new lat lon (Some zone) (Some (zi_key z)) with Ok o => (Some z, snd s ++ [o]) | Err _ => (Some z, snd s) end
  end.
Definition tz_after (h : list tzop) : option zone_info * list tzc := fold_left tz_step h (None, []).
(** datetime.py:2880-2898  dst of any object; [zdst] is ZoneInfo.dst in microseconds, None and 0 both give 0 *)
Definition tzc_dst {D} (zdst : zone_info -> D -> option Z) (s : option zone_info * list tzc) (o : tzc) (d : D) : Z :=
  match fst s with Some z => match zdst z d with Some t => t | None => 0 end | None => 0 end.
End TZC.

(** ** Regex cache of strptime *)
(** _strptime.py:40-42, 95-97: what the module reads from the environment *)
Record senv := { se_lang : text; se_tzname : text * text; se_daylight : Z }.
Definition text_eqb (a b : text) : bool := if list_eq_dec Z.eq_dec a b then true else false.
Definition senv_eqb (a b : senv) : bool :=
  text_eqb (se_lang a) (se_lang b) && (text_eqb (fst (se_tzname a)) (fst (se_tzname b)) && text_eqb (snd (se_tzname a)) (snd (se_tzname b)))
  && (se_daylight a =? se_daylight b).
(** keys of _regex_cache: texts, or the builtin function format (_strptime.py:422 uses the wrong name) *)
Inductive rkey := KText (f : text) | KBuiltin.
Definition rkey_eqb (a b : rkey) : bool := match a, b with KText f, KText g => text_eqb f g | KBuiltin, KBuiltin => true | _, _ => false end.
Definition CACHE_MAX_SIZE : nat := 5.     (* _strptime.py:303 *)
Section Cache.
Variable rx : Type.                        (* compiled regular expressions *)
Variable out : Type.                       (* results of a match *)
Variable compile : senv -> text -> res rx. (* TimeRE() built in an environment, and its compile method (KeyError, IndexError: bad directive) *)
Variable run : senv -> rx -> text -> res out.
Fixpoint dict_get (c : list (rkey * rx)) (k : rkey) : option rx :=
  match c with [] => None | (k', r) :: c => if rkey_eqb k k' then Some r else dict_get c k end.
Fixpoint dict_set (c : list (rkey * rx)) (k : rkey) (r : rx) : list (rkey * rx) :=
  match c with [] => [(k, r)] | (k', r') :: c => if rkey_eqb k k' then (k, r) :: c else (k', r') :: dict_set c k r end.
(** state: the environment _TimeRE_cache was built in, and _regex_cache *)
Definition cstate : Type := senv * list (rkey * rx).
(** _strptime.py:388-436  _find_regex and the match *)
Definition strp_call (e : senv) (fmt data : text) (s : cstate) : cstate * res out :=
  let '(te, c) := if senv_eqb e (fst s) then s else (e, []) in
  let c := if (CACHE_MAX_SIZE <? List.length c)%nat then [] else c in
  match dict_get c (KText fmt) with
  | Some r => ((te, c), run te r data)
  | None =>
    match compile te fmt with
    | Err KeyError | Err IndexError => ((te, c), Err ValueError)
    | Err x => ((te, c), Err x)
    | Ok r => ((te, dict_set c KBuiltin r), run te r data)
    end
  end.
Definition strp_after (e0 : senv) (h : list (senv * text * text)) : cstate :=
  fold_left (fun s x => fst (strp_call (fst (fst x)) (snd (fst x)) (snd x) s)) h (e0, []).
End Cache.
