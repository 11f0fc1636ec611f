(** DateModel.v -- model of the class date of /repo/badidatetime/datetime.py.  An instance is its form and its
    integer fields; float arguments are not modelled.  The shared state of the class (the _hashcode cache and the
    coordinates) does not influence the methods below. *)
From Coq Require Import ZArith QArith Qround List Bool.
From Verif Require Import Base BaseModel BadiModel TduModel.
Import ListNotations.
Local Open Scope Z_scope.

(** datetime.py:239-290  the instance: (_year, _month, _day) or (_kull_i_shay, _vahid, _year, _month, _day);
    b_date and is_short (590-606) are read off the constructor *)
Inductive pdate := DShort (y mo d : Z) | DLong (k v y mo d : Z).
Definition is_short (a : pdate) : bool := match a with DShort _ _ _ => true | DLong _ _ _ _ _ => false end.
Definition b_date (a : pdate) : list Z :=
  match a with DShort y mo d => [y; mo; d] | DLong k v y mo d => [k; v; y; mo; d] end.

(** datetime.py:35-43  _cmp on tuples of ints: 0, 1 or -1 *)
Fixpoint cmp_tuple (a b : list Z) : Z :=
  match a, b with
  | x :: a', y :: b' => if x =? y then cmp_tuple a' b' else if y <? x then 1 else -1
  | [], [] => 0 | [], _ => -1 | _, [] => 1
  end.

(** bytes(tuple): every item must be in range(256) *)
Definition to_bytes (l : list Z) : res (list Z) :=
  if forallb (fun x => (0 <=? x) && (x <? 256)) l then Ok l else Err ValueError.

(** datetime.py:21  _MAXORDINAL *)
Definition MAXORDINAL : Z := 1097267.

(** fields of the tuple returned by the calendar; days and clock fields are whole there *)
Definition bdate_fields (b : bdate) : list Z :=
  match b with
  | Short s => [s_y s; s_m s; Qfloor (s_d s)] ++ map Qfloor (s_t s)
  | Long l => [l_k l; l_v l; l_y l; l_m l; Qfloor (l_d l)] ++ map Qfloor (l_t l)
  end.

Section Date.
Variable rnd : Q -> Q.
Variable m : Q -> Q -> Q -> Q.
Let T := year_table rnd m.

Definition sd (y mo d : Z) : sdate := {| s_y := y; s_m := mo; s_d := inject_Z d; s_t := [] |}.
Definition lgd (k v y mo d : Z) : ldate := {| l_k := k; l_v := v; l_y := y; l_m := mo; l_d := inject_Z d; l_t := [] |}.

(** datetime.py:239-290  date.__new__ with int arguments (those that are not None), with
    _timedateutils.py:1420-1443  _check_date_fields *)
Definition date_new (args : list Z) : res pdate :=
  match args with
  | [y; mo; d] => let* _ := check_short rnd T (sd y mo d) in Ok (DShort y mo d)
  | [k; v; y; mo; d] => let* _ := check_long rnd T (lgd k v y mo d) in Ok (DLong k v y mo d)
  | _ => Err AssertionError
  end.

(** datetime.py:325-341  fromordinal *)
Definition fromordinal (short : bool) (n : Z) : res pdate :=
  let* b := ord2ymd rnd m short n in date_new (bdate_fields b).

(** datetime.py:380-400  fromisocalendar *)
Definition fromisocalendar (short : bool) (year week day : Z) : res pdate :=
  let* b := isoweek_to_badi rnd m short year week day in
  date_new (firstn (if short then 3 else 5) (bdate_fields b)).

(** datetime.py:424-442  _short_from_long_form()[:3] *)
Definition short_form (a : pdate) : res (Z * Z * Z) :=
  match a with
  | DShort y mo d => Ok (y, mo, d)
  | DLong k v y mo d =>
    let* s := short_date_from_long_date rnd T false (lgd k v y mo d) in Ok (s_y s, s_m s, Qfloor (s_d s))
  end.

(** datetime.py:620-631  toordinal *)
Definition toordinal (a : pdate) : res Z := let* (y, mo, d) := short_form a in ymd2ord rnd m y mo d.

Definition dflt (o : option Z) (x : Z) : Z := match o with Some z => z | None => x end.
Definition truthy (o : option Z) : bool := match o with Some z => negb (z =? 0) | None => false end.
(** datetime.py:633-744  replace, _replace_short, _replace_long *)
Definition replace (a : pdate) (k v y mo d : option Z) : res pdate :=
  match a with
  | DShort y0 mo0 d0 =>
    if truthy k || truthy v then Err ValueError
    else date_new [dflt y y0; dflt mo mo0; dflt d d0]
  | DLong k0 v0 y0 mo0 d0 =>
    match y with
    | Some yy => if (yy <? 1) || (19 <? yy) then Err ValueError
                 else date_new [dflt k k0; dflt v v0; yy; dflt mo mo0; dflt d d0]
    | None => date_new [dflt k k0; dflt v v0; y0; dflt mo mo0; dflt d d0]
    end
  end.

(** datetime.py:767-788  _cmp; a short form instance has no _kull_i_shay *)
Definition date_cmp (a b : pdate) : res Z :=
  match a, b with
  | DShort y mo d, DShort y' mo' d' => Ok (cmp_tuple [y; mo; d] [y'; mo'; d'])
  | DShort y mo d, DLong _ _ y' mo' d' => Ok (cmp_tuple [y; mo; d] [y'; mo'; d'])
  | DLong k v y mo d, DLong k' v' y' mo' d' => Ok (cmp_tuple [k; v; y; mo; d] [k'; v'; y'; mo'; d'])
  | DLong _ _ _ _ _, DShort _ _ _ => Err AttributeError
  end.
(** datetime.py:747-765  __eq__, __le__, __lt__, __ge__, __gt__ with a date as the other operand *)
Definition date_eq a b := let* c := date_cmp a b in Ok (c =? 0).
Definition date_le a b := let* c := date_cmp a b in Ok (c <=? 0).
Definition date_lt a b := let* c := date_cmp a b in Ok (c <? 0).
Definition date_ge a b := let* c := date_cmp a b in Ok (0 <=? c).
Definition date_gt a b := let* c := date_cmp a b in Ok (0 <? c).

(** datetime.py:930-951  _getstate *)
Definition getstate (a : pdate) : res (list Z) :=
  match a with
  | DShort y mo d => to_bytes [(y - MINYEAR) / 256; (y - MINYEAR) mod 256; mo; d]
  | DLong k v y mo d => to_bytes [k + 19; v; y; mo; d]
  end.
(** datetime.py:790-800  __hash__: hash() of the state; two hashes are equal if the states are *)
Definition hash_key (a : pdate) : res (list Z) := getstate a.

(** datetime.py:893-928  _is_pickle_data, 953-971  __setstate, 239-290  __new__ on the bytes of a pickle:
    a month byte outside 1..19 leaves a single field *)
Definition date_unpickle (bs : list Z) : res pdate :=
  match bs with
  | [yhi; ylo; mo; d] =>
    if (1 <=? mo) && (mo <=? 19) then date_new [yhi * 256 + MINYEAR + ylo; mo; d] else Err AssertionError
  | [k; v; y; mo; d] =>
    if (1 <=? mo) && (mo <=? 19) then date_new [k - 19; v; y; mo; d] else Err AssertionError
  | _ => Err AssertionError
  end.

(** datetime.py:804-823  __add__ of a timedelta (its days); 826-844  __sub__ *)
Definition date_add (a : pdate) (days : Z) : res pdate :=
  let* n := toordinal a in
  let od := n + days in
  if (DAYS_BEFORE_1ST_YEAR <? od) && (od <=? MAXORDINAL) then fromordinal (is_short a) od else Err OverflowError.
Definition date_sub_days (a : pdate) (days : Z) : res pdate := date_add a (- days).
Definition date_sub (a b : pdate) : res Z :=
  let* x := toordinal a in let* y := toordinal b in Ok (x - y).

(** datetime.py:846-884  weekday, isoweekday, isocalendar *)
Definition weekday (a : pdate) : res Z := let* (y, mo, d) := short_form a in day_of_week rnd m y mo d.
Definition isoweekday (a : pdate) : res Z := let* (y, mo, d) := short_form a in let* w := day_of_week rnd m y mo d in Ok (w + 1).
Definition isocalendar (a : pdate) : res (Z * Z * Z) := let* (y, mo, d) := short_form a in year_week_day rnd m false y mo d.

End Date.
