(** TsModel.v -- dates and datetimes made from POSIX time stamps. *)
From Coq Require Import ZArith QArith Qround List Bool.
From Verif Require Import Base Flt BaseModel BadiModel DateModel TimeModel.
Import ListNotations.
Local Open Scope Z_scope.

Section Ts.
Variable rnd : Q -> Q.
Variable m : Q -> Q -> Q -> Q.

(** datetime.py:295-311  date.fromtimestamp; [lat], [lon]: LOCAL_COORD.  Also datetime.py:313-323  today, where
    [t] is what time.time() answers *)
Definition date_fromtimestamp (short : bool) (t lat lon : Q) : res pdate :=
  let* b := badi_date_from_timestamp rnd m (year_table rnd m) false short true false t lat lon in
  date_new rnd m (firstn (if short then 3 else 5)%nat (bdate_fields b)).

(** datetime.py:1806-1850  _fromtimestamp, 1852-1866  fromtimestamp; [lat], [lon]: tz.coordinates when tz has
    them, else LOCAL_COORD.  Also 1871-1882  now, where [t] is what time.time() answers.  The clock handed to
    the constructor is written out (a tuple of another length would raise: TsProofs.fields_len shows there is none) *)
Definition dt_fromtimestamp (short : bool) (tzi : option tz) (t lat lon : Q) : res pdt :=
  let* b := badi_date_from_timestamp rnd m (year_table rnd m) true short false false t lat lon in
  let n := (if short then 3 else 5)%nat in
  match skipn n (bdate_fields b) with
  | [h; mi; s; us] => dt_new rnd m (firstn n (bdate_fields b)) h mi (Z.min s 59) us tzi 0
  | _ => Err IndexError
  end.
End Ts.
