(** FmtModel.v -- format() and f-strings of dates, datetimes and times. *)
From Coq Require Import ZArith QArith List String.
From Verif Require Import Base BaseModel BadiModel TduModel DateModel TimeModel TextModel StrfModel ReprModel.
Import ListNotations.

Section Fmt.
Variable rnd : Q -> Q.
Variable m : Q -> Q -> Q -> Q.
(** the argument of __format__: a str, or an object of another type (only a direct call can pass one) *)
Inductive fmtarg := FStr (t : text) | FOther.
(** datetime.py:473-491  date.__format__ *)
Definition date_format (lo : locale) (a : pdate) (f : fmtarg) : res text :=
  match f with
  | FStr [] => date_str rnd m a
  | FStr t => date_strftime rnd m lo a t
  | FOther => Err TypeError
  end.
(** datetime inherits 473-491; self.strftime uses its own timetuple, str(self) is 2240-2263 with the default sep *)
Definition dt_format (lo : locale) (a : pdt) (zi : option zinfo) (f : fmtarg) : res text :=
  match f with
  | FStr [] => dt_str rnd m a (lit "T"%string)
  | FStr t => dt_strftime rnd m lo a zi t
  | FOther => Err TypeError
  end.
(** datetime.py:1393-1410  time.__format__; str(self) is isoformat() (1361) *)
Definition time_format (lo : locale) (a : ptime) (zi : option zinfo) (f : fmtarg) : res text :=
  match f with
  | FStr [] => time_isoformat a Auto
  | FStr t => time_strftime rnd m lo a zi t
  | FOther => Err TypeError
  end.
End Fmt.
