(** ObjModel.v -- operators applied to objects of any kind: what Python makes of the methods of date, datetime, time and
    timezone when the operands are of different classes. *)
From Coq Require Import ZArith QArith List Bool String.
From Verif Require Import Base TduModel DateModel TimeModel.
Import ListNotations.
Local Open Scope Z_scope.

(** The operands: instances of date (datetime.py:232), datetime (1585, a subclass of date), time (1062), timezone (2647;
    its subclass TZWithCoords, 2830, inherits the methods here), timedelta (in microseconds), and objects of other classes,
    whose own methods know none of these classes and return NotImplemented. *)
Inductive obj := ODate (a : pdate) | ODt (a : pdt) | OTime (a : ptime) | OZone (a : zone) | ODelta (us : Z) | OOther (id : Z).
Inductive cmpop := EQ | NE | LT | LE | GT | GE.

Section Obj.
Variable rnd : Q -> Q.
Variable m : Q -> Q -> Q -> Q.

(** The value of a method: [None] is NotImplemented. *)
Definition answer := option (res bool).

(** datetime.py:747-765  date.__eq__, __le__, __lt__, __ge__, __gt__: [isinstance(other, date)] holds of a datetime too;
    object.__ne__ inverts __eq__ *)
Definition negated (r : answer) : answer := match r with Some v => Some (let* b := v in Ok (negb b)) | None => None end.
Definition as_date (w : obj) : option pdate := match w with ODate b => Some b | ODt b => Some (dt_d b) | _ => None end.
Definition date_method (op : cmpop) (a : pdate) (w : obj) : answer :=
  match as_date w with
  | Some b => match op with
              | EQ => Some (date_eq a b) | LE => Some (date_le a b) | LT => Some (date_lt a b) | GE => Some (date_ge a b) | GT => Some (date_gt a b)
              | NE => negated (Some (date_eq a b))
              end
  | None => None
  end.
(** datetime.py:2326-2364  datetime.__eq__, ...; 110-119  _cmperror *)
Definition dt_method (op : cmpop) (a : pdt) (w : obj) : answer :=
  match w with
  | ODt b => match op with
             | EQ => Some (dt_eq rnd m a b) | LE => Some (dt_le rnd m a b) | LT => Some (dt_lt rnd m a b) | GE => Some (dt_ge rnd m a b) | GT => Some (dt_gt rnd m a b)
             | NE => negated (Some (dt_eq rnd m a b))
             end
  | ODate _ => match op with EQ => Some (Ok false) | NE => negated (Some (Ok false)) | _ => Some (Err TypeError) end
  | _ => None
  end.
(** datetime.py:1200-1218  time.__eq__, ... *)
Definition time_method (op : cmpop) (a : ptime) (w : obj) : answer :=
  match w with
  | OTime b => match op with
               | EQ => Some (time_eq a b) | LE => Some (time_le a b) | LT => Some (time_lt a b) | GE => Some (time_ge a b) | GT => Some (time_gt a b)
               | NE => negated (Some (time_eq a b))
               end
  | _ => None
  end.
(** datetime.py:2699-2703  timezone.__eq__; the orderings are those of object: NotImplemented *)
Definition zone_method (op : cmpop) (a : zone) (w : obj) : answer :=
  match w, op with
  | OZone b, EQ => Some (Ok (zone_eq a b))
  | OZone b, NE => negated (Some (Ok (zone_eq a b)))
  | _, _ => None
  end.
(** timedelta of the standard library *)
Definition delta_method (op : cmpop) (a : Z) (w : obj) : answer :=
  match w with
  | ODelta b => Some (Ok (match op with EQ => a =? b | NE => negb (a =? b) | LT => a <? b | LE => a <=? b | GT => b <? a | GE => b <=? a end))
  | _ => None
  end.
Definition method (op : cmpop) (v w : obj) : answer :=
  match v with
  | ODate a => date_method op a w
  | ODt a => dt_method op a w
  | OTime a => time_method op a w
  | OZone a => zone_method op a w
  | ODelta a => delta_method op a w
  | OOther _ => None
  end.
(** The Python language reference, 3.3.1 (rich comparison methods): the reflected method; the right operand first if its
    class is a proper subclass of that of the left one; otherwise the left one; then the reflected method of the other; at
    last identity ([same]) for == and !=, TypeError for the orderings. *)
Definition reflected (op : cmpop) : cmpop := match op with EQ => EQ | NE => NE | LT => GT | LE => GE | GT => LT | GE => LE end.
Definition proper_subclass (w v : obj) : bool := match w, v with ODt _, ODate _ => true | _, _ => false end.
Definition last_resort (op : cmpop) (same : bool) : res bool := match op with EQ => Ok same | NE => Ok (negb same) | _ => Err TypeError end.
Definition or_else (r : answer) (k : res bool) : res bool := match r with Some v => v | None => k end.
Definition compare_op (op : cmpop) (same : bool) (v w : obj) : res bool :=
  if proper_subclass w v then or_else (method (reflected op) w v) (or_else (method op v w) (last_resort op same))
  else or_else (method op v w) (or_else (method (reflected op) w v) (last_resort op same)).

(** ** Sums and differences *)
(** datetime.py:804-824  date.__add__, __radd__: the days of the timedelta (rounded down, as in every timedelta);
    2419-2447  datetime.__add__, __radd__; time and timezone have none.  [None] is NotImplemented. *)
Definition add_method (v w : obj) : option (res obj) :=
  match v, w with
  | ODate a, ODelta td => Some (let* b := date_add rnd m a (td / DAY) in Ok (ODate b))
  | ODt a, ODelta td => Some (let* b := dt_add rnd m a td in Ok (ODt b))
  | ODelta x, ODelta y => Some (Ok (ODelta (x + y)))
  | _, _ => None
  end.
(** datetime.py:826-844  date.__sub__: [self + timedelta(-other.days)], or the days between two dates, of which the second
    may be a datetime; 2449-2485  datetime.__sub__.  Neither class has an __rsub__; that of timedelta takes timedeltas only. *)
Definition sub_method (v w : obj) : option (res obj) :=
  match v, w with
  | ODate a, ODelta td => Some (let* b := date_add rnd m a (- (td / DAY)) in Ok (ODate b))
  | ODt a, ODelta td => Some (let* b := dt_sub_td rnd m a td in Ok (ODt b))
  | ODate a, ODate b => Some (let* n := date_sub rnd m a b in Ok (ODelta (n * DAY)))
  | ODate a, ODt b => Some (let* n := date_sub rnd m a (dt_d b) in Ok (ODelta (n * DAY)))
  | ODt a, ODt b => Some (let* n := dt_sub rnd m a b in Ok (ODelta n))
  | ODelta x, ODelta y => Some (Ok (ODelta (x - y)))
  | _, _ => None
  end.
(** The Python language reference, 3.3.8: the method of the left operand, then __radd__ (the same function as __add__) of the
    right one; the reflected method of a subclass would come first, but datetime.__radd__ returns NotImplemented for a date. *)
Definition add_op (v w : obj) : res obj :=
  match add_method v w with
  | Some r => r
  | None => match w with
            | ODate _ | ODt _ => match add_method w v with Some r => r | None => Err TypeError end
            | _ => Err TypeError
            end
  end.
Definition sub_op (v w : obj) : res obj := match sub_method v w with Some r => r | None => Err TypeError end.
End Obj.
