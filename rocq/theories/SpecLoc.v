(** SpecLoc.v -- the words of the theorems on the formats of the locale in strptime. *)
From Coq Require Import ZArith List String Permutation.
From Verif Require Import Base BaseModel TextModel SpecText StrfModel SpecStrf StrpModel LocModel.
Import ListNotations.
Local Open Scope Z_scope.

(** A character between the fields of a date or a time: no capital letter, no digit, not the percent sign, and no letter of
    Kamál and Jamál, the weekday and the month of the date from which strptime infers the formats of the locale. *)
Definition delimiter (s : Z) : Prop := lower s = s /\ ~ In s (str "%0123456789kamjl") /\ ~ In s (u "á").
(** The fields a date format is made of: day, month (number or name), year (four or two digits), weekday. *)
Definition date_field (c : Z) : Prop := In c (str "dmyYbBaA").
(** The locale's word for PM, given the two delimiters: empty, or with a letter of its own. *)
Definition pm_word (pm : list Z) (s ts : Z) : Prop :=
  pm = [] \/ exists c, In c (lower_text pm) /\ ~ In c (str "%aAbB: 0123456789") /\ c <> s /\ c <> ts.
(** The name of a time zone: at least three characters, or none at all, and no percent sign. *)
Definition zone_name (n : list Z) : Prop := n = [] \/ (3 <= List.length n)%nat /\ ~ In 37 (lower_text n).
(** A locale whose formats strptime can infer: the date format is three fields [a] [b] [c] with the delimiter [s], the
    digits of the clock are separated by [ts]; [p] is the locale's twelve hour format, empty if it has none. *)
Definition plain_locale (am pm : list Z) (a s b c : Z) (x p : list Z) (ts : Z) (lo : locale) (e : tzenv) : Prop :=
  locale_data am pm (format_text [D a; L s; D b; L s; D c]) x p = Ok lo /\ nth_error x 2 = Some ts /\
  date_field a /\ date_field b /\ date_field c /\ delimiter s /\ delimiter ts /\ pm_word pm s ts /\
  zone_name (te_std e) /\ zone_name (te_dst e) /\ (forall l, Permutation (te_order e l) l).
