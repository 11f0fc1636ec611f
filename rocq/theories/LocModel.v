(** LocModel.v -- model of LocaleTime, /repo/badidatetime/_strptime.py: how the tables strptime works with come about. *)
From Coq Require Import ZArith QArith List Bool String.
From Verif Require Import Base BaseModel DateModel TimeModel TextModel StrfModel StrpModel.
Import ListNotations.
Local Open Scope Z_scope.

(** str.replace (language feature): occurrences from the left, which do not overlap; [skip] characters of the last one found
    are still to be passed.  The code never replaces the empty text (lines 161-167). *)
Fixpoint starts (old s : text) : bool :=
  match old, s with [], _ => true | a :: old, b :: s => (a =? b) && starts old s | _ :: _, [] => false end.
Fixpoint replace_from (skip : nat) (old new s : text) : text :=
  match s with
  | [] => []
  | c :: r =>
    match skip with
    | S k => replace_from k old new r
    | O => if starts old s then new ++ replace_from (List.length old - 1) old new r else c :: replace_from 0 old new r
    end
  end.
Definition replace (old new s : text) : text := replace_from 0 old new s.

(** the time module: tzname, daylight; [order] is the order in which a frozenset of texts is gone through *)
Record tzenv := { te_std : text; te_dst : text; te_daylight : bool; te_order : list text -> list text }.
Definition text_dec : forall a b : text, {a = b} + {a <> b} := list_eq_dec Z.eq_dec.

Section Loc.
Variable rnd : Q -> Q.
Variable m : Q -> Q -> Q -> Q.
Variable lo : locale.

(** _strptime.py:97-102  __calc_weekday; 104-113  __calc_month: the month names in the order of their numbers *)
Definition calc_weekday : list text * list text := (map lower_text DAYNAMES_ABV, map lower_text DAYNAMES).
Definition calc_month : list text * list text := (map lower_text MONTHNAMES_ABV, map lower_text MONTHNAMES).
(** a format applied to a time of the year 199, in lower case (lines 127-129, 141-146) *)
Definition magic (mo d h mi s : Z) (f : text) : res text :=
  let* t := build_struct_time rnd m (DShort 199 mo d) h mi s 0 None in
  let* x := strftime rnd m lo f (Named t) None in
  Ok (lower_text x).
(** _strptime.py:115-131  __calc_am_pm *)
Definition calc_am_pm : res (list text) :=
  let* a := magic 1 1 1 44 55 (lit "%p") in
  let* p := magic 1 1 22 44 55 (lit "%p") in
  Ok [a; p].
(** _strptime.py:177-195  __calc_timezone *)
Definition calc_timezone (e : tzenv) : list text * list text :=
  (te_order e (nodup text_dec [lit "utc"; lit "gmt"; lower_text (te_std e)]),
   if te_daylight e then [lower_text (te_dst e)] else []).
(** _strptime.py:148-156  replacement_pairs *)
Definition pairs (wd mn : list text * list text) (p : text) (z : list text * list text) : list (text * text) :=
  [(lit "%", lit "%%"); (nth 2 (snd wd) [], lit "%A"); (nth 3 (snd mn) [], lit "%B"); (nth 2 (fst wd) [], lit "%a");
   (nth 3 (fst mn) [], lit "%b"); (p, lit "%p"); (lit "0199", lit "%Y"); (lit "99", lit "%y"); (lit "22", lit "%H");
   (lit "04", lit "%M"); (lit "4", lit "%-M"); (lit "30", lit "%S"); (lit "55", lit "%j"); (lit "17", lit "%d");
   (lit "03", lit "%m"); (lit "3", lit "%-m"); (lit "2", lit "%w"); (lit "10", lit "%I")]
  ++ map (fun t => (t, lit "%Z")) (fst z ++ snd z).
(** _strptime.py:158-171: one of the three formats *)
Definition to_format (ps : list (text * text)) (s : text) : text :=
  replace (lit "11") (lit "%U") (fold_left (fun s x => match fst x with [] => s | _ => replace (fst x) (snd x) s end) ps s).
(** _strptime.py:63-95  __init__, with 133-175  __calc_date_time.  The checks at the end for a locale or zone changed
    meanwhile are left out: the call is taken to be atomic. *)
Definition locale_time (e : tzenv) : res sloc :=
  let wd := calc_weekday in
  let mn := calc_month in
  let* ap := calc_am_pm in
  let z := calc_timezone e in
  let* c := magic 3 17 22 4 30 (lit "%c") in
  let* x := magic 3 17 22 4 30 (lit "%x") in
  let* X := magic 3 17 22 4 30 (lit "%X") in
  let f := to_format (pairs wd mn (nth 1 ap []) z) in
  Ok {| sl_A := snd wd; sl_a := fst wd; sl_B := snd mn; sl_b := fst mn; sl_p := ap; sl_Z := z; sl_c := f c; sl_x := f x; sl_X := f X |}.
End Loc.
