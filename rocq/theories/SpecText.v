(** SpecText.v -- the texts the statements about ISO forms and formats speak of, written down column by column. *)
From Coq Require Import ZArith List Bool String Ascii.
Import ListNotations.
Local Open Scope Z_scope.

(** A text is the list of its code points; [str] reads a literal. *)
Definition str (s : string) : list Z := map (fun c => Z.of_nat (nat_of_ascii c)) (list_ascii_of_string s).
(** The [w] decimal columns of a number, most significant first. *)
Definition columns (w : nat) (z : Z) : list Z := map (fun i => 48 + z / 10 ^ Z.of_nat i mod 10) (rev (seq 0 w)).
(** Year, four columns; a minus sign takes the place of one of them if three suffice. *)
Definition year_text (y : Z) : list Z :=
  if y <? 0 then str "-" ++ columns (if y <=? -1000 then 4 else 3) (- y) else columns 4 y.
Definition ymd_text (y mo d : Z) : list Z := year_text y ++ str "-" ++ columns 2 mo ++ str "-" ++ columns 2 d.
Definition hm_text (h mi : Z) : list Z := columns 2 h ++ str ":" ++ columns 2 mi.
Definition hms_text (h mi s : Z) : list Z := hm_text h mi ++ str ":" ++ columns 2 s.
(** hh:mm:ss, followed by six columns of microseconds if there are any *)
Definition clock_text (h mi s us : Z) : list Z := hms_text h mi s ++ (if us =? 0 then [] else str "." ++ columns 6 us).
(** Sign, hours and minutes of an offset in microseconds, then its seconds and microseconds if needed. *)
Definition offset_text (o : Z) : list Z :=
  let a := Z.abs o in
  (if o <? 0 then str "-" else str "+") ++ hm_text (a / 3600000000) (a / 60000000 mod 60) ++
  (if a mod 60000000 =? 0 then [] else
   str ":" ++ columns 2 (a / 1000000 mod 60) ++ (if a mod 1000000 =? 0 then [] else str "." ++ columns 6 (a mod 1000000))).
(** A year in four columns, with a sign before them if it is negative: the form the parser reads. *)
Definition signed_year (y : Z) : list Z := if y <? 0 then str "-" ++ columns 4 (- y) else columns 4 y.
Definition dash (extended : bool) : list Z := if extended then str "-" else [].
Definition colon (extended : bool) : list Z := if extended then str ":" else [].
(** Clock text with or without colons, with [w] columns of fraction. *)
Definition fraction (w : nat) (f : Z) : list Z := match w with O => [] | _ => str "." ++ columns w f end.
Definition clock_form (x : bool) (h mi s : Z) (w : nat) (f : Z) : list Z :=
  columns 2 h ++ colon x ++ columns 2 mi ++ colon x ++ columns 2 s ++ fraction w f.
