(** SpecStrp.v -- vocabulary for the statements about strptime. *)
From Coq Require Import ZArith List Bool String.
From Verif Require Import Base StrfModel StrpModel SpecText SpecStrf.
Import ListNotations.
Local Open Scope Z_scope.

(** The directive letters of a format, in order. *)
Definition letters (l : list piece) : list Z := flat_map (fun p => match p with D c => [c] | DM _ c => [c] | L _ => [] end) l.
(** Does a format contain the directive with the letter of a one letter text? *)
Definition has (l : list piece) (c : string) : bool := existsb (fun x => existsb (Z.eqb x) (str c)) (letters l).
(** datetime.strftime replaces %f by digits before it looks for marks: as far as marks are concerned it is a literal. *)
Definition f_as_literal (l : list piece) : list piece := map (fun p => match p with D 102 => L 48 | _ => p end) l.
(** The pieces of the round trip: any literal, and the directives for year, month (number, name, abbreviation), day, hour,
    minute, second, microsecond, weekday (name, abbreviation) and day of the year. *)
Definition readable (p : piece) : Prop :=
  match p with L c => c <> 37 | D c => In c (str "YmBbdHMSfAaj") | DM _ _ => False end.
(** The locale of a fresh process: the module's own names, in lower case. *)
Definition std (lo : sloc) : Prop :=
  sl_A lo = map lower_text DAYNAMES /\ sl_a lo = map lower_text DAYNAMES_ABV /\ sl_B lo = map lower_text MONTHNAMES /\ sl_b lo = map lower_text MONTHNAMES_ABV.
(** An offset in microseconds with or without colons: sign, hours, minutes, then seconds and microseconds if needed. *)
Definition offset_form (x : bool) (o : Z) : list Z :=
  let a := Z.abs o in
  (if o <? 0 then str "-" else str "+") ++ columns 2 (a / 3600000000) ++ colon x ++ columns 2 (a / 60000000 mod 60) ++
  (if a mod 60000000 =? 0 then [] else
   colon x ++ columns 2 (a / 1000000 mod 60) ++ (if a mod 1000000 =? 0 then [] else str "." ++ columns 6 (a mod 1000000))).
