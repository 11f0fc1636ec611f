(** SpecLim.v -- vocabulary for the statements about min and max. *)
From Coq Require Import ZArith QArith List Bool.
From Verif Require Import Base BaseModel BadiModel DateModel TimeModel SpecBadi.
Local Open Scope Z_scope.

(** Year of the short form of a date. *)
Definition year_of (a : pdate) : Z :=
  match a with DShort y _ _ => y | DLong k v y _ _ => 361 * (k - 1) + 19 * (v - 1) + y end.
(** Is the date one of Ayyam-i-Ha? *)
Definition ayyam_i_ha (a : pdate) : Prop := match a with DShort _ mo _ => mo = 0 | DLong _ _ _ mo _ => mo = 0 end.
(** Last day of the last month. *)
Definition last_day (a : pdate) : Prop := match a with DShort _ mo d => mo = 19 /\ d = 19 | DLong _ _ _ mo d => mo = 19 /\ d = 19 end.
