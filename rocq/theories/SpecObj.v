(** SpecObj.v -- what the operators are to do with operands of different classes (C97). *)
From Coq Require Import ZArith String.
From Verif Require Import ObjModel.
Local Open Scope string_scope.

(** The class of an operand: a datetime is not a date here. *)
Definition class (v : obj) : string :=
  match v with
  | ODate _ => "date" | ODt _ => "datetime" | OTime _ => "time" | OZone _ => "timezone" | ODelta _ => "timedelta" | OOther _ => "other"
  end.
(** The classes a timedelta can be added to. *)
Definition addable (v : obj) : Prop := class v = "date" \/ class v = "datetime" \/ class v = "timedelta".
