(** SpecMisc.v -- small mathematical notions used by the statements about numeric helpers. *)
From Coq Require Import ZArith QArith Qabs List Bool String.
From Verif Require Import SpecGreg.
Import ListNotations.
Local Open Scope Q_scope.

(** [q] is the integer nearest to a/b, the even one when two are equally near. *)
Definition nearest_even (a b q : Z) : Prop :=
  (forall q', Z.abs (a - q * b) <= Z.abs (a - q' * b))%Z /\
  (forall q', q' <> q -> Z.abs (a - q' * b) = Z.abs (a - q * b) -> Z.Even q)%Z.

(** x^n and the polynomial a0 + a1 x + a2 x^2 + ... *)
Fixpoint qpow (x : Q) (n : nat) : Q := match n with O => 1 | S k => x * qpow x k end.
Fixpoint power_sum_from (n : nat) (x : Q) (a : list Q) : Q :=
  match a with [] => 0 | c :: a' => c * qpow x n + power_sum_from (S n) x a' end.
Definition power_sum := power_sum_from 0.

(** [p] is [l] without its trailing zeros. *)
Definition trimmed (l p : list Q) : Prop :=
  (exists z, l = p ++ z /\ Forall (fun x => x == 0) z) /\
  (p = [] \/ exists p' x, p = p' ++ [x] /\ ~ x == 0).

(** [n] days after 1 January 1970 *)
Inductive days_since_1970 : Z -> Z * Z * Z -> Prop :=
| ds_epoch : days_since_1970 0 (1970, 1, 1)%Z
| ds_next n g g' : days_since_1970 n g -> next_gday (leap_rule false) g g' -> days_since_1970 (n + 1) g'.

(** Years that are leap in the Julian but not in the Gregorian calendar, before the reform. *)
Definition julian_only_leap (y : Z) : Prop := (100 <= y <= 1500 /\ (100 | y) /\ ~ (400 | y))%Z.
