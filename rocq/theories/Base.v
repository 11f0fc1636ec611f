(** Base.v -- Python results and small numeric helpers shared by the models.

    Models the Python language features the code relies on, not a /repo file:
    exceptions become values of [res]; [int] is [Z]. *)
From Coq Require Import ZArith QArith Qround Qabs List Bool Lia.
Import ListNotations.

(** Python exception classes that the modelled code can raise. *)
Inductive exn :=
| AssertionError | ValueError | TypeError | KeyError | IndexError
| OverflowError | AttributeError | ZeroDivisionError.

Inductive res (A : Type) :=
| Ok (a : A)
| Err (e : exn).
Arguments Ok {A} a.
Arguments Err {A} e.

Definition bind {A B} (r : res A) (f : A -> res B) : res B :=
  match r with Ok a => f a | Err e => Err e end.

Notation "'let*' x := r 'in' k" := (bind r (fun x => k))
  (at level 200, x pattern, r at level 100, k at level 200).

(** [assert c, ...] *)
Definition passert (c : bool) : res unit := if c then Ok tt else Err AssertionError.

Definition exn_eqb (a b : exn) : bool :=
  match a, b with
  | AssertionError, AssertionError | ValueError, ValueError | TypeError, TypeError
  | KeyError, KeyError | IndexError, IndexError | OverflowError, OverflowError
  | AttributeError, AttributeError | ZeroDivisionError, ZeroDivisionError => true
  | _, _ => false
  end.

Definition is_ok {A} (r : res A) : bool := match r with Ok _ => true | Err _ => false end.

(** Python [True]/[False] used as 1/0 in arithmetic. *)
Definition b2z (b : bool) : Z := if b then 1%Z else 0%Z.

(** Boolean rational comparisons. *)
Definition Qltb (x y : Q) : bool := negb (Qle_bool y x).
Definition Qleb (x y : Q) : bool := Qle_bool x y.
Definition Qeqb (x y : Q) : bool := Qeq_bool x y.

Lemma Qltb_lt x y : Qltb x y = true <-> (x < y)%Q.
Proof.
  unfold Qltb. rewrite negb_true_iff. split.
  - intro H. apply Qnot_le_lt. intro C. apply Qle_bool_iff in C. congruence.
  - intro H. destruct (Qle_bool y x) eqn:E; [|reflexivity].
    apply Qle_bool_iff in E. exfalso. apply (Qlt_not_le _ _ H E).
Qed.

Lemma Qltb_ge x y : Qltb x y = false <-> (y <= x)%Q.
Proof.
  unfold Qltb. rewrite negb_false_iff. apply Qle_bool_iff.
Qed.

Lemma Qleb_le x y : Qleb x y = true <-> (x <= y)%Q.
Proof. apply Qle_bool_iff. Qed.

Lemma Qleb_gt x y : Qleb x y = false <-> (y < x)%Q.
Proof.
  unfold Qleb. split.
  - intro H. apply Qnot_le_lt. intro C. apply Qle_bool_iff in C. congruence.
  - intro H. destruct (Qle_bool x y) eqn:E; [|reflexivity].
    apply Qle_bool_iff in E. exfalso. apply (Qlt_not_le _ _ H E).
Qed.

(** Trunc towards zero: Python [int(x)] on a float. *)
Definition Qtrunc (x : Q) : Z := if Qleb 0 x then Qfloor x else Qceiling x.

(** Python [round(x)]: nearest integer, ties to even. *)
Definition rne (x : Q) : Z :=
  let f := Qfloor x in
  let d := (x - inject_Z f)%Q in
  if Qltb d (1#2) then f
  else if Qltb (1#2) d then (f + 1)%Z
  else if Z.even f then f else (f + 1)%Z.

(** Decimal rounding to [n] places (exact, ties to even on the scaled integer):
    the decimal value printed by Python's [round(x, n)]. *)
Definition qround (n : positive) (x : Q) : Q :=
  (inject_Z (rne (x * inject_Z (10 ^ Zpos n))) / inject_Z (10 ^ Zpos n))%Q.

(** floor characterisation *)
Lemma Qfloor_spec x z : (inject_Z z <= x)%Q -> (x < inject_Z (z+1))%Q -> Qfloor x = z.
Proof.
  intros H1 H2.
  assert (A : (z <= Qfloor x)%Z).
  { rewrite <- (Qfloor_Z z). apply Qfloor_resp_le. exact H1. }
  assert (B : (Qfloor x < z + 1)%Z).
  { rewrite Zlt_Qlt. eapply Qle_lt_trans; [apply Qfloor_le | exact H2]. }
  lia.
Qed.

Lemma Qfloor_iff x z : Qfloor x = z <-> (inject_Z z <= x /\ x < inject_Z (z+1))%Q.
Proof.
  split.
  - intros <-. split; [apply Qfloor_le | apply Qlt_floor].
  - intros [A B]. apply Qfloor_spec; assumption.
Qed.
