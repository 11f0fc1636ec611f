(** SpecAstro.v -- what is assumed of the C library's functions, and the words of the sunset theorems. *)
From Coq Require Import ZArith QArith Reals Qreals.
From Verif Require Import Base BaseModel AstroModel.
Local Open Scope R_scope.

(** A mathematical library correct to nine decimals: every C library in use is far better.  [t] is the mathematical
    angle; sine, cosine and pi are those of Coq's real numbers. *)
Definition tol : R := 1 / 1000000000.
Definition near (q : Q) (r : R) : Prop := Rabs (Q2R q - r) <= tol.
Record accurate (lm : libm) : Prop := {
  acc_sin : forall x, near (l_sin lm x) (sin (Q2R x));
  acc_cos : forall x, near (l_cos lm x) (cos (Q2R x));
  acc_asin : forall x t, Q2R x = sin t -> - (PI / 2) <= t <= PI / 2 -> near (l_asin lm x) t;
  acc_acos : forall x t, Q2R x = cos t -> 0 <= t <= PI -> near (l_acos lm x) t;
  acc_atan2 : forall y x rho t, 0 < rho -> Q2R x = rho * cos t -> Q2R y = rho * sin t -> - PI < t <= PI ->
    near (l_atan2 lm y x) t }.

(** The local mean midnight opening day [H] at longitude [lon] (degrees east), as a Julian day. *)
Definition midnight (H : Z) (lon : R) : R := IZR H - 1 / 2 - lon / 360.

(** Meeus, Astronomical Algorithms, (3.3): the value at fraction [n] of a day, from the value [y] at its start, the
    change [a] over the day before and the change [b] over the day. *)
Definition between3 (y a b n : R) : R := y + n / 2 * (a + b + n * (b - a)).
(** (13.6): the sine of the altitude of a body of declination [d] and local hour angle [h] at latitude [p], degrees. *)
Definition dsin (x : R) : R := sin (x * (PI / 180)).
Definition dcos (x : R) : R := cos (x * (PI / 180)).
Definition sine_of_altitude (p d h : R) : R := dsin p * dsin d + dcos p * dcos d * dcos h.

(** The sun is on the horizon at fraction [v] of the day that starts [tc] centuries after J2000.0: its altitude, from
    its positions as the code has them at the start of the day before, of the day and of the day after, is 0.8333
    degrees below zero (refraction and half its diameter), to within 0.003 degrees. *)
Definition on_horizon (rnd : Q -> Q) (lm : libm) (tc lat lon v : Q) : Prop :=
  let ra := sun_apparent_right_ascension rnd lm in
  let dec := sun_apparent_declination rnd lm in
  let day := fdiv rnd 1 36525 in
  exists d0 d1 d2 (a b n : R) (k0 k1 : Z),
    dec (fsub rnd tc day) = Ok d0 /\ dec tc = Ok d1 /\ dec (fadd rnd tc day) = Ok d2 /\
    a = Q2R (ra tc) - Q2R (ra (fsub rnd tc day)) + 360 * IZR k0 /\ 0.8 <= a <= 1.2 /\
    b = Q2R (ra (fadd rnd tc day)) - Q2R (ra tc) + 360 * IZR k1 /\ 0.8 <= b <= 1.2 /\
    Rabs (n - Q2R v) <= 0.00001 /\
    Rabs (sine_of_altitude (Q2R lat)
            (between3 (Q2R d1) (Q2R d1 - Q2R d0) (Q2R d2 - Q2R d1) n)
            (Q2R (apparent_sidereal_time_greenwich rnd lm tc) + 360.98564736629 * Q2R v + Q2R lon - between3 (Q2R (ra tc)) a b n)
          + dsin 0.8333) <= 0.00005.
