(** SpecTransit.v -- the words of the theorems on the transit of the sun. *)
From Coq Require Import ZArith QArith Reals Qreals.
From Verif Require Import Base BaseModel AstroModel SpecAstro.
Local Open Scope R_scope.

(** [h] is the local hour angle of the sun, in degrees west of the meridian, at fraction [v] of a day after the moment
    [tc] centuries after J2000.0, at longitude [lon]: sidereal time less right ascension, the latter from its values as
    the code has them a day before, at, and a day after that moment; the day turns the earth by 360.98564736629
    degrees. *)
Definition hour_angle_of_sun (rnd : Q -> Q) (lm : libm) (tc lon v : Q) (h : R) : Prop :=
  let ra := sun_apparent_right_ascension rnd lm in
  let day := fdiv rnd 1 36525 in
  exists (a b n : R) (k0 k1 : Z),
    a = Q2R (ra tc) - Q2R (ra (fsub rnd tc day)) + 360 * IZR k0 /\ 0.8 <= a <= 1.2 /\
    b = Q2R (ra (fadd rnd tc day)) - Q2R (ra tc) + 360 * IZR k1 /\ 0.8 <= b <= 1.2 /\
    Rabs (n - Q2R v) <= 0.00001 /\
    h = Q2R (apparent_sidereal_time_greenwich rnd lm tc) + 360.98564736629 * Q2R v + Q2R lon - between3 (Q2R (ra tc)) a b n.

(** The sun is on the meridian: its hour angle is a number of turns, to within 0.001 degrees (a quarter of a second). *)
Definition on_meridian (rnd : Q -> Q) (lm : libm) (tc lon v : Q) : Prop :=
  exists h (k : Z), hour_angle_of_sun rnd lm tc lon v h /\ Rabs (h - 360 * IZR k) <= 0.001.
