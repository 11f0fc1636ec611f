(** EquinoxModel.v -- model of the equinoxes and solstices of /repo/badidatetime/base_calendar.py. *)
From Coq Require Import ZArith QArith List Bool.
From Verif Require Import Base BaseModel GregModel ConvModel AstroModel.
Import ListNotations.
Local Open Scope Q_scope.

(** _astronomical_terms.py:250-259  _EQ_SO_A, _EQ_SO_B in hundredths and _EQ_SO_C in thousandths, side by side *)
Definition EQ_SO : list (Z * Z * Z) :=
  [(485, 32496, 1934136); (203, 33723, 32964467); (199, 34208, 20186); (182, 2785, 445267112);
   (156, 7314, 45036886); (136, 17152, 22518443); (77, 22254, 65928934); (74, 29672, 3034906);
   (70, 24358, 9037513); (58, 11981, 33718147); (52, 29717, 150678); (50, 2102, 2281226);
   (45, 24754, 29929562); (44, 32515, 31555956); (29, 6093, 4443417); (18, 15512, 67555328);
   (17, 28879, 4562452); (16, 19804, 62894029); (14, 19976, 31436921); (12, 9539, 14577848);
   (12, 28711, 31931756); (12, 32081, 34777259); (9, 22773, 1222114); (8, 1545, 16859074)]%Z.

(** base_calendar.py:50-53  _SPRING, _SUMMER, _AUTUMN, _WINTER *)
Definition SPRING : Z := 0.
Definition SUMMER : Z := 90.
Definition AUTUMN : Z := 180.
Definition WINTER : Z := 270.

Section Equinox.
Variable rnd : Q -> Q.
Variable lm : libm.
(** the built-in sum on floats, which is not the same in every release of Python *)
Variable total : list Q -> Q.
Notation lit := (lit rnd).

(** base_calendar.py:953-1000  _approx_julian_day_for_equinoxes_or_solstices *)
Definition approx_season (g_year lam : Z) : Q :=
  if (g_year <=? 1000)%Z then
    let y := fdiv rnd (inject_Z g_year) 1000 in
    if (lam =? SPRING)%Z then poly rnd y [lit 172113929189 100000; lit 3652421374 10000; lit 6134 100000; lit 111 100000; lit (-71) 100000]
    else if (lam =? SUMMER)%Z then poly rnd y [lit 172123325401 100000; lit 36524172562 100000; lit (-5323) 100000; lit 907 100000; lit 25 100000]
    else if (lam =? AUTUMN)%Z then poly rnd y [lit 172132570455 100000; lit 36524249558 100000; lit (-11677) 100000; lit (-297) 100000; lit 74 100000]
    else poly rnd y [lit 172141439987 100000; lit 36524288257 100000; lit (-769) 100000; lit (-933) 100000; lit (-6) 100000]
  else
    let y := fdiv rnd (inject_Z (g_year - 2000)) 1000 in
    if (lam =? SPRING)%Z then poly rnd y [lit 245162380984 100000; lit 36524237404 100000; lit 5169 100000; lit (-411) 100000; lit (-57) 100000]
    else if (lam =? SUMMER)%Z then poly rnd y [lit 245171656767 100000; lit 36524162603 100000; lit 325 100000; lit 888 100000; lit (-30) 100000]
    else if (lam =? AUTUMN)%Z then poly rnd y [lit 245181021715 100000; lit 36524201767 100000; lit (-11575) 100000; lit 337 100000; lit 78 100000]
    else poly rnd y [lit 245190005952 100000; lit 36524274049 100000; lit (-6223) 100000; lit (-823) 100000; lit 32 100000].

(** the terms of the sum at lines 1027-1028 *)
Definition season_term (tc : Q) (t : Z * Z * Z) : Q :=
  let '(a, b, c) := t in fmul rnd (inject_Z a) (cos_deg rnd lm (fadd rnd (lit b 100) (fmul rnd (lit c 1000) tc))).
(** base_calendar.py:1002-1035  _find_moment_of_equinoxes_or_solstices; the divisor [dl] is not far from 1, so that the
    division is not one by zero *)
Definition season_moment (jd : Q) (lam : Z) (zone : Q) : Q :=
  let year := gregorian_year_from_jd rnd jd in
  let jde0 := approx_season year lam in
  let tc := julian_centuries rnd jde0 in
  let w := fsub rnd (fmul rnd (lit 35999373 1000) tc) (lit 247 100) in
  let dl := fadd rnd 1 (fmul rnd (fmul rnd (lit 334 10000) (cos_deg rnd lm (fadd rnd w (lit 7 10000)))) (cos_deg rnd lm (fmul rnd 2 w))) in
  let s := total (map (season_term tc) EQ_SO) in
  let jde := fadd rnd jde0 (fdiv rnd (fmul rnd (lit 1 100000) s) dl) in
  let jd_ut := fsub rnd jde (fdiv rnd (delta_t rnd jde false) 86400) in
  round12 rnd (fadd rnd jd_ut (HR rnd zone)).
End Equinox.
