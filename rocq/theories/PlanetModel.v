(** PlanetModel.v -- model of the place of the sun by the planetary theory VSOP87, /repo/badidatetime/base_calendar.py. *)
From Coq Require Import ZArith QArith List Bool.
From Verif Require Import Base BaseModel AstroModel.
Import ListNotations.
Local Open Scope Q_scope.

(** _astronomical_terms.py:14-35  _L0_A, _L0_B and _L0_C, side by side; they have one length, as _sigma asserts *)
Definition TL0 : list (Z * Q * Q) :=
  [(175347046%Z, 0 # 1, 0 # 1); (3341656%Z, 46692568 # 10000000, 628307585 # 100000);
   (34894%Z, 46261 # 10000, 125661517 # 10000); (3497%Z, 27441 # 10000, 57533849 # 10000);
   (3418%Z, 28289 # 10000, 35231 # 10000); (3136%Z, 36277 # 10000, 777137715 # 10000);
   (2676%Z, 44181 # 10000, 78604194 # 10000); (2343%Z, 61352 # 10000, 39302097 # 10000);
   (1324%Z, 7425 # 10000, 115067698 # 10000); (1273%Z, 20371 # 10000, 529691 # 1000);
   (1199%Z, 11096 # 10000, 15773435 # 10000); (990%Z, 5233 # 1000, 5884927 # 1000);
   (902%Z, 2045 # 1000, 26298 # 1000); (857%Z, 3508 # 1000, 398149 # 1000); (780%Z, 1179 # 1000, 5223694 # 1000);
   (753%Z, 2533 # 1000, 5507553 # 1000); (505%Z, 4583 # 1000, 18849228 # 1000); (492%Z, 4205 # 1000, 775523 # 1000);
   (357%Z, 292 # 100, 67 # 1000); (317%Z, 5849 # 1000, 11790629 # 1000); (284%Z, 1899 # 1000, 796298 # 1000);
   (271%Z, 315 # 1000, 10977079 # 1000); (243%Z, 345 # 1000, 5486778 # 1000); (206%Z, 4806 # 1000, 2544314 # 1000);
   (205%Z, 1869 # 1000, 5573143 # 1000); (202%Z, 2458 # 1000, 6069777 # 1000); (156%Z, 833 # 1000, 213299 # 1000);
   (132%Z, 3411 # 1000, 2942463 # 1000); (126%Z, 1083 # 1000, 20775 # 1000); (115%Z, 645 # 1000, 98 # 100);
   (103%Z, 636 # 1000, 4694003 # 1000); (102%Z, 976 # 1000, 15720839 # 1000); (102%Z, 4267 # 1000, 7114 # 1000);
   (99%Z, 621 # 100, 214617 # 100); (98%Z, 68 # 100, 15542 # 100); (86%Z, 598 # 100, 16100069 # 100);
   (85%Z, 13 # 10, 627596 # 100); (85%Z, 367 # 100, 714307 # 10); (80%Z, 181 # 100, 1726015 # 100);
   (79%Z, 304 # 100, 1203646 # 100); (75%Z, 176 # 100, 508863 # 100); (74%Z, 35 # 10, 315469 # 100);
   (74%Z, 468 # 100, 80182 # 100); (70%Z, 83 # 100, 943776 # 100); (62%Z, 398 # 100, 882739 # 100);
   (61%Z, 182 # 100, 70849 # 10); (57%Z, 278 # 100, 62866 # 10); (56%Z, 439 # 100, 141435 # 10);
   (56%Z, 347 # 100, 627955 # 100); (52%Z, 19 # 100, 1213955 # 100); (52%Z, 133 # 100, 174802 # 100);
   (51%Z, 28 # 100, 585648 # 100); (49%Z, 49 # 100, 119445 # 100); (41%Z, 537 # 100, 842924 # 100);
   (41%Z, 24 # 10, 1965105 # 100); (39%Z, 617 # 100, 1044739 # 100); (37%Z, 604 # 100, 1021329 # 100);
   (37%Z, 257 # 100, 105938 # 100); (36%Z, 171 # 100, 235287 # 100); (36%Z, 178 # 100, 681277 # 100);
   (33%Z, 59 # 100, 1778985 # 100); (30%Z, 44 # 100, 8399685 # 100); (30%Z, 274 # 100, 134987 # 100);
   (25%Z, 316 # 100, 469048 # 100)].
(** _astronomical_terms.py:36-47  _L1_A, _L1_B and _L1_C, side by side; they have one length, as _sigma asserts *)
Definition TL1 : list (Z * Q * Q) :=
  [(628331966747%Z, 0 # 1, 0 # 1); (206059%Z, 2678235 # 1000000, 628307585 # 100000);
   (4303%Z, 26351 # 10000, 125661517 # 10000); (425%Z, 159 # 100, 3523 # 1000); (119%Z, 5796 # 1000, 26298 # 1000);
   (109%Z, 2966 # 1000, 1577344 # 1000); (93%Z, 259 # 100, 1884923 # 100); (72%Z, 114 # 100, 52969 # 100);
   (68%Z, 187 # 100, 39815 # 100); (67%Z, 441 # 100, 550755 # 100); (59%Z, 289 # 100, 522369 # 100);
   (56%Z, 217 # 100, 15542 # 100); (45%Z, 4 # 10, 7963 # 10); (36%Z, 47 # 100, 77552 # 100);
   (29%Z, 265 # 100, 711 # 100); (21%Z, 534 # 100, 98 # 100); (19%Z, 185 # 100, 548678 # 100);
   (19%Z, 497 # 100, 2133 # 10); (17%Z, 299 # 100, 627596 # 100); (16%Z, 3 # 100, 254431 # 100);
   (16%Z, 143 # 100, 214617 # 100); (15%Z, 121 # 100, 1097708 # 100); (12%Z, 283 # 100, 174802 # 100);
   (12%Z, 326 # 100, 508863 # 100); (12%Z, 527 # 100, 119445 # 100); (12%Z, 208 # 100, 46940 # 10);
   (11%Z, 77 # 100, 55357 # 100); (10%Z, 13 # 10, 62866 # 10); (10%Z, 424 # 100, 134987 # 100);
   (9%Z, 27 # 10, 24273 # 100); (9%Z, 564 # 100, 95172 # 100); (8%Z, 53 # 10, 235287 # 100);
   (6%Z, 265 # 100, 943776 # 100); (6%Z, 467 # 100, 469048 # 100)].
(** _astronomical_terms.py:48-54  _L2_A, _L2_B and _L2_C, side by side; they have one length, as _sigma asserts *)
Definition TL2 : list (Z * Q * Q) :=
  [(52919%Z, 0 # 1, 0 # 1); (8720%Z, 10721 # 10000, 62830758 # 10000); (309%Z, 867 # 1000, 12566152 # 1000);
   (27%Z, 5 # 100, 352 # 100); (16%Z, 519 # 100, 263 # 10); (16%Z, 368 # 100, 15542 # 100);
   (10%Z, 76 # 100, 1884923 # 100); (9%Z, 206 # 100, 7771377 # 100); (7%Z, 83 # 100, 77552 # 100);
   (5%Z, 466 # 100, 157734 # 100); (4%Z, 103 # 100, 711 # 100); (4%Z, 344 # 100, 557314 # 100);
   (3%Z, 514 # 100, 7963 # 10); (3%Z, 605 # 100, 550755 # 100); (3%Z, 119 # 100, 24273 # 100);
   (3%Z, 612 # 100, 52969 # 100); (3%Z, 31 # 100, 39815 # 100); (3%Z, 228 # 100, 55357 # 100);
   (2%Z, 438 # 100, 522369 # 100); (2%Z, 375 # 100, 98 # 100)].
(** _astronomical_terms.py:55-57  _L3_A, _L3_B and _L3_C, side by side; they have one length, as _sigma asserts *)
Definition TL3 : list (Z * Q * Q) :=
  [(289%Z, 5844 # 1000, 6283076 # 1000); (35%Z, 0 # 1, 0 # 1); (17%Z, 549 # 100, 1256615 # 100);
   (3%Z, 52 # 10, 15542 # 100); (1%Z, 472 # 100, 352 # 100); (1%Z, 53 # 10, 1884923 # 100);
   (1%Z, 597 # 100, 24273 # 100)].
(** _astronomical_terms.py:58-60  _L4_A, _L4_B and _L4_C, side by side; they have one length, as _sigma asserts *)
Definition TL4 : list (Z * Q * Q) :=
  [(114%Z, 3142 # 1000, 0 # 1); (8%Z, 413 # 100, 628308 # 100); (1%Z, 384 # 100, 1256615 # 100)].
(** _astronomical_terms.py:61-63  _L5_A, _L5_B and _L5_C, side by side; they have one length, as _sigma asserts *)
Definition TL5 : list (Z * Q * Q) :=
  [(1%Z, 314 # 100, 0 # 1)].
(** _astronomical_terms.py:66-68  _B0_A, _B0_B and _B0_C, side by side; they have one length, as _sigma asserts *)
Definition TB0 : list (Z * Q * Q) :=
  [(280%Z, 3199 # 1000, 84334662 # 1000); (102%Z, 5422 # 1000, 5507553 # 1000); (80%Z, 388 # 100, 522369 # 100);
   (44%Z, 370 # 100, 235287 # 100); (32%Z, 40 # 10, 157734 # 100)].
(** _astronomical_terms.py:69-71  _B1_A, _B1_B and _B1_C, side by side; they have one length, as _sigma asserts *)
Definition TB1 : list (Z * Q * Q) :=
  [(9%Z, 390 # 100, 550755 # 100); (6%Z, 173 # 100, 522369 # 100)].
(** _astronomical_terms.py:74-88  _R0_A, _R0_B and _R0_C, side by side; they have one length, as _sigma asserts *)
Definition TR0 : list (Z * Q * Q) :=
  [(100013989%Z, 0 # 1, 0 # 1); (1670700%Z, 30984635 # 10000000, 628307585 # 100000);
   (13956%Z, 305525 # 100000, 125661517 # 10000); (3084%Z, 51985 # 10000, 777137715 # 10000);
   (1628%Z, 11739 # 10000, 57533849 # 10000); (1576%Z, 28469 # 10000, 78604194 # 10000);
   (925%Z, 5453 # 1000, 1150677 # 100); (542%Z, 4564 # 1000, 393021 # 100); (472%Z, 3661 # 1000, 5884927 # 1000);
   (346%Z, 964 # 1000, 5507553 # 1000); (329%Z, 59 # 10, 5223694 # 1000); (307%Z, 299 # 1000, 5573143 # 1000);
   (243%Z, 4273 # 1000, 11790629 # 1000); (212%Z, 5847 # 1000, 1577344 # 1000);
   (186%Z, 5022 # 1000, 10977079 # 1000); (175%Z, 3012 # 1000, 18849228 # 1000);
   (110%Z, 5055 # 1000, 5486778 # 1000); (98%Z, 89 # 100, 606978 # 100); (86%Z, 569 # 100, 1572084 # 100);
   (86%Z, 127 # 100, 16100069 # 100); (65%Z, 27 # 100, 1726015 # 100); (63%Z, 92 # 100, 52969 # 100);
   (57%Z, 201 # 100, 8399685 # 100); (56%Z, 524 # 100, 714307 # 10); (49%Z, 325 # 100, 254431 # 100);
   (47%Z, 258 # 100, 77552 # 100); (45%Z, 554 # 100, 943776 # 100); (43%Z, 601 # 100, 627596 # 100);
   (39%Z, 536 # 100, 46940 # 10); (38%Z, 239 # 100, 882739 # 100); (37%Z, 83 # 100, 1965105 # 100);
   (37%Z, 490 # 100, 1213955 # 100); (36%Z, 167 # 100, 1203646 # 100); (35%Z, 184 # 100, 294246 # 100);
   (33%Z, 24 # 100, 708490 # 100); (32%Z, 18 # 100, 508863 # 100); (32%Z, 178 # 100, 39815 # 100);
   (28%Z, 121 # 100, 62866 # 10); (28%Z, 19 # 10, 627955 # 100); (26%Z, 459 # 100, 1044739 # 100)].
(** _astronomical_terms.py:89-92  _R1_A, _R1_B and _R1_C, side by side; they have one length, as _sigma asserts *)
Definition TR1 : list (Z * Q * Q) :=
  [(103019%Z, 110749 # 100000, 628307585 # 100000); (1721%Z, 10644 # 10000, 125661517 # 10000);
   (702%Z, 3142 # 1000, 0 # 1); (32%Z, 102 # 100, 1884923 # 100); (31%Z, 284 # 100, 550755 # 100);
   (25%Z, 132 # 100, 522369 # 100); (18%Z, 142 # 100, 157734 # 100); (10%Z, 591 # 100, 1097708 # 100);
   (9%Z, 142 # 100, 627596 # 100); (9%Z, 27 # 100, 548678 # 100)].
(** _astronomical_terms.py:93-95  _R2_A, _R2_B and _R2_C, side by side; they have one length, as _sigma asserts *)
Definition TR2 : list (Z * Q * Q) :=
  [(4359%Z, 57846 # 10000, 62830758 # 10000); (124%Z, 5579 # 1000, 12566152 # 1000); (12%Z, 314 # 100, 0 # 1);
   (9%Z, 363 # 100, 7771377 # 100); (6%Z, 187 # 100, 557314 # 100); (3%Z, 547 # 100, 1884923 # 100)].
(** _astronomical_terms.py:96-98  _R3_A, _R3_B and _R3_C, side by side; they have one length, as _sigma asserts *)
Definition TR3 : list (Z * Q * Q) :=
  [(145%Z, 4273 # 1000, 6283076 # 1000); (5%Z, 392 # 100, 1256615 # 100)].
(** _astronomical_terms.py:99-101  _R4_A, _R4_B and _R4_C, side by side; they have one length, as _sigma asserts *)
Definition TR4 : list (Z * Q * Q) :=
  [(4%Z, 256 # 100, 628308 # 100)].
(** _astronomical_terms.py:220-235  _ABER_A *)
Definition ABER_A : list (Q * Q * Q) :=
  [(118568 # 1000, 875287 # 10000, 3599937286 # 10000); (2476 # 1000, 850561 # 10000, 7199874571 # 10000);
   (1376 # 1000, 278202 # 10000, 44526711152 # 10000); (119 # 1000, 731375 # 10000, 4503688564 # 10000);
   (114 # 1000, 3372264 # 10000, 3296446718 # 10000); (86 # 1000, 22254 # 100, 6592893436 # 10000);
   (78 # 1000, 1628136 # 10000, 92246597915 # 10000); (54 # 1000, 825823 # 10000, 10799811857 # 10000);
   (52 # 1000, 1715189 # 10000, 2251844282 # 10000); (34 # 1000, 303214 # 10000, 40926773866 # 10000);
   (33 # 1000, 1198105 # 10000, 3371814711 # 10000); (23 # 1000, 2475418 # 10000, 2992956151 # 10000);
   (23 # 1000, 3251526 # 10000, 315559556 # 1000); (21 # 1000, 1551241 # 10000, 6755532846 # 10000)].
(** _astronomical_terms.py:237-241  _ABER_B *)
Definition ABER_B : list (Q * Q * Q) :=
  [(7311 # 1000, 3334515 # 10000, 3599937286 # 10000); (305 # 1000, 3309814 # 10000, 7199874571 # 10000);
   (1 # 100, 328517 # 1000, 10799811857 # 10000)].
(** _astronomical_terms.py:243-248  _ABER_C *)
Definition ABER_C : list (Q * Q * Q) :=
  [(309 # 1000, 2414518 # 10000, 3599937286 # 10000); (21 # 100, 2050482 # 10000, 7199874571 # 10000);
   (4 # 1000, 297861 # 1000, 44526711152 # 10000); (1 # 100, 1547066 # 10000, 3599937286 # 10000)].

Section Planet.
Variable rnd : Q -> Q.
Variable lm : libm.
(** the built-in sum on floats, as in EquinoxModel.v *)
Variable total : list Q -> Q.
Notation lit := (lit rnd).

(** base_calendar.py:799, 826, 848  the function [func]; 1356-1384  _sigma *)
Definition planet_term (tm : Q) (r : Z * Q * Q) : Q :=
  let '(a, b, c) := r in fmul rnd (inject_Z a) (l_cos lm (fadd rnd (rnd b) (fmul rnd (rnd c) tm))).
Definition sigma3 (tm : Q) (T : list (Z * Q * Q)) : Q := total (map (planet_term tm) T).
(** the last lines of the three functions *)
Definition planet_sum (tm : Q) (Ts : list (list (Z * Q * Q))) : Q :=
  fdiv rnd (poly rnd tm (map (sigma3 tm) Ts)) 100000000.
Definition in_degrees (deg : bool) (x : Q) : Q := if deg then coterminal_angle rnd (degrees rnd x) else x.

(** base_calendar.py:783-808  _heliocentric_ecliptical_longitude *)
Definition helio_longitude (tm : Q) (deg : bool) : Q :=
  round12 rnd (in_degrees deg (planet_sum tm [TL0; TL1; TL2; TL3; TL4; TL5])).
(** base_calendar.py:810-831  _heliocentric_ecliptical_latitude *)
Definition helio_latitude (tm : Q) (deg : bool) : Q := round12 rnd (in_degrees deg (planet_sum tm [TB0; TB1])).
(** base_calendar.py:833-856  _radius_vector *)
Definition radius_vector (tm : Q) (deg : bool) : Q :=
  round12 rnd (in_degrees deg (planet_sum tm [TR0; TR1; TR2; TR3; TR4])).

(** base_calendar.py:919-951  _aberration: the three loops, then the whole.  [_decimal_from_dms] is called with no degrees
    and no minutes and the default direction, so that it gives 0 + 0.0 + seconds / 3600. *)
Definition aber_step (tm f : Q) (square : bool) (s : Q) (r : Q * Q * Q) : Q :=
  let '(a, b, c) := r in
  let sine := sin_deg rnd lm (fadd rnd (rnd b) (fmul rnd (rnd c) tm)) in
  fadd rnd s (fmul rnd (if square then fmul rnd (radians rnd (rnd a)) f else radians rnd (rnd a)) sine).
Definition aberration (tm : Q) (fixed : bool) : Q :=
  let s := if fixed then lit 3548193 1000 else lit 354833 100 in
  let s := fold_left (aber_step tm 0 false) ABER_A s in
  let s := fold_left (aber_step tm tm true) ABER_B s in
  let s := fold_left (aber_step tm (sq rnd tm) true) ABER_C s in
  let r := radius_vector tm false in
  round12 rnd (fdiv rnd (fmul rnd (fmul rnd (lit (-5775518) 1000000000) r) s) 3600).

(** base_calendar.py:858-886  _apparent_solar_longitude; the nutation is computed afresh and not taken from the cache, see
    C37; [nutation_longitude] is the one with degrees=False *)
Definition apparent_solar_longitude (jde : Q) (deg : bool) : Q :=
  let tm := julian_millennia rnd jde in
  let l := helio_longitude tm false in
  let l := fadd rnd l pi64 in
  let l := fsub rnd l (radians rnd (lit 25091666666666666 1000000000000000000000)) in
  let l := fadd rnd l (nutation_longitude rnd lm (fmul rnd tm 10)) in
  let l := fadd rnd l (aberration tm true) in
  round12 rnd (in_degrees deg l).

(** base_calendar.py:888-917  _apparent_solar_latitude *)
Definition apparent_solar_latitude (jde : Q) (deg : bool) : Q :=
  let tm := julian_millennia rnd jde in
  let tc := fmul rnd tm 10 in
  let b := - helio_latitude tm false in
  let l := apparent_solar_longitude jde false in
  let b1 := poly rnd tc [l; lit (-1397) 1000; lit (-31) 100000] in
  let bd := fmul rnd (radians rnd (lit 10877777777777778 1000000000000000000000)) (fsub rnd (l_cos lm b1) (l_sin lm b1)) in
  let b := fadd rnd b bd in
  round12 rnd (in_degrees deg b).
End Planet.
