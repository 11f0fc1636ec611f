(** SpecPlanet.v -- the words of the theorems on the planetary theory. *)
From Coq Require Import ZArith QArith Qreals Reals List.
Import ListNotations.

(** The earth's place as seen from the sun: the theory VSOP87 as cut down in Meeus, Astronomical Algorithms, appendix III.
    A row holds A, B and C of a term A cos (B + C t), with t in thousands of Julian years from J2000.0.  L is the longitude,
    B the latitude, R the distance; the number says by which power of t the sum is multiplied. *)
Local Open Scope Q_scope.
Definition earth_L0 : list (Z * Q * Q) :=
  [(175347046%Z, 0, 0); (3341656%Z, 4.6692568, 6283.07585); (34894%Z, 4.6261, 12566.1517);
   (3497%Z, 2.7441, 5753.3849); (3418%Z, 2.8289, 3.5231); (3136%Z, 3.6277, 77713.7715); (2676%Z, 4.4181, 7860.4194);
   (2343%Z, 6.1352, 3930.2097); (1324%Z, 0.7425, 11506.7698); (1273%Z, 2.0371, 529.691); (1199%Z, 1.1096, 1577.3435);
   (990%Z, 5.233, 5884.927); (902%Z, 2.045, 26.298); (857%Z, 3.508, 398.149); (780%Z, 1.179, 5223.694);
   (753%Z, 2.533, 5507.553); (505%Z, 4.583, 18849.228); (492%Z, 4.205, 775.523); (357%Z, 2.92, 0.067);
   (317%Z, 5.849, 11790.629); (284%Z, 1.899, 796.298); (271%Z, 0.315, 10977.079); (243%Z, 0.345, 5486.778);
   (206%Z, 4.806, 2544.314); (205%Z, 1.869, 5573.143); (202%Z, 2.458, 6069.777); (156%Z, 0.833, 213.299);
   (132%Z, 3.411, 2942.463); (126%Z, 1.083, 20.775); (115%Z, 0.645, 0.98); (103%Z, 0.636, 4694.003);
   (102%Z, 0.976, 15720.839); (102%Z, 4.267, 7.114); (99%Z, 6.21, 2146.17); (98%Z, 0.68, 155.42);
   (86%Z, 5.98, 161000.69); (85%Z, 1.3, 6275.96); (85%Z, 3.67, 71430.7); (80%Z, 1.81, 17260.15);
   (79%Z, 3.04, 12036.46); (75%Z, 1.76, 5088.63); (74%Z, 3.5, 3154.69); (74%Z, 4.68, 801.82); (70%Z, 0.83, 9437.76);
   (62%Z, 3.98, 8827.39); (61%Z, 1.82, 7084.9); (57%Z, 2.78, 6286.6); (56%Z, 4.39, 14143.5); (56%Z, 3.47, 6279.55);
   (52%Z, 0.19, 12139.55); (52%Z, 1.33, 1748.02); (51%Z, 0.28, 5856.48); (49%Z, 0.49, 1194.45);
   (41%Z, 5.37, 8429.24); (41%Z, 2.4, 19651.05); (39%Z, 6.17, 10447.39); (37%Z, 6.04, 10213.29);
   (37%Z, 2.57, 1059.38); (36%Z, 1.71, 2352.87); (36%Z, 1.78, 6812.77); (33%Z, 0.59, 17789.85);
   (30%Z, 0.44, 83996.85); (30%Z, 2.74, 1349.87); (25%Z, 3.16, 4690.48)].
Definition earth_L1 : list (Z * Q * Q) :=
  [(628331966747%Z, 0, 0); (206059%Z, 2.678235, 6283.07585); (4303%Z, 2.6351, 12566.1517); (425%Z, 1.59, 3.523);
   (119%Z, 5.796, 26.298); (109%Z, 2.966, 1577.344); (93%Z, 2.59, 18849.23); (72%Z, 1.14, 529.69);
   (68%Z, 1.87, 398.15); (67%Z, 4.41, 5507.55); (59%Z, 2.89, 5223.69); (56%Z, 2.17, 155.42); (45%Z, 0.4, 796.3);
   (36%Z, 0.47, 775.52); (29%Z, 2.65, 7.11); (21%Z, 5.34, 0.98); (19%Z, 1.85, 5486.78); (19%Z, 4.97, 213.3);
   (17%Z, 2.99, 6275.96); (16%Z, 0.03, 2544.31); (16%Z, 1.43, 2146.17); (15%Z, 1.21, 10977.08);
   (12%Z, 2.83, 1748.02); (12%Z, 3.26, 5088.63); (12%Z, 5.27, 1194.45); (12%Z, 2.08, 4694.0); (11%Z, 0.77, 553.57);
   (10%Z, 1.3, 6286.6); (10%Z, 4.24, 1349.87); (9%Z, 2.7, 242.73); (9%Z, 5.64, 951.72); (8%Z, 5.3, 2352.87);
   (6%Z, 2.65, 9437.76); (6%Z, 4.67, 4690.48)].
Definition earth_L2 : list (Z * Q * Q) :=
  [(52919%Z, 0, 0); (8720%Z, 1.0721, 6283.0758); (309%Z, 0.867, 12566.152); (27%Z, 0.05, 3.52); (16%Z, 5.19, 26.3);
   (16%Z, 3.68, 155.42); (10%Z, 0.76, 18849.23); (9%Z, 2.06, 77713.77); (7%Z, 0.83, 775.52); (5%Z, 4.66, 1577.34);
   (4%Z, 1.03, 7.11); (4%Z, 3.44, 5573.14); (3%Z, 5.14, 796.3); (3%Z, 6.05, 5507.55); (3%Z, 1.19, 242.73);
   (3%Z, 6.12, 529.69); (3%Z, 0.31, 398.15); (3%Z, 2.28, 553.57); (2%Z, 4.38, 5223.69); (2%Z, 3.75, 0.98)].
Definition earth_L3 : list (Z * Q * Q) :=
  [(289%Z, 5.844, 6283.076); (35%Z, 0, 0); (17%Z, 5.49, 12566.15); (3%Z, 5.2, 155.42); (1%Z, 4.72, 3.52);
   (1%Z, 5.3, 18849.23); (1%Z, 5.97, 242.73)].
Definition earth_L4 : list (Z * Q * Q) :=
  [(114%Z, 3.142, 0); (8%Z, 4.13, 6283.08); (1%Z, 3.84, 12566.15)].
Definition earth_L5 : list (Z * Q * Q) :=
  [(1%Z, 3.14, 0)].
Definition earth_B0 : list (Z * Q * Q) :=
  [(280%Z, 3.199, 84334.662); (102%Z, 5.422, 5507.553); (80%Z, 3.88, 5223.69); (44%Z, 3.70, 2352.87);
   (32%Z, 4.0, 1577.34)].
Definition earth_B1 : list (Z * Q * Q) :=
  [(9%Z, 3.90, 5507.55); (6%Z, 1.73, 5223.69)].
Definition earth_R0 : list (Z * Q * Q) :=
  [(100013989%Z, 0, 0); (1670700%Z, 3.0984635, 6283.07585); (13956%Z, 3.05525, 12566.1517);
   (3084%Z, 5.1985, 77713.7715); (1628%Z, 1.1739, 5753.3849); (1576%Z, 2.8469, 7860.4194); (925%Z, 5.453, 11506.77);
   (542%Z, 4.564, 3930.21); (472%Z, 3.661, 5884.927); (346%Z, 0.964, 5507.553); (329%Z, 5.9, 5223.694);
   (307%Z, 0.299, 5573.143); (243%Z, 4.273, 11790.629); (212%Z, 5.847, 1577.344); (186%Z, 5.022, 10977.079);
   (175%Z, 3.012, 18849.228); (110%Z, 5.055, 5486.778); (98%Z, 0.89, 6069.78); (86%Z, 5.69, 15720.84);
   (86%Z, 1.27, 161000.69); (65%Z, 0.27, 17260.15); (63%Z, 0.92, 529.69); (57%Z, 2.01, 83996.85);
   (56%Z, 5.24, 71430.7); (49%Z, 3.25, 2544.31); (47%Z, 2.58, 775.52); (45%Z, 5.54, 9437.76); (43%Z, 6.01, 6275.96);
   (39%Z, 5.36, 4694.0); (38%Z, 2.39, 8827.39); (37%Z, 0.83, 19651.05); (37%Z, 4.90, 12139.55);
   (36%Z, 1.67, 12036.46); (35%Z, 1.84, 2942.46); (33%Z, 0.24, 7084.90); (32%Z, 0.18, 5088.63); (32%Z, 1.78, 398.15);
   (28%Z, 1.21, 6286.6); (28%Z, 1.9, 6279.55); (26%Z, 4.59, 10447.39)].
Definition earth_R1 : list (Z * Q * Q) :=
  [(103019%Z, 1.10749, 6283.07585); (1721%Z, 1.0644, 12566.1517); (702%Z, 3.142, 0); (32%Z, 1.02, 18849.23);
   (31%Z, 2.84, 5507.55); (25%Z, 1.32, 5223.69); (18%Z, 1.42, 1577.34); (10%Z, 5.91, 10977.08); (9%Z, 1.42, 6275.96);
   (9%Z, 0.27, 5486.78)].
Definition earth_R2 : list (Z * Q * Q) :=
  [(4359%Z, 5.7846, 6283.0758); (124%Z, 5.579, 12566.152); (12%Z, 3.14, 0); (9%Z, 3.63, 77713.77);
   (6%Z, 1.87, 5573.14); (3%Z, 5.47, 18849.23)].
Definition earth_R3 : list (Z * Q * Q) :=
  [(145%Z, 4.273, 6283.076); (5%Z, 3.92, 12566.15)].
Definition earth_R4 : list (Z * Q * Q) :=
  [(4%Z, 2.56, 6283.08)].
(** Meeus (25.11) and below: the rows of the sun's daily motion in longitude, in seconds of arc; B and C in degrees.
    (This is the code's table.  From memory the book has 0.021 for the 0.21 of the third list and a third power of t
    for its last row; nothing below depends on it.) *)
Definition motion_A : list (Q * Q * Q) :=
  [(118.568, 87.5287, 359993.7286); (2.476, 85.0561, 719987.4571); (1.376, 27.8202, 4452671.1152);
   (0.119, 73.1375, 450368.8564); (0.114, 337.2264, 329644.6718); (0.086, 222.54, 659289.3436);
   (0.078, 162.8136, 9224659.7915); (0.054, 82.5823, 1079981.1857); (0.052, 171.5189, 225184.4282);
   (0.034, 30.3214, 4092677.3866); (0.033, 119.8105, 337181.4711); (0.023, 247.5418, 299295.6151);
   (0.023, 325.1526, 315559.556); (0.021, 155.1241, 675553.2846)].
Definition motion_B : list (Q * Q * Q) :=
  [(7.311, 333.4515, 359993.7286); (0.305, 330.9814, 719987.4571); (0.01, 328.517, 1079981.1857)].
Definition motion_C : list (Q * Q * Q) :=
  [(0.309, 241.4518, 359993.7286); (0.21, 205.0482, 719987.4571); (0.004, 297.861, 4452671.1152);
   (0.01, 154.7066, 359993.7286)].

Local Open Scope R_scope.
Definition wave (t : R) (r : Z * Q * Q) : R := let '(a, b, c) := r in IZR a * cos (Q2R b + Q2R c * t).
Definition waves (t : R) (T : list (Z * Q * Q)) : R := fold_right (fun r s => wave t r + s) 0 T.
(** longitude and latitude in radians, distance in astronomical units *)
Definition earth_longitude (t : R) : R :=
  (waves t earth_L0 + t * (waves t earth_L1 + t * (waves t earth_L2 + t * (waves t earth_L3 + t * (waves t earth_L4 + t * waves t earth_L5))))) / 100000000.
Definition earth_latitude (t : R) : R := (waves t earth_B0 + t * waves t earth_B1) / 100000000.
Definition earth_distance (t : R) : R :=
  (waves t earth_R0 + t * (waves t earth_R1 + t * (waves t earth_R2 + t * (waves t earth_R3 + t * waves t earth_R4)))) / 100000000.

(** the sun's motion in a day, in seconds of arc, the coefficients taken [unit] times *)
Definition turns (unit t : R) (T : list (Q * Q * Q)) : R :=
  fold_right (fun '(a, b, c) s => unit * Q2R a * sin ((Q2R b + Q2R c * t) * (PI / 180)) + s) 0 T.
Definition daily_motion (fixed : bool) (unit t : R) : R :=
  (if fixed then 3548.193 else 3548.330) + turns unit t motion_A + t * turns unit t motion_B + t * t * turns unit t motion_C.
(** the aberration in degrees: the book's, and with the coefficients taken for degrees and turned into radians *)
Definition aberration_deg (fixed : bool) (unit t : R) : R := - 0.005775518 * earth_distance t * daily_motion fixed unit t / 3600.
Definition book_aberration (fixed : bool) (t : R) : R := aberration_deg fixed 1 t.
Definition code_aberration (fixed : bool) (t : R) : R := aberration_deg fixed (PI / 180) t.
(** radians as degrees *)
Definition in_deg (x : R) : R := x * (180 / PI).
