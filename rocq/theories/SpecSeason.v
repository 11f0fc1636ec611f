(** SpecSeason.v -- the words of the theorems on the equinoxes and solstices. *)
From Coq Require Import ZArith QArith Qabs Qreals Reals List.
From Verif Require Import Base BaseModel BadiModel AstroModel SpecAstro.
Import ListNotations.

(** The built-in [sum] of floats: plain or compensated, it is right to twelve figures of the sum of the absolute values. *)
Fixpoint exact_sum (l : list Q) : Q := match l with [] => 0%Q | x :: l' => (x + exact_sum l')%Q end.
Definition sum_ok (total : list Q -> Q) : Prop :=
  forall l, (length l <= 100)%nat -> (Qabs (total l - exact_sum l) <= (1 # 1000000000000) * exact_sum (map Qabs l))%Q.
(** the plain one, from left to right *)
Definition plain_sum (rnd : Q -> Q) (l : list Q) : Q := fold_left (fadd rnd) l 0%Q.

(** Julian days of the code's exact algorithm are two days behind those of astronomers: its 2000-01-01, 12:00 is
    2451543 and not 2451545. *)
Definition astronomical (j : Q) : Q := (j + 2)%Q.

(** Meeus, Astronomical Algorithms, chapter 27, in real numbers.  Table 27.C: *)
Definition table_27C : list (R * R * R) :=
  [(485, 324.96, 1934.136); (203, 337.23, 32964.467); (199, 342.08, 20.186); (182, 27.85, 445267.112);
   (156, 73.14, 45036.886); (136, 171.52, 22518.443); (77, 222.54, 65928.934); (74, 296.72, 3034.906);
   (70, 243.58, 9037.513); (58, 119.81, 33718.147); (52, 297.17, 150.678); (50, 21.02, 2281.226);
   (45, 247.54, 29929.562); (44, 325.15, 31555.956); (29, 60.93, 4443.417); (18, 155.12, 67555.328);
   (17, 288.79, 4562.452); (16, 198.04, 62894.029); (14, 199.76, 31436.921); (12, 95.39, 14577.848);
   (12, 287.11, 31931.756); (12, 320.81, 34777.259); (9, 227.73, 1222.114); (8, 15.45, 16859.074)]%R.
Local Open Scope R_scope.
Definition periodic (t : R) : R := fold_right (fun '(a, b, c) s => a * dcos (b + c * t) + s) 0 table_27C.
(** Tables 27.A and 27.B: the instant of the mean equinox or solstice of year [g], [k] = 0 for the March equinox to 3 for
    the December solstice. *)
Definition horner (y a b c d e : R) : R := a + y * (b + y * (c + y * (d + y * e))).
Definition mean_season (g : Z) (k : nat) : R :=
  if (g <=? 1000)%Z then let y := IZR g / 1000 in
    match k with
    | 0%nat => horner y 1721139.29189 365242.13740 0.06134 0.00111 (-0.00071)
    | 1%nat => horner y 1721233.25401 365241.72562 (-0.05323) 0.00907 0.00025
    | 2%nat => horner y 1721325.70455 365242.49558 (-0.11677) (-0.00297) 0.00074
    | _ => horner y 1721414.39987 365242.88257 (-0.00769) (-0.00933) (-0.00006)
    end
  else let y := (IZR g - 2000) / 1000 in
    match k with
    | 0%nat => horner y 2451623.80984 365242.37404 0.05169 (-0.00411) (-0.00057)
    | 1%nat => horner y 2451716.56767 365241.62603 0.00325 0.00888 (-0.00030)
    | 2%nat => horner y 2451810.21715 365242.01767 (-0.11575) 0.00337 0.00078
    | _ => horner y 2451900.05952 365242.74049 (-0.06223) (-0.00823) 0.00032
    end.
Definition season_date (g : Z) (k : nat) (dl : R -> R) : R :=
  let e := mean_season g k in let t := (e - 2451545) / 36525 in
  e + 0.00001 * periodic t / dl t.
(** the divisor of the book, and what the code has in its place *)
Definition book_divisor (t : R) : R := let w := 35999.373 * t - 2.47 in 1 + 0.0334 * dcos w + 0.0007 * dcos (2 * w).
Definition code_divisor (t : R) : R := let w := 35999.373 * t - 2.47 in 1 + 0.0334 * dcos (w + 0.0007) * dcos (2 * w).

(** The years of the calendar whose Naw-Ruz is over before the equinox that the code computes. *)
Definition early_years : list Z := [
   -1842; -1839; -1838; -1835; -1834; -1831; -1830; -1827; -1826; -1823; -1822; -1818; -1814; -1813; -1810; -1809;
   -1806; -1805; -1802; -1801; -1798; -1797; -1794; -1793; -1790; -1789; -1785; -1781; -1780; -1777; -1776; -1773;
   -1772; -1769; -1768; -1765; -1764; -1761; -1760; -1757; -1756; -1752; -1748; -1747; -1744; -1743; -1740; -1739;
   -1736; -1735; -1732; -1731; -1728; -1727; -1723; -1719; -1715; -1714; -1711; -1710; -1707; -1706; -1703; -1702;
   -1699; -1698; -1695; -1694; -1690; -1686; -1682; -1681; -1678; -1677; -1674; -1673; -1670; -1669; -1666; -1665;
   -1662; -1661; -1657; -1653; -1649; -1648; -1645; -1644; -1641; -1640; -1637; -1636; -1633; -1632; -1629; -1628;
   -1624; -1620; -1616; -1615; -1612; -1611; -1608; -1607; -1604; -1603; -1600; -1599; -1595; -1591; -1587; -1583;
   -1582; -1579; -1578; -1575; -1574; -1571; -1570; -1567; -1566; -1562; -1558; -1554; -1550; -1549; -1546; -1545;
   -1542; -1541; -1538; -1537; -1534; -1533; -1529; -1525; -1521; -1517; -1516; -1513; -1512; -1509; -1508; -1505;
   -1504; -1500; -1496; -1492; -1488; -1484; -1483; -1480; -1479; -1476; -1475; -1472; -1471; -1467; -1463; -1459;
   -1455; -1451; -1450; -1447; -1446; -1443; -1442; -1439; -1438; -1434; -1430; -1426; -1422; -1418; -1414; -1413;
   -1410; -1409; -1406; -1405; -1401; -1397; -1393; -1389; -1385; -1381; -1380; -1377; -1376; -1372; -1368; -1364;
   -1360; -1356; -1352; -1348; -1347; -1344; -1343; -1339; -1335; -1331; -1327; -1323; -1319; -1315; -1314; -1311;
   -1310; -1306; -1302; -1298; -1294; -1290; -1286; -1282; -1281; -1278; -1277; -1273; -1269; -1265; -1261; -1257;
   -1253; -1249; -1248; -1244; -1240; -1236; -1232; -1228; -1224; -1220; -1216; -1215; -1211; -1207; -1203; -1199;
   -1195; -1191; -1187; -1183; -1182; -1178; -1174; -1170; -1166; -1162; -1158; -1154; -1149; -1145; -1141; -1137;
   -1133; -1129; -1125; -1121; -1116; -1112; -1108; -1104; -1100; -1096; -1092; -1088; -1083; -1079; -1075; -1071;
   -1067; -1063; -1059; -1055; -1050; -1046; -1042; -1038; -1034; -1030; -1026; -1022; -1017; -1013; -1009; -1005;
   -1001; -997; -993; -989; -980; -976; -972; -968; -964; -960; -956; -947; -943; -939; -935; -931; -927; -914; -910;
   -906; -902; -898; -894; -881; -877; -873; -869; -865; -861; -848; -844; -840; -836; -832; -828; -815; -811; -807;
   -803; -799; -782; -778; -774; -770; -766; -749; -745; -741; -737; -733; -716; -712; -708; -704; -700; -683; -679;
   -675; -671; -667; -650; -646; -642; -638; -634; -617; -613; -609; -605; -601; -580; -576; -572; -547; -543; -539;
   -514; -510; -506; -481; -477; -473; -448; -444; -440; -415; -411; -407; -382; -378; -349; -345; -341; -316; -312;
   -283; -279]%Z.
