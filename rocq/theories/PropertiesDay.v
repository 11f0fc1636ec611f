(** PropertiesDay.v -- how long a day lasts, from sunset to sunset, with the sunsets the code computes. *)
From Coq Require Import ZArith QArith Qround Qabs Qreals Lqa Reals Lra Lia List Bool.
From Coq Require Import ZifyBool.
From Verif Require Import Base Flt QUtil BaseModel BaseProofs BaseProofs2 GregModel BadiModel ConvModel SpecBadi SunProofs BadiProofs BadiProofs2 BadiProofs3 AstroModel SpecAstro AstroReal AstroFlt AstroRA AstroRise5 AstroDay DayProofs PropertiesBadi PropertiesAstro.
Import ListNotations.
Local Open Scope R_scope.

(** ** C93: a day lasts 24 hours, give or take some minutes *)
(** Sunrise to sunrise and sunset to sunset, anywhere between 52 degrees south and 52 degrees north: the events of two
    local days running are within 0.00461 of a day (6 minutes 38.4 seconds) of one day apart, and within 0.00381
    (5 minutes 29.2 seconds) up to 45 degrees from the equator. *)
Theorem C93_sun_next_day : forall rnd lm (set : bool) jd jd' lat lon (H : Z), Nearest rnd -> accurate lm ->
  1700003 <= Q2R jd -> Q2R jd' <= 2899998 -> -52 <= Q2R lat <= 52 -> -180 <= Q2R lon <= 180 ->
  midnight H (Q2R lon) + 0.00000002 <= Q2R jd <= midnight (H + 1) (Q2R lon) - 0.00000002 ->
  midnight (H + 1) (Q2R lon) + 0.00000002 <= Q2R jd' <= midnight (H + 2) (Q2R lon) - 0.00000002 ->
  exists s s', sun_event rnd lm set jd lat lon = Ok s /\ sun_event rnd lm set jd' lat lon = Ok s' /\ Rabs (Q2R s' - Q2R s - 1) <= 0.00461 /\
    (-45 <= Q2R lat <= 45 -> Rabs (Q2R s' - Q2R s - 1) <= 0.00381).
Proof.
  intros rnd lm set jd jd' lat lon H N A J J' LA LO I I'.
  assert (LO' : Rabs (Q2R lon) <= 180) by (apply Rabs_le_iff; lra). assert (LA' : Rabs (Q2R lat) <= 52) by (apply Rabs_le_iff; lra).
  assert (R : 1700003 <= Q2R jd <= 2899998) by lra. assert (R' : 1700003 <= Q2R jd' <= 2899998) by lra.
  pose proof (day_of_eq rnd N jd lon H R LO' I) as E. pose proof (day_of_eq rnd N jd' lon (H + 1) R' LO' ltac:(replace (H + 1 + 1)%Z with (H + 2)%Z by lia; exact I')) as E'.
  destruct (event_at rnd N lm A set jd lat lon R LA' LO') as (x & v & s & _ & _ & S & _).
  destruct (event_at rnd N lm A set jd' lat lon R' LA' LO') as (x' & v' & s' & _ & _ & S' & _).
  exists s, s'. split; [exact S|]. split; [exact S'|]. destruct (events_apart rnd N lm A set jd jd' lat lon s s' R R' LA' LO' ltac:(congruence) S S') as [X Y].
  split; [exact X|]. intro L. apply Y, Rabs_le_iff. lra.
Qed.
Print Assumptions C93_sun_next_day.
(** The days of the calendar, whose first moments are sunsets of Tehran: the first moments of a date and of the next
    are one day apart to within those five minutes and a half, for every year after the Gregorian reform, ... *)
Theorem C93_badi_day : forall rnd lm y mo d y' mo' d' j j', Nearest rnd -> accurate lm -> let m := astro_set rnd lm in
  (-260 <= y <= 1161)%Z -> (y' <= 1161)%Z -> next_bday (leap_of rnd m) (y, mo, d) (y', mo', d') ->
  to_jd rnd m (bd y mo d) = Ok j -> to_jd rnd m (bd y' mo' d') = Ok j' -> (Qabs (j' - j - 1) <= 381 # 100000)%Q.
Proof.
  intros rnd lm y mo d y' mo' d' j j' N A m Y Y' NX J J'.
  assert (YY : (y' = y \/ y' = y + 1)%Z) by (inversion NX; lia).
  apply (day_lasts rnd N lm A (C86_evening rnd lm N A) y mo d y' mo' d' j j'); try assumption; try lia; unfold after_reform; intro X; injection X; lia.
Qed.
Print Assumptions C93_badi_day.
(** ... and to within eleven minutes for every year, the day the reform displaced apart. *)
Theorem C93_any_badi_day : forall rnd lm y mo d y' mo' d' j j', Nearest rnd -> accurate lm -> let m := astro_set rnd lm in
  (-1843 <= y <= 1161)%Z -> (y' <= 1161)%Z -> next_bday (leap_of rnd m) (y, mo, d) (y', mo', d') ->
  (y, mo, d) <> after_reform -> (y', mo', d') <> after_reform ->
  to_jd rnd m (bd y mo d) = Ok j -> to_jd rnd m (bd y' mo' d') = Ok j' -> (Qabs (j' - j - 1) <= 77 # 10000)%Q.
Proof.
  intros rnd lm y mo d y' mo' d' j j' N A m Y Y' NX X X' J J'.
  apply (day_lasts rnd N lm A (C86_evening rnd lm N A) y mo d y' mo' d' j j' Y Y' NX X X' J J').
Qed.
Print Assumptions C93_any_badi_day.
(** Hence an instant is decoded to the date whose day it is in unless it is in the last five minutes and a half of
    that day (compare C86_right_day: then the day may have lasted more than 24 hours). *)
Theorem C93_right_date : forall rnd lm y mo d y' mo' d' jd sp sq, Nearest rnd -> accurate lm -> let m := astro_set rnd lm in
  (-260 <= y <= 1160)%Z -> next_bday (leap_of rnd m) (y, mo, d) (y', mo', d') ->
  to_jd rnd m (bd y mo d) = Ok sp -> to_jd rnd m (bd y' mo' d') = Ok sq ->
  is_float jd -> (sp <= jd)%Q -> (jd < sq - (381 # 100000))%Q ->
  exists fr, (0 <= fr < 1)%Q /\ of_jd rnd m jd = Ok (y, mo, d, fr) /\ (~ near_midnight jd -> fr == jd - sp)%Q.
Proof.
  intros rnd lm y mo d y' mo' d' jd sp sq N A m Y NX P Q F L U.
  assert (YY : (y' = y \/ y' = y + 1)%Z) by (inversion NX; lia).
  pose proof (C93_badi_day rnd lm y mo d y' mo' d' sp sq N A ltac:(lia) ltac:(lia) NX P Q) as D. apply Qabs_le_iff in D.
  assert (IR : ~ In (y, mo, d) irregular_bdates).
  { intro I. assert (forallb (fun t => (fst (fst t) <? -260)%Z) irregular_bdates = true) as K by (vm_compute; reflexivity).
    rewrite forallb_forall in K. specialize (K _ I). cbn [fst] in K. lia. }
  destruct (C86_right_day rnd lm y mo d y' mo' d' jd sp sq N A ltac:(lia) NX IR P Q F L ltac:(Lqa.lra)) as (fr & R & [(B & O & E)|(B & _)]); [|exfalso; Lqa.lra].
  exists fr. auto.
Qed.
Print Assumptions C93_right_date.
(** the last day of 181 and the first of 182; noon of two days running in Haifa *)
Example C93_case : Nearest b64 /\ accurate real_libm /\ let m := astro_set b64 real_libm in
  next_bday (leap_of b64 m) (181, 19, 19)%Z (182, 1, 1)%Z /\
  (exists j j', to_jd b64 m (bd 181 19 19) = Ok j /\ to_jd b64 m (bd 182 1 1) = Ok j' /\ (Qabs (j' - j - 1) <= 381 # 100000)%Q) /\
  let lon := (34989 # 1000)%Q in
  midnight 2460000 (Q2R lon) + 0.00000002 <= Q2R 2460000 <= midnight (2460000 + 1) (Q2R lon) - 0.00000002 /\
  midnight (2460000 + 1) (Q2R lon) + 0.00000002 <= Q2R 2460001 <= midnight (2460000 + 2) (Q2R lon) - 0.00000002.
Proof.
  split; [exact b64_nearest|]. split; [exact real_libm_accurate|]. cbv zeta. set (m := astro_set b64 real_libm).
  assert (E : evening b64 m) by (exact (C86_evening b64 real_libm b64_nearest real_libm_accurate)).
  assert (V : forall y mo d, (1 <= mo <= 19)%Z -> (1 <= d <= 19)%Z -> valid_bday (leap_of b64 m) y mo d)
    by (intros y mo d M D; split; [lia|]; unfold bmonth_len; destruct (Z.eqb_spec mo 0); [lia|exact D]).
  assert (X : next_bday (leap_of b64 m) (181, 19, 19)%Z (182, 1, 1)%Z) by constructor. split; [exact X|]. split.
  - destruct (C43_value b64 m 181 19 19 _ b64_nearest E ltac:(lia) ltac:(apply V; lia)
      ltac:(unfold after_reform; cbn [skipped_bdates reform_bdates app In]; intro I; repeat (destruct I as [I|I]; [congruence|]); exact I) (year_table_ok b64 b64_nearest m E 181 ltac:(lia))) as (j & J & _).
    destruct (C43_value b64 m 182 1 1 _ b64_nearest E ltac:(lia) ltac:(apply V; lia)
      ltac:(unfold after_reform; cbn [skipped_bdates reform_bdates app In]; intro I; repeat (destruct I as [I|I]; [congruence|]); exact I) (year_table_ok b64 b64_nearest m E 182 ltac:(lia))) as (j' & J' & _).
    exists j, j'. split; [exact J|]. split; [exact J'|].
    exact (C93_badi_day b64 real_libm 181 19 19 182 1 1 j j' b64_nearest real_libm_accurate ltac:(lia) ltac:(lia) X J J').
  - unfold midnight, Q2R. rewrite !plus_IZR. cbn [Qnum Qden]. repeat split; lra.
Qed.

(** ** C94: the length of a day as the code reports it *)
(** the last day before each of the twelve days by which Julian and Gregorian dates drifted apart before the reform *)
Definition drifting : list Z :=
  [1757641; 1794165; 1830689; 1903738; 1940262; 1976786; 2049835; 2086359; 2122883; 2195932; 2232456; 2268980]%Z.
Lemma hd_Z x k : (x == inject_Z k)%Q -> hd x = (2 * k)%Z.
Proof. intro X. unfold hd. assert (E : (x * 2 == inject_Z (2 * k))%Q) by (rewrite X, inject_Z_mult; change (inject_Z 2) with 2%Q; ring). rewrite E. apply Qfloor_Z. Qed.
Section Len.
Variable rnd : Q -> Q.
Hypothesis N : Nearest rnd.
Variable lm : libm.
Hypothesis A : accurate lm.
Notation m := (astro_set rnd lm).

Lemma noon_day x (H : Z) lon : (1700004 <= H <= 2899995)%Z -> -179.999 <= Q2R lon <= 179.999 -> Rabs (Q2R x - IZR H) <= 0.00000001 ->
  1700003 <= Q2R x <= 2899998 /\ day_of rnd x lon = H.
Proof.
  intros [H1 H2] LO E. apply IZR_le in H1. apply IZR_le in H2. apply Rabs_le_iff in E. assert (R : 1700003 <= Q2R x <= 2899998) by lra. split; [exact R|].
  apply (day_of_eq rnd N x lon H R); [apply Rabs_le_iff; lra|]. unfold midnight. rewrite plus_IZR. lra.
Qed.
Lemma meeus_noon x k : x == inject_Z k -> (1700004 <= k <= 2899980)%Z -> zgap (2 * k) = false ->
  exists z, meeus_from_exact rnd x = Ok z /\ Rabs (Q2R z - IZR (HI k)) <= 0.00000001.
Proof.
  intros X R G. unfold meeus_from_exact. rewrite hd_le, hd_lt, find_diff_z.
  rewrite (hd_Z x k X). unfold zgap in G. rewrite G. eexists. split; [reflexivity|]. unfold HI. set (n := zdiff (2 * k) meeus_breaks).
  pose proof (zdiff_m_range (2 * k)) as NR. fold n in NR. apply Qeq_eqR in X. rewrite Q2R_Z in X.
  assert (B : Rabs (Q2R x + Q2R (inject_Z n)) <= 3000000).
  { rewrite X, Q2R_Z. destruct R as [R1 R2], NR as [N1 N2]. apply IZR_le in R1. apply IZR_le in R2. apply IZR_le in N1. apply IZR_le in N2. apply Rabs_le_iff. lra. }
  pose proof (fadd_R rnd N _ _ _ B) as F. rewrite X, Q2R_Z in F. rewrite plus_IZR. unfold u in F. apply Rabs_le_iff in F. apply Rabs_le_iff. lra.
Qed.
Lemma set_at x (H : Z) lat lon : (1700004 <= H <= 2899995)%Z -> -52 <= Q2R lat <= 52 -> -179.999 <= Q2R lon <= 179.999 -> Rabs (Q2R x - IZR H) <= 0.00000001 ->
  1700003 <= Q2R x <= 2899998 /\ day_of rnd x lon = H /\ sun_event rnd lm true x lat lon = Ok (sun_setting rnd m x lat lon).
Proof.
  intros HR LA LO E. destruct (noon_day x H lon HR LO E) as [R D]. split; [exact R|]. split; [exact D|].
  apply (C86_same_sunset rnd lm x lat lon N A R LA). lra.
Qed.
Lemma length_at jd lat lon : let k := Qfloor jd in (1700004 <= k <= 2899970)%Z -> zgap (2 * k) = false -> zgap (2 * (k + 1)) = false ->
  -52 <= Q2R lat <= 52 -> -179.999 <= Q2R lon <= 179.999 -> let w := IZR (HI (k + 1) - HI k) in
  exists ut, Rabs (Q2R ut - w) <= 0.0046101 * w /\ (Rabs (Q2R lat) <= 45 -> Rabs (Q2R ut - w) <= 0.0038101 * w) /\
    day_length rnd m true jd lat lon = Ok (inl (round12 rnd ut)) /\
    day_length rnd m false jd lat lon = (let '(h, mi, s) := hms_from_decimal_day rnd ut in Ok (inr [inject_Z (if (h =? 0)%Z then 24 else h); inject_Z mi; s])).
Proof.
  intros k KR G G' LA LO w. unfold day_length. cbv zeta. fold k.
  destruct (meeus_noon (inject_Z k + 1) (k + 1) ltac:(rewrite inject_Z_plus; reflexivity) ltac:(lia) G') as (z1 & M1 & E1).
  destruct (meeus_noon (inject_Z k) k ltac:(reflexivity) ltac:(lia) G) as (z0 & M0 & E0). rewrite M1, M0. cbn [bind].
  exists (fsub rnd (sun_setting rnd m z1 lat lon) (sun_setting rnd m z0 lat lon)). apply and_assoc. split; [|split; [reflexivity|destruct (hms_from_decimal_day _ _) as [[h mi] s]; reflexivity]].
  assert (RH : (k <= HI k <= k + 12)%Z) by (unfold HI; pose proof (zdiff_m_range (2 * k)); lia).
  assert (RH1 : (k + 1 <= HI (k + 1) <= k + 13)%Z) by (unfold HI; pose proof (zdiff_m_range (2 * (k + 1))); lia).
  destruct (set_at z0 (HI k) lat lon ltac:(lia) LA LO E0) as (R0 & D0 & S0). destruct (set_at z1 (HI (k + 1)) lat lon ltac:(lia) LA LO E1) as (R1 & D1 & S1).
  assert (LO' : Rabs (Q2R lon) <= 180) by (apply Rabs_le_iff; lra). assert (LA' : Rabs (Q2R lat) <= 52) by (apply Rabs_le_iff; lra).
  assert (X : (Rabs (Q2R (sun_setting rnd m z1 lat lon) - Q2R (sun_setting rnd m z0 lat lon) - w) <= 0.00461 * w /\
    (Rabs (Q2R lat) <= 45 -> Rabs (Q2R (sun_setting rnd m z1 lat lon) - Q2R (sun_setting rnd m z0 lat lon) - w) <= 0.00381 * w)) /\ 1 <= w <= 2).
  { destruct (HI_next k G G') as [HN|[HN _]].
    - assert (W : w = 1) by (unfold w; rewrite HN; f_equal; lia). rewrite W.
      pose proof (events_apart rnd N lm A true z0 z1 lat lon _ _ R0 R1 LA' LO' ltac:(congruence) S0 S1) as [Z Z45]. split; [|lra]. split; [lra|]. intro L. specialize (Z45 L). lra.
    - assert (W : w = 2) by (unfold w; rewrite HN; f_equal; lia). rewrite W. set (zm := inject_Z (HI k + 1)).
      assert (EM : Rabs (Q2R zm - IZR (HI k + 1)) <= 0.00000001) by (unfold zm; rewrite Q2R_Z, Rminus_diag_eq, Rabs_R0 by reflexivity; lra).
      destruct (set_at zm (HI k + 1) lat lon ltac:(lia) LA LO EM) as (Rm & Dm & Sm).
      pose proof (events_apart rnd N lm A true z0 zm lat lon _ _ R0 Rm LA' LO' ltac:(congruence) S0 Sm) as [Z Z45].
      pose proof (events_apart rnd N lm A true zm z1 lat lon _ _ Rm R1 LA' LO' ltac:(rewrite Dm, D1, HN; lia) Sm S1) as [Z' Z45'].
      apply Rabs_le_iff in Z. apply Rabs_le_iff in Z'. split; [|lra]. split; [apply Rabs_le_iff; lra|].
      intro L. specialize (Z45 L). specialize (Z45' L). apply Rabs_le_iff in Z45. apply Rabs_le_iff in Z45'. apply Rabs_le_iff. lra. }
  destruct X as [[X X45] W]. set (s1 := sun_setting rnd m z1 lat lon) in *. set (s0 := sun_setting rnd m z0 lat lon) in *.
  assert (B : Rabs (Q2R s1 - Q2R s0) <= 3) by (apply Rabs_le_iff in X; apply Rabs_le_iff; lra).
  pose proof (fsub_R rnd N _ _ _ B) as F. unfold u in F. apply Rabs_le_iff in X. apply Rabs_le_iff in F. split; [apply Rabs_le_iff; lra|]. intro L. specialize (X45 L). apply Rabs_le_iff in X45. apply Rabs_le_iff. lra.
Qed.
Lemma round_len ut : Rabs (Q2R ut) <= 3 -> Rabs (Q2R (round12 rnd ut) - Q2R ut) <= 0.000000001.
Proof.
  intro B. apply Rabs_le_iff in B. assert (SB : (Qabs ut <= 8388607)%Q) by (apply Qabs_le_iff; split; apply Rle_Qle; try rewrite Q2R_opp; rewrite Q2R_lit; lra).
  destruct (round12_near rnd N ut SB) as [R1 R2]. apply Qle_Rle in R1. apply Qle_Rle in R2. rewrite Q2R_minus in R1. rewrite Q2R_plus in R2.
  assert (K : Q2R (1 # 1073741824) <= 0.000000001) by (unfold Q2R; cbn [Qnum Qden]; lra). apply Rabs_le_iff. lra.
Qed.
End Len.
Lemma steady_days k : (2299148 <= k <= 2299158 -> False)%Z -> zgap (2 * k) = false /\ zgap (2 * (k + 1)) = false.
Proof. unfold zgap. lia. Qed.
Lemma HI_drifting k : (HI (k + 1) - HI k = if existsb (Z.eqb k) drifting then 2 else 1)%Z \/ (2299148 <= k <= 2299158)%Z.
Proof.
  unfold drifting. cbn [existsb]. unfold HI. pose proof (zdiff_m_cases (2 * k)) as C. pose proof (zdiff_m_cases (2 * (k + 1))) as C'. cbv zeta in C, C'.
  set (n := zdiff (2 * k) meeus_breaks) in *. set (n' := zdiff (2 * (k + 1)) meeus_breaks) in *. clearbody n n'.
  repeat match goal with |- context [Z.eqb k ?b] => destruct (Z.eqb_spec k b); [left; cbn [orb]; lia|] end. cbn [orb]. lia.
Qed.
Lemma one_R : Q2R 1 = 1.
Proof. unfold Q2R. cbn [Qnum Qden]. lra. Qed.
(** For a Julian day (from noon to noon) of more than three thousand years, at any place between 52 degrees south and
    52 degrees north, except in the days cut by the reform and the twelve days listed, the length of the day is
    answered, and is 24 hours to within 0.00462 of a day as a decimal, and to within 399 seconds and a quarter as hours,
    minutes and seconds; up to 45 degrees from the equator, to within 0.00382 of a day and 330 seconds and a tenth. *)
Theorem C94_day_length : forall rnd lm jd lat lon, Nearest rnd -> accurate lm -> let m := astro_set rnd lm in let k := Qfloor jd in
  (1700004 <= k <= 2899970)%Z -> ~ (2299148 <= k <= 2299158)%Z -> ~ In k drifting -> -52 <= Q2R lat <= 52 -> -179.999 <= Q2R lon <= 179.999 ->
  (exists q, day_length rnd m true jd lat lon = Ok (inl q) /\ Rabs (Q2R q - 1) <= 0.00462 /\ (-45 <= Q2R lat <= 45 -> Rabs (Q2R q - 1) <= 0.00382)) /\
  exists h mi s, day_length rnd m false jd lat lon = Ok (inr [inject_Z h; inject_Z mi; s]) /\ (23 <= h <= 24 /\ 0 <= mi <= 59)%Z /\ (0 <= s < 60)%Q /\
    (Qabs (inject_Z h * 3600 + inject_Z mi * 60 + s - 86400) <= 39925 # 100)%Q /\
    (-45 <= Q2R lat <= 45 -> (Qabs (inject_Z h * 3600 + inject_Z mi * 60 + s - 86400) <= 3301 # 10)%Q).
Proof.
  intros rnd lm jd lat lon N A m k KR NG ND LA LO. destruct (steady_days k NG) as [G G'].
  destruct (length_at rnd N lm A jd lat lon KR G G' LA LO) as (ut & U & U45 & E1 & E2). fold k in U, U45. fold m in E1, E2.
  assert (W : (HI (k + 1) - HI k = 1)%Z).
  { destruct (HI_drifting k) as [H|H]; [|tauto]. destruct (existsb (Z.eqb k) drifting) eqn:X; [|exact H].
    exfalso. apply ND. apply existsb_exists in X. destruct X as (z & Z1 & Z2). apply Z.eqb_eq in Z2. subst z. exact Z1. }
  rewrite W in U, U45. apply Rabs_le_iff in U.
  assert (V45 : -45 <= Q2R lat <= 45 -> - (0.0038101 * 1) <= Q2R ut - 1 <= 0.0038101 * 1) by (intro L; apply Rabs_le_iff, U45, Rabs_le_iff; lra). split.
  - eexists. split; [exact E1|]. pose proof (round_len rnd N ut ltac:(apply Rabs_le_iff; lra)) as R. apply Rabs_le_iff in R.
    split; [apply Rabs_le_iff; lra|]. intro L. specialize (V45 L). apply Rabs_le_iff. lra.
  - rewrite E2. destruct (hms_from_decimal_day rnd ut) as [[h mi] s] eqn:HM. destruct (hms_ok rnd N _ _ _ _ HM) as (A1 & A2 & A3 & A4 & A5).
    do 3 eexists. split; [reflexivity|].
    assert (U1 : (ut <= 1 + (462 # 100000))%Q) by (apply Rle_Qle; rewrite Q2R_plus, one_R; rewrite Q2R_lit; lra).
    assert (U0 : (1 - (462 # 100000) <= ut)%Q) by (apply Rle_Qle; rewrite Q2R_minus, one_R; rewrite Q2R_lit; lra).
    assert (UU : -45 <= Q2R lat <= 45 -> (1 - (382 # 100000) <= ut <= 1 + (382 # 100000))%Q)
      by (intro L; specialize (V45 L); split; apply Rle_Qle; rewrite ?Q2R_minus, ?Q2R_plus, one_R; rewrite Q2R_lit; lra).
    destruct (fmod1_nonneg rnd ut ltac:(Lqa.lra)) as [FE _]. apply Qlt_le_weak, Qabs_le_iff in A5. rewrite FE in A5.
    pose proof (Qfloor_le ut) as F1. pose proof (Qlt_floor ut) as F2. rewrite inject_Z_plus in F2. change (inject_Z 1) with 1%Q in F2.
    assert (MQ : (inject_Z 0 <= inject_Z mi <= inject_Z 59)%Q) by (rewrite <- !Zle_Qle; lia).
    change (inject_Z 0) with 0%Q in MQ. change (inject_Z 59) with 59%Q in MQ. set (f := Qfloor ut) in *.
    assert (FZ : (f = 0 \/ f = 1)%Z).
    { assert (inject_Z f < inject_Z 2)%Q by (change (inject_Z 2) with 2%Q; Lqa.lra). assert (inject_Z (-1) < inject_Z f)%Q by (change (inject_Z (-1)) with (-1)%Q; Lqa.lra).
      rewrite <- Zlt_Qlt in *. lia. }
    destruct FZ as [FZ|FZ]; rewrite FZ in *.
    + change (inject_Z 0) with 0%Q in *.
      assert (HB : (inject_Z 22 < inject_Z h)%Q) by (change (inject_Z 22) with 22%Q; Lqa.lra). rewrite <- Zlt_Qlt in HB.
      destruct (Z.eqb_spec h 0); [lia|]. split; [lia|]. split; [exact A3|]. split; [apply Qabs_le_iff; Lqa.lra|]. intro L. specialize (UU L). apply Qabs_le_iff. Lqa.lra.
    + change (inject_Z 1) with 1%Q in *.
      assert (HB : (inject_Z h < inject_Z 1)%Q) by (change (inject_Z 1) with 1%Q; Lqa.lra). rewrite <- Zlt_Qlt in HB. assert (HZ : h = 0%Z) by lia. rewrite HZ in *.
      change (0 =? 0)%Z with true. cbv iota. split; [lia|]. split; [exact A3|]. change (inject_Z 24) with 24%Q. change (inject_Z 0) with 0%Q in *.
      split; [apply Qabs_le_iff; Lqa.lra|]. intro L. specialize (UU L). apply Qabs_le_iff. Lqa.lra.
Qed.
Print Assumptions C94_day_length.
(** On the days cut out by the reform, and the days next to them, it raises. *)
Theorem C94_reform_refused : forall rnd m (decimal : bool) jd lat lon, (2299148 <= Qfloor jd <= 2299158)%Z -> day_length rnd m decimal jd lat lon = Err ValueError.
Proof.
  intros rnd m decimal jd lat lon K. unfold day_length. cbv zeta. set (k := Qfloor jd) in *. rewrite !meeus_from_exact_z.
  rewrite (hd_Z _ (k + 1)) by (rewrite inject_Z_plus; reflexivity). rewrite (hd_Z _ k) by reflexivity.
  destruct (zgap (2 * (k + 1))) eqn:G1; [reflexivity|]. cbn [bind]. unfold zgap in *. replace ((4598297 <=? 2 * k) && (2 * k <? 4598317))%Z with true by lia. reflexivity.
Qed.
Print Assumptions C94_reform_refused.
(** And on the twelve days listed it answers the length of two days: the sunset it takes for the next day's is the one
    after. *)
Theorem C94_drift_refuted : forall rnd lm jd lat lon, Nearest rnd -> accurate lm -> In (Qfloor jd) drifting -> -52 <= Q2R lat <= 52 -> -179.999 <= Q2R lon <= 179.999 ->
  exists q, day_length rnd (astro_set rnd lm) true jd lat lon = Ok (inl q) /\ Rabs (Q2R q - 2) <= 0.0093.
Proof.
  intros rnd lm jd lat lon N A I LA LO. set (k := Qfloor jd) in *.
  assert (X : existsb (Z.eqb k) drifting = true) by (apply existsb_exists; exists k; split; [exact I|apply Z.eqb_refl]).
  assert (KR : (1757641 <= k <= 2268980)%Z) by (unfold drifting in I; cbn [In] in I; lia).
  destruct (steady_days k ltac:(lia)) as [G G']. destruct (length_at rnd N lm A jd lat lon ltac:(fold k; lia) G G' LA LO) as (ut & U & _ & E1 & _). fold k in U.
  assert (W : (HI (k + 1) - HI k = 2)%Z) by (destruct (HI_drifting k) as [H|H]; [rewrite X in H; exact H|lia]).
  rewrite W in U. apply Rabs_le_iff in U. eexists. split; [exact E1|].
  pose proof (round_len rnd N ut ltac:(apply Rabs_le_iff; lra)) as R. apply Rabs_le_iff in R. apply Rabs_le_iff. lra.
Qed.
Print Assumptions C94_drift_refuted.
(** two days in February of the year 100, one day in Haifa in 2023, none on 10 October 1582 *)
Example C94_case : In (Qfloor 1757641) drifting /\ (Qfloor (24600003 # 10) = 2460000 /\ ~ In 2460000 drifting)%Z /\ (Qfloor (22991555 # 10) = 2299155)%Z /\
  -45 <= Q2R (32814 # 1000) <= 45 /\ -179.999 <= Q2R (34989 # 1000) <= 179.999.
Proof.
  split; [left; reflexivity|]. split; [split; [reflexivity|]|]. { unfold drifting. cbn [In]. lia. }
  split; [reflexivity|]. unfold Q2R. cbn [Qnum Qden]. lra.
Qed.
