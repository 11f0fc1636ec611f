(** PropertiesEquinox.v -- C89 and C90: the equinoxes and solstices, and the equinox on Naw-Ruz. *)
From Coq Require Import ZArith QArith Qabs Qreals Lqa Reals Lra Lia List.
From Verif Require Import Base Flt BaseModel GregModel ConvModel BadiModel SpecBadi AstroModel SpecAstro EquinoxModel SpecSeason
  AstroReal AstroFlt EquinoxProofs EquinoxBall EquinoxYears EquinoxLen PropertiesAstro.
Import ListNotations.
Local Open Scope Q_scope.

Lemma moment_0 rnd lm total jd g k : Nearest rnd -> accurate lm -> sum_ok total -> gregorian_year_from_jd rnd jd = g -> (1 <= g <= 3007)%Z ->
  (Rabs (Q2R (season_moment rnd lm total jd (degrees_of k) 0) - season_date g k code_divisor) <= 0.000075)%R.
Proof.
  intros N A T E G. pose proof (moment_R rnd N lm A total T jd g k 0 E G) as M. rewrite RMicromega.Q2R_0 in M.
  specialize (M ltac:(rewrite Rabs_R0; lra)). unfold Rdiv in M. rewrite Rmult_0_l, Rplus_0_r in M. exact M.
Qed.
Lemma lt_astro j e : (Q2R j + 2 < Q2R e)%R <-> astronomical j < e.
Proof. unfold astronomical. assert (E : (Q2R (j + 2) = Q2R j + 2)%R) by (rewrite Q2R_plus; f_equal; unfold Q2R; cbn; lra). rewrite <- E. split; [apply Rlt_Qlt|apply Qlt_Rlt]. Qed.
Lemma gt_astro j e : (Q2R e < Q2R j + 2)%R <-> e < astronomical j.
Proof. unfold astronomical. assert (E : (Q2R (j + 2) = Q2R j + 2)%R) by (rewrite Q2R_plus; f_equal; unfold Q2R; cbn; lra). rewrite <- E. split; [apply Rlt_Qlt|apply Qlt_Rlt]. Qed.

(** C89.  The March equinox that the code computes for the Gregorian year in which a year of the calendar begins falls on
    the Naw-Ruz of that year: after the sunset that opens the day and before the sunset that ends it.  So it is for
    every year from -1842 to 1161 outside a list, all of whose years are before -278, and year 18. *)
Theorem C89_equinox_on_naw_ruz : forall rnd lm total y jd, Nearest rnd -> accurate lm -> sum_ok total ->
  (-1842 <= y <= 1161)%Z -> ~ In y early_years -> y <> 18%Z -> gregorian_year_from_jd rnd jd = (y + 1843)%Z ->
  exists j j', to_jd rnd (astro_set rnd lm) (bd y 1 1) = Ok j /\ to_jd rnd (astro_set rnd lm) (bd y 1 2) = Ok j' /\
    astronomical j < season_moment rnd lm total jd SPRING 0 < astronomical j'.
Proof.
  intros rnd lm total y jd N A T Y NI N18 G. pose proof (moment_0 rnd lm total jd _ 0 N A T G ltac:(lia)) as M.
  destruct (proj2 (years rnd N lm A y _ Y M) NI N18) as (j & j' & J & J' & L & L'). exists j, j'. split; [exact J|]. split; [exact J'|].
  split; [apply lt_astro, L|apply gt_astro, L'].
Qed.
Print Assumptions C89_equinox_on_naw_ruz.
Lemma early_before y : In y early_years -> (-1842 <= y <= -279)%Z.
Proof.
  assert (F : forallb (fun y => (-1842 <=? y) && (y <=? -279))%Z early_years = true) by (vm_compute; reflexivity).
  rewrite forallb_forall in F. intro I. specialize (F y I). lia.
Qed.
Theorem C89_recent_years : forall rnd lm total y jd, Nearest rnd -> accurate lm -> sum_ok total ->
  (-278 <= y <= 1161)%Z -> y <> 18%Z -> gregorian_year_from_jd rnd jd = (y + 1843)%Z ->
  exists j j', to_jd rnd (astro_set rnd lm) (bd y 1 1) = Ok j /\ to_jd rnd (astro_set rnd lm) (bd y 1 2) = Ok j' /\
    astronomical j < season_moment rnd lm total jd SPRING 0 < astronomical j'.
Proof.
  intros rnd lm total y jd N A T Y N18 G. apply C89_equinox_on_naw_ruz; try assumption; [lia|]. intro I. apply early_before in I. lia.
Qed.
Print Assumptions C89_recent_years.
(** The Julian day of a Naw-Ruz has that Gregorian year, so that the equinox may be asked for with it. *)
Theorem C89_asked_on_the_day : forall rnd lm y, Nearest rnd -> accurate lm -> (-1843 <= y <= 1162)%Z ->
  exists j, to_jd rnd (astro_set rnd lm) (bd y 1 1) = Ok j /\ gregorian_year_from_jd rnd j = (y + 1843)%Z.
Proof. intros rnd lm y N A Y. exact (naw_ruz_greg rnd N lm A y Y). Qed.
Print Assumptions C89_asked_on_the_day.
(** In the years of the list Naw-Ruz is over before the equinox: the year opens a day too early. *)
Theorem C89_too_early_refuted : forall rnd lm total y jd, Nearest rnd -> accurate lm -> sum_ok total ->
  In y early_years -> gregorian_year_from_jd rnd jd = (y + 1843)%Z ->
  exists j', to_jd rnd (astro_set rnd lm) (bd y 1 2) = Ok j' /\ astronomical j' < season_moment rnd lm total jd SPRING 0.
Proof.
  intros rnd lm total y jd N A T I G. pose proof (early_before y I) as Y. pose proof (moment_0 rnd lm total jd _ 0 N A T G ltac:(lia)) as M.
  destruct (proj1 (years rnd N lm A y _ ltac:(lia) M) I) as (j' & J' & L). exists j'. split; [exact J'|apply lt_astro, L].
Qed.
Print Assumptions C89_too_early_refuted.
(** Year 1162, the last that the table of years knows the beginning of, opens after the equinox. *)
Theorem C89_too_late_refuted : forall rnd lm total jd, Nearest rnd -> accurate lm -> sum_ok total ->
  gregorian_year_from_jd rnd jd = 3005%Z ->
  exists j, to_jd rnd (astro_set rnd lm) (bd 1162 1 1) = Ok j /\ season_moment rnd lm total jd SPRING 0 < astronomical j.
Proof.
  intros rnd lm total jd N A T G. pose proof (moment_0 rnd lm total jd _ 0 N A T G ltac:(lia)) as M.
  destruct (year_1162 rnd N lm A _ M) as (j & J & L). exists j. split; [exact J|apply gt_astro, L].
Qed.
Print Assumptions C89_too_late_refuted.
(** In year 18 the equinox and the sunset that opens Naw-Ruz are less than twenty seconds apart. *)
Theorem C89_year_18 : forall rnd lm total jd, Nearest rnd -> accurate lm -> sum_ok total ->
  gregorian_year_from_jd rnd jd = 1861%Z ->
  exists j, to_jd rnd (astro_set rnd lm) (bd 18 1 1) = Ok j /\ Qabs (season_moment rnd lm total jd SPRING 0 - astronomical j) < 20 # 86400.
Proof.
  intros rnd lm total jd N A T G. pose proof (moment_0 rnd lm total jd _ 0 N A T G ltac:(lia)) as M.
  destruct (year_18 rnd N lm A _ M) as (j & J & L). exists j. split; [exact J|]. apply Rlt_Qlt. unfold astronomical. rewrite Q2R_abs, Q2R_minus, Q2R_plus, !Q2R_lit.
  replace (2 / 1)%R with 2%R by lra. change (degrees_of 0) with SPRING in L. lra.
Qed.
Print Assumptions C89_year_18.
Example C89_case : Nearest b64 /\ accurate real_libm /\ sum_ok (plain_sum b64) /\ ~ In 181%Z early_years /\
  gregorian_year_from_jd b64 2460390 = (181 + 1843)%Z /\ In (-1842)%Z early_years /\ gregorian_year_from_jd b64 1721500 = (-1842 + 1843)%Z.
Proof.
  split; [exact b64_nearest|]. split; [exact real_libm_accurate|]. split; [exact (plain_sum_ok b64 b64_nearest)|].
  split; [intro I; apply early_before in I; lia|]. split; [vm_compute; reflexivity|]. split; [left; reflexivity|vm_compute; reflexivity].
Qed.

(** C90.  The moments of the equinoxes and solstices.  They follow the formulas of Meeus with another divisor, to within
    seven seconds, for every year from 1 to 3007, every season and every time zone ... *)
Definition season_angle (k : nat) : Z := match k with 0%nat => SPRING | 1%nat => SUMMER | 2%nat => AUTUMN | _ => WINTER end.
Theorem C90_formula : forall rnd lm total jd g k zone, Nearest rnd -> accurate lm -> sum_ok total ->
  gregorian_year_from_jd rnd jd = g -> (1 <= g <= 3007)%Z -> (Rabs (Q2R zone) <= 24)%R ->
  (Rabs (Q2R (season_moment rnd lm total jd (season_angle k) zone) - (season_date g k code_divisor + Q2R zone / 24)) <= 0.000075)%R.
Proof. intros rnd lm total jd g k zone N A T E G Z. exact (moment_R rnd N lm A total T jd g k zone E G Z). Qed.
Print Assumptions C90_formula.
(** ... and so the formulas of the book to within two minutes and a quarter, in dynamical time. *)
Theorem C90_book : forall rnd lm total jd g k zone, Nearest rnd -> accurate lm -> sum_ok total ->
  gregorian_year_from_jd rnd jd = g -> (1 <= g <= 3007)%Z -> (Rabs (Q2R zone) <= 24)%R ->
  (Rabs (Q2R (season_moment rnd lm total jd (season_angle k) zone) - (season_date g k book_divisor + Q2R zone / 24)) <= 135 / 86400)%R.
Proof.
  intros rnd lm total jd g k zone N A T E G Z. pose proof (C90_formula rnd lm total jd g k zone N A T E G Z) as F. pose proof (book_near g k) as B.
  apply Rabs_le_iff in F. apply Rabs_le_iff in B. apply Rabs_le_iff. lra.
Qed.
Print Assumptions C90_book.
(** The four seasons of a year come in their order and have the lengths they should. *)
Theorem C90_seasons : forall rnd lm total jd jd' g, Nearest rnd -> accurate lm -> sum_ok total ->
  gregorian_year_from_jd rnd jd = g -> gregorian_year_from_jd rnd jd' = (g + 1)%Z -> (1 <= g <= 3006)%Z ->
  let moment lam := season_moment rnd lm total jd lam 0 in
  91 + (87 # 100) < moment SUMMER - moment SPRING < 94 + (2 # 100) /\
  92 + (39 # 100) < moment AUTUMN - moment SUMMER < 94 /\
  88 + (63 # 100) < moment WINTER - moment AUTUMN < 90 + (69 # 100) /\
  88 + (65 # 100) < season_moment rnd lm total jd' SPRING 0 - moment WINTER < 90 + (20 # 100).
Proof.
  intros rnd lm total jd jd' g N A T E E' G moment. unfold moment. assert (G3 : (1 <= g <= 3007)%Z) by lia.
  pose proof (moment_0 rnd lm total jd g 0 N A T E G3) as M0. pose proof (moment_0 rnd lm total jd g 1 N A T E G3) as M1.
  pose proof (moment_0 rnd lm total jd g 2 N A T E G3) as M2. pose proof (moment_0 rnd lm total jd g 3 N A T E G3) as M3.
  pose proof (moment_0 rnd lm total jd' (g + 1) 0 N A T E' ltac:(lia)) as M4.
  pose proof (date_mean g 0 G3) as D0. pose proof (date_mean g 1 G3) as D1. pose proof (date_mean g 2 G3) as D2. pose proof (date_mean g 3 G3) as D3.
  pose proof (date_mean (g + 1) 0 ltac:(lia)) as D4. pose proof (quarters g G3) as (Q1 & Q2 & Q3). pose proof (winter g G) as Q4.
  cbn [degrees_of] in M0, M1, M2, M3, M4. change SPRING with 0%Z. change SUMMER with 90%Z. change AUTUMN with 180%Z. change WINTER with 270%Z.
  apply Rabs_le_iff in M0. apply Rabs_le_iff in M1. apply Rabs_le_iff in M2. apply Rabs_le_iff in M3. apply Rabs_le_iff in M4.
  apply Rabs_le_iff in D0. apply Rabs_le_iff in D1. apply Rabs_le_iff in D2. apply Rabs_le_iff in D3. apply Rabs_le_iff in D4.
  repeat split; apply Rlt_Qlt; rewrite Q2R_minus, ?Q2R_plus, ?Q2R_lit; lra.
Qed.
Print Assumptions C90_seasons.
(** From one equinox to the next there is a tropical year, give or take an hour. *)
Theorem C90_year : forall rnd lm total jd jd' g, Nearest rnd -> accurate lm -> sum_ok total ->
  gregorian_year_from_jd rnd jd = g -> gregorian_year_from_jd rnd jd' = (g + 1)%Z -> (1 <= g <= 3006)%Z ->
  Qabs (season_moment rnd lm total jd' SPRING 0 - season_moment rnd lm total jd SPRING 0 - (3652423 # 10000)) <= 1 # 24.
Proof.
  intros rnd lm total jd jd' g N A T E E' G. pose proof (moment_0 rnd lm total jd g 0 N A T E ltac:(lia)) as M0. pose proof (moment_0 rnd lm total jd' (g + 1) 0 N A T E' ltac:(lia)) as M4.
  pose proof (date_mean g 0 ltac:(lia)) as D0. pose proof (date_mean (g + 1) 0 ltac:(lia)) as D4. pose proof (year_mean g G) as Y.
  apply Rabs_le_iff in M0. apply Rabs_le_iff in M4. apply Rabs_le_iff in D0. apply Rabs_le_iff in D4.
  apply R_Qabs. rewrite !Q2R_minus, !Q2R_lit. change SPRING with (degrees_of 0). apply Rabs_le_iff. lra.
Qed.
Print Assumptions C90_year.
Example C90_case : Nearest b64 /\ accurate real_libm /\ sum_ok (plain_sum b64) /\
  gregorian_year_from_jd b64 2460390 = 2024%Z /\ gregorian_year_from_jd b64 2460756 = 2025%Z /\
  b64 (approx_season b64 2024 SPRING) == approx_season b64 2024 SPRING /\ 2460389 < approx_season b64 2024 SPRING < 2460390.
Proof.
  split; [exact b64_nearest|]. split; [exact real_libm_accurate|]. split; [exact (plain_sum_ok b64 b64_nearest)|].
  repeat split; vm_compute; reflexivity.
Qed.
