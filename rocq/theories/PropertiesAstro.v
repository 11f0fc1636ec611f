(** PropertiesAstro.v -- sunrise and sunset as the code computes them, for every correctly rounding arithmetic and
    every mathematical library accurate to nine decimals (SpecAstro.v). *)
From Coq Require Import ZArith QArith Qround Qabs Qreals Lqa Reals Lra Lia List Bool.
From Verif Require Import Base Flt QUtil BaseModel BaseProofs GregModel BadiModel SpecBadi SunProofs AstroModel SpecAstro AstroReal AstroReal2 AstroFlt AstroApx AstroSun AstroRA AstroRise5 PropertiesBadi.
Import ListNotations.
Local Open Scope R_scope.

(** ** A library meeting the hypothesis: the real functions, rounded up to forty binary places *)
Definition grid (r : R) : Q := up (r * 1099511627776) # 1099511627776.
Lemma grid_near r : near (grid r) r.
Proof.
  unfold near, grid, tol. destruct (archimed (r * 1099511627776)) as [A B]. unfold Q2R. cbn [Qnum Qden].
  set (z := IZR (up _)) in *. apply Rabs_le_iff. lra.
Qed.
Definition atan2R (y x : R) : R := let a := acos (x / sqrt (x * x + y * y)) in if Rle_dec 0 y then a else - a.
Lemma atan2R_ok y x rho t : 0 < rho -> x = rho * cos t -> y = rho * sin t -> - PI < t <= PI -> atan2R y x = t.
Proof.
  intros P -> -> T. unfold atan2R. cbv zeta.
  assert (S : sqrt (rho * cos t * (rho * cos t) + rho * sin t * (rho * sin t)) = rho).
  { replace (rho * cos t * (rho * cos t) + rho * sin t * (rho * sin t)) with (rho * rho * (Rsqr (sin t) + Rsqr (cos t))) by (unfold Rsqr; ring).
    rewrite sin2_cos2, Rmult_1_r. apply sqrt_square. lra. }
  rewrite S. replace (rho * cos t / rho) with (cos t) by (field; lra).
  destruct (Rle_dec 0 (rho * sin t)) as [G|G].
  - assert (0 <= sin t) by (apply (Rmult_le_reg_l rho); lra). apply acos_cos. split; [|lra].
    destruct (Rle_dec 0 t) as [|C]; [assumption|]. assert (sin (- t) > 0) by (apply sin_gt_0; lra). rewrite sin_neg in *. lra.
  - assert (sin t < 0) by (apply Rnot_le_lt; intro C; apply G, Rmult_le_pos; lra).
    assert (t < 0). { destruct (Rlt_dec t 0) as [|C]; [assumption|]. assert (0 <= sin t) by (apply sin_ge_0; lra). lra. }
    rewrite <- (cos_neg t), acos_cos by lra. ring.
Qed.
Definition real_libm : libm := {|
  l_sin := fun x => grid (sin (Q2R x)); l_cos := fun x => grid (cos (Q2R x));
  l_asin := fun x => grid (asin (Q2R x)); l_acos := fun x => grid (acos (Q2R x));
  l_atan2 := fun y x => grid (atan2R (Q2R y) (Q2R x)) |}.
Lemma real_libm_accurate : accurate real_libm.
Proof.
  constructor; intros; cbn [real_libm l_sin l_cos l_asin l_acos l_atan2].
  - apply grid_near.
  - apply grid_near.
  - rewrite H, asin_sin by assumption. apply grid_near.
  - rewrite H, acos_cos by assumption. apply grid_near.
  - rewrite (atan2R_ok _ _ rho t) by assumption. apply grid_near.
Qed.

(** ** Local midnight *)
Section Mid.
Variable rnd : Q -> Q.
Hypothesis N : Nearest rnd.

Lemma lon_frac_R lon : Rabs (Q2R lon) <= 180 -> apx (fdiv rnd lon 360) (Q2R lon / 360) 1 (1 / 1000000000000000).
Proof.
  intro H. pose proof (apx_divc rnd N _ _ _ _ 360 (apx_exact _ _ H)) as Z. change (Z.pos 360 # 1)%Q with 360%Q in Z.
  eapply apx_weaken; [exact Z| |]; unfold u; lra.
Qed.
Definition day_of (jd lon : Q) : Z := Qfloor (fadd rnd (fadd rnd jd (fdiv rnd lon 360)) (1 # 2)).
Lemma day_of_R jd lon : 1700003 <= Q2R jd <= 2899998 -> Rabs (Q2R lon) <= 180 ->
  midnight (day_of jd lon) (Q2R lon) - 0.00000001 <= Q2R jd <= midnight (day_of jd lon + 1) (Q2R lon) + 0.00000001.
Proof.
  intros J L. assert (JA : Rabs (Q2R jd) <= 2900000) by (apply Rabs_le_iff; lra).
  assert (HF : apx (1 # 2) (1 / 2) 1 0) by (apply (apx_const 1 2); rewrite Rabs_right; lra).
  destruct (apx_add rnd N _ _ _ _ _ _ _ _ (apx_add rnd N _ _ _ _ _ _ _ _ (apx_exact _ _ JA) (lon_frac_R lon L)) HF) as [E _].
  unfold day_of, midnight. set (s := fadd rnd _ (1 # 2)) in *. assert (E' : Rabs (Q2R s - (Q2R jd + Q2R lon / 360 + 1 / 2)) <= 0.00000001) by (eapply Rle_trans; [exact E|unfold u; lra]).
  apply Rabs_le_iff in E'. pose proof (Qfloor_le s) as F1. pose proof (Qlt_floor s) as F2. apply Qle_Rle in F1. apply Qlt_Rlt in F2. rewrite Q2R_Z in F1, F2. rewrite plus_IZR in F2 |- *. lra.
Qed.
Lemma local_midnight_R jd lon : 1700003 <= Q2R jd <= 2899998 -> Rabs (Q2R lon) <= 180 ->
  (1700002 <= day_of jd lon <= 2899999)%Z /\ Rabs (Q2R (local_midnight rnd jd lon) - midnight (day_of jd lon) (Q2R lon)) <= 0.00000001.
Proof.
  intros J L. pose proof (day_of_R jd lon J L) as D. pose proof L as L'. apply Rabs_le_iff in L'. unfold midnight in D. rewrite plus_IZR in D.
  assert (D1 : (1700001 < day_of jd lon)%Z) by (apply lt_IZR; lra). assert (D2 : (day_of jd lon < 2900000)%Z) by (apply lt_IZR; lra).
  split; [lia|]. unfold local_midnight. cbv zeta. fold (day_of jd lon). set (H := day_of jd lon) in *.
  apply IZR_lt in D1. apply IZR_lt in D2.
  assert (HA : Rabs (Q2R (inject_Z H)) <= 2900000) by (rewrite Q2R_Z; apply Rabs_le_iff; lra).
  assert (HF : apx (1 # 2) (1 / 2) 1 0) by (apply (apx_const 1 2); rewrite Rabs_right; lra).
  destruct (apx_sub rnd N _ _ _ _ _ _ _ _ (apx_sub rnd N _ _ _ _ _ _ _ _ (apx_exact _ _ HA) HF) (lon_frac_R lon L)) as [E _].
  rewrite Q2R_Z in E. unfold midnight. eapply Rle_trans; [exact E|unfold u; lra].
Qed.
End Mid.

(** ** C84: the sun rises in the morning and sets in the evening *)
(** Anywhere between 52 degrees south and 52 degrees north, for every moment of more than three thousand years:
    sunrise and sunset are computed without an exception, for the local mean day [H] the moment is in; sunrise is
    between 3:02 and 8:43 local mean time, sunset between 15:17 and 20:58; up to 45 degrees from the equator sunrise
    is between 3:38 and 8:11, sunset between 15:49 and 20:22. *)
Theorem C84_sunrise_and_sunset : forall rnd lm jd lat lon, Nearest rnd -> accurate lm ->
  1700003 <= Q2R jd <= 2899998 -> -52 <= Q2R lat <= 52 -> -180 <= Q2R lon <= 180 ->
  exists (H : Z) rise set,
    midnight H (Q2R lon) - 0.00000001 <= Q2R jd <= midnight (H + 1) (Q2R lon) + 0.00000001 /\
    sun_event rnd lm false jd lat lon = Ok rise /\ 0.1269 <= Q2R rise - midnight H (Q2R lon) <= 0.3631 /\
    sun_event rnd lm true jd lat lon = Ok set /\ 0.6369 <= Q2R set - midnight H (Q2R lon) <= 0.8731 /\
    (-45 <= Q2R lat <= 45 -> 0.1515 <= Q2R rise - midnight H (Q2R lon) <= 0.3407 /\ 0.6593 <= Q2R set - midnight H (Q2R lon) <= 0.8485).
Proof.
  intros rnd lm jd lat lon N A J LA LO. assert (LO' : Rabs (Q2R lon) <= 180) by (apply Rabs_le_iff; lra). assert (LA' : Rabs (Q2R lat) <= 52) by (apply Rabs_le_iff; lra).
  pose proof (day_of_R rnd N jd lon J LO') as D. destruct (local_midnight_R rnd N jd lon J LO') as [HR M].
  exists (day_of rnd jd lon). set (H := day_of rnd jd lon) in *.
  assert (HJ : Rabs (Q2R (local_midnight rnd jd lon) - (IZR H - 1 / 2 - Q2R lon / 360)) <= 0.0000001) by (unfold midnight in M; lra).
  assert (FIN : forall v, 0 <= Q2R v <= 1 -> Rabs (Q2R (round12 rnd (fadd rnd (local_midnight rnd jd lon) v)) - (midnight H (Q2R lon) + Q2R v)) <= 0.00000003).
  { intros v V. destruct HR as [H1 H2]. apply IZR_le in H1. apply IZR_le in H2. apply Rabs_le_iff in M. unfold midnight in *.
    assert (F : Rabs (Q2R (fadd rnd (local_midnight rnd jd lon) v) - (Q2R (local_midnight rnd jd lon) + Q2R v)) <= 3000000 * u) by (apply fadd_R; [exact N|apply Rabs_le_iff; lra]).
    unfold u in F. apply Rabs_le_iff in F. set (s := fadd rnd _ v) in *.
    assert (SB : (Qabs s <= 8388607)%Q) by (apply Qabs_le_iff; split; apply Rle_Qle; try rewrite Q2R_opp; rewrite Q2R_lit; lra).
    destruct (round12_near rnd N s SB) as [R1 R2]. apply Qle_Rle in R1. apply Qle_Rle in R2. rewrite Q2R_minus in R1. rewrite Q2R_plus in R2.
    assert (K : Q2R (1 # 1073741824) <= 0.000000001) by (unfold Q2R; cbn [Qnum Qden]; lra). apply Rabs_le_iff. lra. }
  destruct (rising_R rnd N lm A false (local_midnight rnd jd lon) lat lon H HR LA' LO' HJ) as [r [R1 [R2 [R45 _]]]].
  destruct (rising_R rnd N lm A true (local_midnight rnd jd lon) lat lon H HR LA' LO' HJ) as [s [S1 [S2 [S45 _]]]].
  eexists. eexists. split; [exact D|]. unfold sun_event. cbv zeta. rewrite R1, S1. cbn [bind].
  split; [reflexivity|]. pose proof (FIN r ltac:(lra)) as FR. pose proof (FIN s ltac:(lra)) as FS. apply Rabs_le_iff in FR. apply Rabs_le_iff in FS.
  split; [lra|]. split; [reflexivity|]. split; [lra|]. intro L. assert (L' : Rabs (Q2R lat) <= 45) by (apply Rabs_le_iff; lra).
  specialize (R45 L'). specialize (S45 L'). lra.
Qed.
Print Assumptions C84_sunrise_and_sunset.
(** Two moments of the same local day, at least a millisecond from midnight, have the same sunrise and sunset. *)
Theorem C84_same_day_same_sun : forall rnd lm (set : bool) jd jd' lat lon (H : Z), Nearest rnd ->
  1700003 <= Q2R jd <= 2899998 -> 1700003 <= Q2R jd' <= 2899998 -> -180 <= Q2R lon <= 180 ->
  midnight H (Q2R lon) + 0.00000002 <= Q2R jd <= midnight (H + 1) (Q2R lon) - 0.00000002 ->
  midnight H (Q2R lon) + 0.00000002 <= Q2R jd' <= midnight (H + 1) (Q2R lon) - 0.00000002 ->
  sun_event rnd lm set jd lat lon = sun_event rnd lm set jd' lat lon.
Proof.
  intros rnd lm set jd jd' lat lon H N J J' LO D D'. assert (LO' : Rabs (Q2R lon) <= 180) by (apply Rabs_le_iff; lra).
  pose proof (day_of_R rnd N jd lon J LO') as E. pose proof (day_of_R rnd N jd' lon J' LO') as E'. unfold midnight in *. rewrite !plus_IZR in *.
  assert (X : forall z, IZR z - IZR H < 1 -> IZR H - IZR z < 1 -> z = H).
  { intros z P Q. rewrite <- minus_IZR in P, Q. apply lt_IZR in P. apply lt_IZR in Q. lia. }
  assert (K : day_of rnd jd lon = H) by (apply X; lra). assert (K' : day_of rnd jd' lon = H) by (apply X; lra).
  unfold sun_event, local_midnight. cbv zeta. fold (day_of rnd jd lon). fold (day_of rnd jd' lon). rewrite K, K'. reflexivity.
Qed.
Print Assumptions C84_same_day_same_sun.
Example C84_case : Nearest b64 /\ accurate real_libm /\
  let jd := 2460000%Q in let lat := (5148 # 100)%Q in let lon := (34989 # 1000)%Q in
  1700003 <= Q2R jd <= 2899998 /\ -52 <= Q2R lat <= 52 /\ -180 <= Q2R lon <= 180 /\
  midnight 2460000 (Q2R lon) + 0.00000002 <= Q2R jd <= midnight 2460001 (Q2R lon) - 0.00000002.
Proof.
  split; [exact b64_nearest|]. split; [exact real_libm_accurate|]. cbv zeta. unfold midnight, Q2R. cbn [Qnum Qden]. repeat split; lra.
Qed.

(** ** C85: at the computed sunrise and sunset the sun is on the horizon *)
Theorem C85_sun_on_horizon : forall rnd lm (set : bool) jd lat lon (H : Z), Nearest rnd -> accurate lm ->
  (1700002 <= H <= 2899999)%Z -> -52 <= Q2R lat <= 52 -> -180 <= Q2R lon <= 180 ->
  Rabs (Q2R jd - midnight H (Q2R lon)) <= 0.0000001 ->
  exists v, rising_setting rnd lm set jd lat lon (SUN_OFFSET rnd) = Ok v /\
    (if set then 0.637 <= Q2R v <= 0.873 else 0.127 <= Q2R v <= 0.363) /\
    on_horizon rnd lm (julian_centuries rnd jd) lat lon v.
Proof.
  intros rnd lm set jd lat lon H N A R LA LO J.
  destruct (rising_R rnd N lm A set jd lat lon H R ltac:(apply Rabs_le_iff; lra) ltac:(apply Rabs_le_iff; lra) J) as [v [E [V [_ O]]]]. exists v. auto.
Qed.
Print Assumptions C85_sun_on_horizon.
Example C85_case : Rabs (Q2R (24599999 # 10) - midnight 2460000 (Q2R (-36 # 1)%Q)) > 0.0000001 /\ Rabs (Q2R (24599996 # 10) - midnight 2460000 (Q2R (-36))) <= 0.0000001.
Proof. unfold midnight, Q2R. cbn [Qnum Qden Qopp]. split; [rewrite Rabs_right; lra|]. apply Rabs_le_iff. lra. Qed.

(** ** C86: the calendar with the sunsets the code computes *)
(** The sunset fraction handed to the conversions is in the evening, as the theorems on dates assume ... *)
Theorem C86_evening : forall rnd lm, Nearest rnd -> accurate lm -> evening rnd (astro_set rnd lm).
Proof.
  intros rnd lm N A H jd HR J. unfold astro_set.
  assert (LON : apx (TEHRAN_LON rnd) 51.288701 52 (1 / 1000000000000)).
  { eapply apx_eq; [eapply apx_weaken; [apply (apx_litc rnd 51288701 1000000 N)| |]|]; cbn [Z.abs]; unfold u; lra. }
  assert (LAT : apx (TEHRAN_LAT rnd) 35.69435 36 (1 / 1000000000000)).
  { eapply apx_eq; [eapply apx_weaken; [apply (apx_litc rnd 3569435 100000 N)| |]|]; cbn [Z.abs]; unfold u; lra. }
  destruct LON as [LO _]. destruct LAT as [LA _]. apply Rabs_le_iff in LO. apply Rabs_le_iff in LA.
  apply Qabs_R in J. rewrite !Q2R_minus, Q2R_Z in J.
  assert (C1 : Q2R (1 # 2) = 1 / 2) by (unfold Q2R; cbn [Qnum Qden]; lra).
  assert (C2 : Q2R (51288701 # 360000000) = 51.288701 / 360) by (unfold Q2R; cbn [Qnum Qden]; lra).
  rewrite C1, C2 in J. apply Rabs_le_iff in J.
  destruct (rising_R rnd N lm A true jd (TEHRAN_LAT rnd) (TEHRAN_LON rnd) H ltac:(lia) ltac:(apply Rabs_le_iff; lra) ltac:(apply Rabs_le_iff; lra) ltac:(apply Rabs_le_iff; lra)) as [v [E [_ [V _]]]].
  specialize (V ltac:(apply Rabs_le_iff; lra)). rewrite E. split; apply Rle_Qle; rewrite Q2R_lit; lra.
Qed.
Print Assumptions C86_evening.
(** ... and the sunset used by the conversions is the one of C84. *)
Theorem C86_same_sunset : forall rnd lm jd lat lon, Nearest rnd -> accurate lm ->
  1700003 <= Q2R jd <= 2899998 -> -52 <= Q2R lat <= 52 -> -180 <= Q2R lon <= 180 ->
  sun_event rnd lm true jd lat lon = Ok (sun_setting rnd (astro_set rnd lm) jd lat lon).
Proof.
  intros rnd lm jd lat lon N A J LA LO. assert (LO' : Rabs (Q2R lon) <= 180) by (apply Rabs_le_iff; lra). assert (LA' : Rabs (Q2R lat) <= 52) by (apply Rabs_le_iff; lra).
  destruct (local_midnight_R rnd N jd lon J LO') as [HR M].
  assert (HJ : Rabs (Q2R (local_midnight rnd jd lon) - (IZR (day_of rnd jd lon) - 1 / 2 - Q2R lon / 360)) <= 0.0000001) by (unfold midnight in M; lra).
  destruct (rising_R rnd N lm A true (local_midnight rnd jd lon) lat lon _ HR LA' LO' HJ) as [s [S1 _]].
  unfold sun_event, sun_setting, astro_set. cbv zeta. fold (local_midnight rnd jd lon).
  change (fsub rnd (fsub rnd (inject_Z (Qfloor (fadd rnd (fadd rnd jd (fdiv rnd lon 360)) (1 # 2)))) (1 # 2)) (fdiv rnd lon 360)) with (local_midnight rnd jd lon).
  rewrite S1. reflexivity.
Qed.
Print Assumptions C86_same_sunset.
(** Hence, of the program with its own sunsets: the start of every year, ... *)
Theorem C86_year_table : forall rnd lm rnd' lm' y, Nearest rnd -> accurate lm -> Nearest rnd' -> accurate lm' ->
  year_table rnd (astro_set rnd lm) y = year_table rnd' (astro_set rnd' lm') y.
Proof. intros rnd lm rnd' lm' y N A N' A'. apply C08_table_independent; auto using C86_evening. Qed.
Print Assumptions C86_year_table.
(** ... the values of that table, ... *)
Theorem C86_year_values : forall rnd lm, Nearest rnd -> accurate lm -> let T := year_table rnd (astro_set rnd lm) in
  (forall y, (exists z, T y = Some z) <-> (-1843 <= y <= 1162)%Z) /\
  T (-1843)%Z = Some (-287)%Z /\ T 1%Z = Some 673220%Z /\ T 172%Z = Some 735677%Z /\ T 173%Z = Some 736042%Z /\ T 1162%Z = Some 1097268%Z.
Proof.
  intros rnd lm N A T. pose proof (C86_evening rnd lm N A) as E. split; [intro y; apply C08_table_domain; assumption|].
  pose proof (C08_table_values rnd _ N E) as V. unfold T. tauto.
Qed.
Print Assumptions C86_year_values.
(** ... every instant decoded to the day it is in, ... *)
Theorem C86_right_day : forall rnd lm y mo d y' mo' d' jd sp sq, Nearest rnd -> accurate lm -> let m := astro_set rnd lm in
  (-1843 <= y <= 1160)%Z -> next_bday (leap_of rnd m) (y, mo, d) (y', mo', d') ->
  ~ In (y, mo, d) irregular_bdates -> to_jd rnd m (bd y mo d) = Ok sp -> to_jd rnd m (bd y' mo' d') = Ok sq ->
  is_float jd -> (sp <= jd)%Q -> (jd < sq)%Q ->
  exists fr, (0 <= fr < 1)%Q /\
    ((jd < sp + 1 /\ of_jd rnd m jd = Ok (y, mo, d, fr) /\ (~ near_midnight jd -> fr == jd - sp))%Q \/
     (sp + 1 <= jd /\ of_jd rnd m jd = Ok (y', mo', d', fr) /\ Qabs (fr - (jd - sp - 1)) <= 1 # 1000000000)%Q).
Proof. intros rnd lm y mo d y' mo' d' jd sp sq N A m. apply C42_right_day; [exact N|exact (C86_evening rnd lm N A)]. Qed.
Print Assumptions C86_right_day.
(** ... and the days in the order of their sunsets. *)
Theorem C86_increasing : forall rnd lm y mo d y' mo' d' j j', Nearest rnd -> accurate lm -> let m := astro_set rnd lm in
  (-1843 <= y <= 1161)%Z -> (-1843 <= y' <= 1161)%Z -> valid_bday (leap_of rnd m) y mo d -> valid_bday (leap_of rnd m) y' mo' d' ->
  (y, mo, d) <> after_reform -> (y', mo', d') <> after_reform ->
  to_jd rnd m (bd y mo d) = Ok j -> to_jd rnd m (bd y' mo' d') = Ok j' -> (bearlier y mo d y' mo' d' <-> (j < j')%Q).
Proof. intros rnd lm y mo d y' mo' d' j j' N A m. apply C43_increasing; [exact N|exact (C86_evening rnd lm N A)]. Qed.
Print Assumptions C86_increasing.
Example C86_case : Nearest b64 /\ accurate real_libm /\ leap_of b64 (astro_set b64 real_libm) 182 = true.
Proof.
  split; [exact b64_nearest|]. split; [exact real_libm_accurate|].
  assert (E := C86_evening b64 real_libm b64_nearest real_libm_accurate). unfold leap_of.
  assert (T : is_leap_badi (year_table b64 (astro_set b64 real_libm)) 182 = is_leap_badi (year_table b64 six_pm) 182).
  { unfold is_leap_badi, lookup. rewrite !(C08_table_independent b64 _ b64 six_pm _ b64_nearest E b64_nearest (six_pm_evening b64)). reflexivity. }
  rewrite T. vm_compute. reflexivity.
Qed.
