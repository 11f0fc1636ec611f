(** SunTrue.v -- the moment at which the sun of SpecSun.v is on the horizon (proof support). *)
From Coq Require Import ZArith QArith Qround Qabs Qreals Lqa Reals Lra Lia List Bool.
From Verif Require Import Base Flt QUtil BaseModel BaseProofs AstroModel SpecAstro SpecSun AstroReal AstroReal2 AstroFlt AstroApx AstroSun AstroNut AstroRA AstroMove AstroStep AstroDt AstroRise AstroRise2 AstroRise3 AstroRise4 AstroRise5 AstroDay SunReal SunLine SunPlace.
Local Open Scope R_scope.

Definition low_sun : R := sin (rad OO).
Lemma B2375 p d : -45 <= p <= 45 -> Rabs d <= 23.75 -> 0.647 <= cos (rad p) * cos (rad d) <= 1.
Proof.
  intros P D. destruct (lat_range p P) as [_ L]. pose proof (cos_2375b d D) as C. pose proof (COS_bound (rad d)) as C1.
  assert (0.707 * 0.9152 <= cos (rad p) * cos (rad d)) by (apply Rmult_le_compat; lra). assert (cos (rad p) * cos (rad d) <= 1 * 1) by (apply Rmult_le_compat; lra). lra.
Qed.
Lemma horizon_cos2 p d h : -45 <= p <= 45 -> Rabs d <= 23.75 -> Rabs (FF p d h + low_sun) <= 0.0009 ->
  Rabs (cos (rad h)) <= 0.473 /\ 0.881 <= Rabs (sin (rad h)).
Proof.
  intros P D F. unfold low_sun in F. pose proof (B2375 p d P D) as B. destruct (lat_range p P) as [L1 L2]. pose proof (cos_2375b d D) as CD.
  pose proof sinO as SO. pose proof (sin_abs_le d 23.75 D ltac:(lra)) as SD. pose proof sin_2375 as S24. unfold FF in F.
  set (C := cos (rad h)) in *. set (S := sin (rad p) * sin (rad d)) in *.
  assert (HS : Rabs S <= cos (rad p) * 0.4028). { unfold S. rewrite Rabs_mult. apply Rmult_le_compat; auto using Rabs_pos. lra. }
  assert (X : Rabs C <= 0.473).
  { apply Rabs_le_iff in F. apply Rabs_le_iff in HS.
    assert (Y : Rabs (cos (rad p) * cos (rad d) * C) <= cos (rad p) * 0.4028 + 0.01545) by (apply Rabs_le_iff; lra).
    rewrite Rabs_mult, (Rabs_right (cos (rad p) * cos (rad d))) in Y by lra. pose proof (Rabs_pos C) as CP.
    destruct (Rle_dec (Rabs C) 0.473) as [|G]; [assumption|]. exfalso.
    assert (cos (rad p) * cos (rad d) * 0.473 <= cos (rad p) * cos (rad d) * Rabs C) by (apply Rmult_le_compat_l; lra).
    assert (cos (rad p) * 0.9152 <= cos (rad p) * cos (rad d)) by (apply Rmult_le_compat_l; lra). lra. }
  split; [exact X|].
  pose proof (cos_sq (rad h)) as Q. fold C in Q. assert (C * C <= 0.473 * 0.473) by (rewrite <- (Rabs_self C); apply Rmult_le_compat; auto using Rabs_pos).
  destruct (Rle_dec 0.881 (Rabs (sin (rad h)))) as [|G]; [assumption|]. exfalso.
  assert (sin (rad h) * sin (rad h) <= 0.881 * 0.881) by (rewrite <- (Rabs_self (sin (rad h))); apply Rmult_le_compat; auto using Rabs_pos; lra). lra.
Qed.

Lemma B2375w p d : -52 <= p <= 52 -> Rabs d <= 23.75 -> 0.563 <= cos (rad p) * cos (rad d) <= 1.
Proof.
  intros P D. destruct (lat_range52 p P) as [_ [L _]]. pose proof (cos_2375b d D) as C. pose proof (COS_bound (rad d)) as C1.
  assert (0.6156 * 0.9152 <= cos (rad p) * cos (rad d)) by (apply Rmult_le_compat; lra). assert (cos (rad p) * cos (rad d) <= 1 * 1) by (apply Rmult_le_compat; lra). lra.
Qed.
Lemma horizon_cos2w p d h : -52 <= p <= 52 -> Rabs d <= 23.75 -> Rabs (FF p d h + low_sun) <= 0.0009 ->
  Rabs (cos (rad h)) <= 0.602 /\ 0.798 <= Rabs (sin (rad h)).
Proof.
  intros P D F. unfold low_sun in F. pose proof (B2375w p d P D) as B. destruct (lat_range52 p P) as [_ [L2 L1]]. pose proof (cos_2375b d D) as CD.
  pose proof sinO as SO. pose proof (sin_abs_le d 23.75 D ltac:(lra)) as SD. pose proof sin_2375 as S24. unfold FF in F.
  set (C := cos (rad h)) in *. set (S := sin (rad p) * sin (rad d)) in *.
  assert (HS : Rabs S <= 1.281 * cos (rad p) * 0.4028). { unfold S. rewrite Rabs_mult. apply Rmult_le_compat; auto using Rabs_pos. lra. }
  assert (X : Rabs C <= 0.602).
  { apply Rabs_le_iff in F. apply Rabs_le_iff in HS.
    assert (Y : Rabs (cos (rad p) * cos (rad d) * C) <= 1.281 * cos (rad p) * 0.4028 + 0.01545) by (apply Rabs_le_iff; lra).
    rewrite Rabs_mult, (Rabs_right (cos (rad p) * cos (rad d))) in Y by lra. pose proof (Rabs_pos C) as CP.
    destruct (Rle_dec (Rabs C) 0.602) as [|G]; [assumption|]. exfalso.
    assert (cos (rad p) * cos (rad d) * 0.602 <= cos (rad p) * cos (rad d) * Rabs C) by (apply Rmult_le_compat_l; lra).
    assert (cos (rad p) * 0.9152 <= cos (rad p) * cos (rad d)) by (apply Rmult_le_compat_l; lra). lra. }
  split; [exact X|].
  pose proof (cos_sq (rad h)) as Q. fold C in Q. assert (C * C <= 0.602 * 0.602) by (rewrite <- (Rabs_self C); apply Rmult_le_compat; auto using Rabs_pos).
  destruct (Rle_dec 0.798 (Rabs (sin (rad h)))) as [|G]; [assumption|]. exfalso.
  assert (sin (rad h) * sin (rad h) <= 0.798 * 0.798) by (rewrite <- (Rabs_self (sin (rad h))); apply Rmult_le_compat; auto using Rabs_pos; lra). lra.
Qed.

(** the sun's place at a moment, and how it moves *)
Definition decl (jd : R) : R := let t := centuries_of jd in deg (DE (sin (rad (obliquity t))) (rad (sun_lon t))).
Definition hour (lon jd : R) : R := let t := centuries_of jd in sidereal t + lon - RAd (obliquity t) (sun_lon t).
Definition in_range (jd : R) : Prop := Rabs (centuries_of jd) <= 20.6.
Lemma altitude_FF lat lon jd : in_range jd -> sun_altitude_sine lat lon jd = FF lat (decl jd) (hour lon jd).
Proof.
  intro H. unfold in_range in H. pose proof (obliquity_range _ ltac:(eapply Rle_trans; [exact H|lra])) as O. unfold decl, hour. cbv zeta.
  rewrite sun_direction by lra. reflexivity.
Qed.
Lemma decl_range jd : in_range jd -> Rabs (decl jd) <= 23.75.
Proof.
  intro H. unfold in_range in H. pose proof (obliquity_range _ ltac:(eapply Rle_trans; [exact H|lra])) as O. unfold decl. cbv zeta. set (e := obliquity _) in *. set (l := sun_lon _).
  destruct (obl_range e ltac:(lra)) as [S _]. pose proof (DE_sin (sin (rad e)) (rad l) ltac:(lra)) as SD. set (dd := DE (sin (rad e)) (rad l)) in *.
  assert (DB : - (PI / 2) <= dd <= PI / 2) by (unfold dd, DE; apply asin_bound).
  assert (DS : Rabs dd <= rad 23.745).
  { apply sin_small_angle; [exact DB|]. rewrite SD, Rabs_mult, (Rabs_right (sin (rad e))) by lra. pose proof (sin_1 (rad l)). pose proof (Rabs_pos (sin (rad l))). apply Rle_trans with (0.4025 * 1); [apply Rmult_le_compat; lra|lra]. }
  apply Rabs_le_iff in DS. assert (Z2 : deg (- rad 23.745) <= deg dd <= deg (rad 23.745)) by (split; apply deg_mono; lra). rewrite <- rad_opp, !deg_rad in Z2. apply Rabs_le_iff. lra.
Qed.
Lemma lon_lip t t' : Rabs t <= 20.6 -> Rabs t' <= 20.6 -> Rabs (sun_lon t' - sun_lon t - 36000.77 * (t' - t)) <= 1298.32 * Rabs (t' - t).
Proof.
  intros H H'. pose proof (Lr_move t t' ltac:(lra) ltac:(lra)) as L. pose proof (Cr_lip t t' ltac:(lra) ltac:(lra)) as C. rewrite !sun_lon_eq.
  pose proof (Rabs_pos (t' - t)). apply Rabs_le_iff in L. apply Rabs_le_iff in C. apply Rabs_le_iff. lra.
Qed.
Lemma sidereal_lip t t' : Rabs t <= 20.6 -> Rabs t' <= 20.6 -> Rabs (sidereal t' - sidereal t - 360.98564736629 * 36525 * (t' - t)) <= 0.02 * Rabs (t' - t).
Proof.
  intros H H'. apply Rabs_le_iff in H. apply Rabs_le_iff in H'.
  apply (Rabs_fact (360.98564736629 * 36525 * (t' - t)) (sidereal t' - sidereal t) _ (0.000387933 * (t' + t) - (t' * t' + t' * t + t * t) / 38710000)); [unfold sidereal; field|].
  assert (-1300 <= t' * t' + t' * t + t * t <= 1300) by (split; nra). apply Rabs_le_iff. lra.
Qed.
Lemma sun_moves lon s s' : in_range s -> in_range s' ->
  Rabs (decl s' - decl s) <= 0.46 * Rabs (s' - s) /\ Rabs (hour lon s' - hour lon s - 360 * (s' - s)) <= 0.14 * Rabs (s' - s).
Proof.
  intros H H'. unfold in_range in *. unfold decl, hour. cbv zeta. set (t := centuries_of s) in *. set (t' := centuries_of s') in *.
  assert (ET : t' - t = (s' - s) / 36525) by (unfold t, t', centuries_of; field).
  assert (AT : Rabs (t' - t) = Rabs (s' - s) / 36525) by (rewrite ET; unfold Rdiv; rewrite Rabs_mult, (Rabs_right (/ 36525)) by lra; reflexivity).
  pose proof (lon_lip t t' H H') as L. pose proof (obliquity_lip t t' ltac:(lra) ltac:(lra)) as OL. pose proof (sidereal_lip t t' H H') as SL.
  pose proof (obliquity_range t ltac:(lra)) as O. pose proof (obliquity_range t' ltac:(lra)) as O'.
  pose proof (decl_range s H) as DB. pose proof (decl_range s' H') as DB'. unfold decl in DB, DB'. cbv zeta in DB, DB'. fold t in DB. fold t' in DB'.
  set (e := obliquity t) in *. set (e' := obliquity t') in *. set (l := sun_lon t) in *. set (l' := sun_lon t') in *. rewrite AT, ET in *.
  pose proof (Rabs_pos (s' - s)) as ZP. set (z := Rabs (s' - s)) in *.
  assert (LA : Rabs (l' - l) <= 1.02122 * z).
  { replace (l' - l) with ((l' - l - 36000.77 * ((s' - s) / 36525)) + 36000.77 / 36525 * (s' - s)) by field. eapply Rle_trans; [apply Rabs_triang|].
    rewrite (Rabs_mult (36000.77 / 36525)), (Rabs_right (36000.77 / 36525)) by lra. fold z. lra. }
  assert (OA : Rabs (e' - e) <= 0.0000004 * z) by lra. split.
  - destruct (obl_range e ltac:(lra)) as [S1 _]. destruct (obl_range e' ltac:(lra)) as [S2 _].
    pose proof (DE_sin (sin (rad e)) (rad l) ltac:(lra)) as D1. pose proof (DE_sin (sin (rad e')) (rad l') ltac:(lra)) as D2.
    set (d := DE (sin (rad e)) (rad l)) in *. set (d' := DE (sin (rad e')) (rad l')) in *.
    pose proof (sin_lip (rad e) (rad e')) as SE. rewrite <- rad_minus in SE. pose proof (rad_abs _ _ OA) as RE.
    pose proof (sin_lip (rad l) (rad l')) as SLp. rewrite <- rad_minus in SLp. pose proof (rad_abs _ _ LA) as RL.
    assert (P : Rabs (sin (rad e') * sin (rad l') - sin (rad e) * sin (rad l)) <= (0.4025 * (0.0174533 * 1.02122) + 1 * (0.0174533 * 0.0000004)) * z).
    { apply prod_lip; [rewrite Rabs_right; lra|apply sin_1|lra|lra]. }
    rewrite <- D1, <- D2 in P. rewrite <- (rad_deg d), <- (rad_deg d') in P.
    destruct (sin_mvt_deg (deg d) (deg d') 23.75 0.915 ltac:(lra) DB DB' cos_2375) as [w [W1 W2]]. rewrite W1, <- rad_minus, Rabs_mult, Rabs_rad, (Rabs_right w) in P by lra.
    pose proof PI_bounds as PB. pose proof (Rabs_pos (deg d' - deg d)) as DP.
    assert (G : 0.915 * (Rabs (deg d' - deg d) * (3.1415926 / 180)) <= w * (Rabs (deg d' - deg d) * (PI / 180))).
    { apply Rmult_le_compat; try lra. apply Rmult_le_compat_l; lra. }
    lra.
  - pose proof (RAd_move e e' l l' ltac:(lra) ltac:(lra)) as M. assert (ZZ : - z <= s' - s <= z) by (apply Rabs_le_iff; unfold z; lra). apply Rabs_le_iff in M. apply Rabs_le_iff in L. apply Rabs_le_iff in SL. apply Rabs_le_iff. lra.
Qed.

Lemma continuous_altitude lat lon : continuity (fun jd => sun_altitude_sine lat lon jd + low_sun).
Proof.
  unfold sun_altitude_sine, sind, cosd, sun_lon, sun_center, sun_mean_lon, sun_anomaly, obliquity, sidereal, sind, cosd, sun_anomaly, centuries_of. cbv zeta. reg.
Qed.
Lemma there_is_one lat lon s : -45 <= lat <= 45 -> Rabs (centuries_of s) <= 20.59 ->
  Rabs (sun_altitude_sine lat lon s + low_sun) <= 0.0009 -> exists s', Rabs (s' - s) <= 0.00026 /\ sun_altitude_sine lat lon s' = - low_sun.
Proof.
  intros P H F. assert (IR : forall x, Rabs x <= 1 -> in_range (s + x)).
  { intros x X. unfold in_range, centuries_of in *. apply Rabs_le_iff in X. apply Rabs_le_iff in H. apply Rabs_le_iff. lra. }
  assert (H0 : in_range s) by (unfold in_range; lra). rewrite altitude_FF in F by assumption.
  pose proof (decl_range s H0) as D. destruct (horizon_cos2 lat _ _ P D F) as [C S]. pose proof (B2375 lat _ P D) as B.
  assert (G : forall x, (x = 0.00026 \/ x = -0.00026) -> Rabs (sun_altitude_sine lat lon (s + x) - sun_altitude_sine lat lon s + cos (rad lat) * cos (rad (decl s)) * sin (rad (hour lon s)) * (x * (2 * PI))) <= 0.00001).
  { intros x X. assert (XA : Rabs x = 0.00026) by (destruct X as [-> | ->]; [rewrite Rabs_right; lra|rewrite Rabs_left; lra]).
    assert (I : in_range (s + x)) by (apply IR; lra). rewrite !altitude_FF by assumption. destruct (sun_moves lon s (s + x) H0 I) as [M1 M2].
    replace (s + x - s) with x in * by ring. rewrite XA in *.
    pose proof (FF_lip_d lat (decl s) (decl (s + x)) (hour lon (s + x))) as FD. rewrite <- rad_minus in FD. pose proof (rad_abs _ _ M1) as RM.
    pose proof (FF_lip_h lat (decl s) (hour lon s + 360 * x) (hour lon (s + x))) as FH. rewrite <- rad_minus in FH.
    replace (hour lon (s + x) - (hour lon s + 360 * x)) with (hour lon (s + x) - hour lon s - 360 * x) in FH by ring. pose proof (rad_abs _ _ M2) as RH.
    assert (XR : Rabs (360 * x) <= 0.0936) by (rewrite Rabs_mult, XA, Rabs_right; lra). pose proof (rad_abs _ _ XR) as XR'.
    pose proof (FF_step lat (decl s) (hour lon s) (360 * x) ltac:(lra) ltac:(eapply Rle_trans; [exact D|lra]) ltac:(lra)) as FS.
    pose proof (Rsq_abs _ _ XR') as XQ. replace (x * (2 * PI)) with (rad (360 * x)) by (unfold rad; field).
    assert (FD' : Rabs (FF lat (decl (s + x)) (hour lon (s + x)) - FF lat (decl s) (hour lon (s + x))) <= 0.0000022) by lra.
    assert (FH' : Rabs (FF lat (decl s) (hour lon (s + x)) - FF lat (decl s) (hour lon s + 360 * x)) <= 0.0000008) by lra.
    assert (FS' : Rabs (FF lat (decl s) (hour lon s + 360 * x) - FF lat (decl s) (hour lon s) + cos (rad lat) * cos (rad (decl s)) * sin (rad (hour lon s)) * rad (360 * x)) <= 0.0000027) by lra.
    apply Rabs_le_iff in FD'. apply Rabs_le_iff in FH'. apply Rabs_le_iff in FS'. apply Rabs_le_iff. lra. }
  pose proof (G 0.00026 ltac:(left; reflexivity)) as G1. pose proof (G (-0.00026) ltac:(right; reflexivity)) as G2. clear G.
  set (f := fun jd => sun_altitude_sine lat lon jd + low_sun).
  assert (F0 : Rabs (f s) <= 0.0009) by (unfold f; rewrite altitude_FF by assumption; exact F).
  set (q := cos (rad lat) * cos (rad (decl s)) * sin (rad (hour lon s))) in *.
  assert (Q : 0.57 <= Rabs q).
  { unfold q. rewrite Rabs_mult, (Rabs_right (cos (rad lat) * cos (rad (decl s)))) by lra. apply Rle_trans with (0.647 * 0.881); [lra|]. apply Rmult_le_compat; lra. }
  pose proof PI_bounds as PB. apply Rabs_le_iff in G1. apply Rabs_le_iff in G2. apply Rabs_le_iff in F0.
  assert (E1 : f (s + 0.00026) = f s + (sun_altitude_sine lat lon (s + 0.00026) - sun_altitude_sine lat lon s)) by (unfold f; ring).
  assert (E2 : f (s + -0.00026) = f s + (sun_altitude_sine lat lon (s + -0.00026) - sun_altitude_sine lat lon s)) by (unfold f; ring).
  assert (W : 0.57 * (0.00026 * (2 * 3.1415926)) <= Rabs q * (0.00026 * (2 * PI))) by (apply Rmult_le_compat; lra).
  assert (OPP : f (s + -0.00026) * f (s + 0.00026) <= 0).
  { unfold Rabs in W. destruct (Rcase_abs q) as [QN|QP].
    - assert (0 <= f (s + 0.00026)) by lra. assert (f (s + -0.00026) <= 0) by lra. 
      assert (0 <= - f (s + -0.00026) * f (s + 0.00026)) by (apply Rmult_le_pos; lra). lra.
    - assert (0 <= - f (s + 0.00026)) by lra. assert (0 <= f (s + -0.00026)) by lra. 
      assert (0 <= f (s + -0.00026) * - f (s + 0.00026)) by (apply Rmult_le_pos; lra). lra. }
  destruct (IVT_cor f (s + -0.00026) (s + 0.00026) (continuous_altitude lat lon) ltac:(lra) OPP) as [s' [S1 S2]].
  exists s'. split; [apply Rabs_le_iff; lra|]. unfold f in S2. lra.
Qed.
Lemma there_is_onew lat lon s : -52 <= lat <= 52 -> Rabs (centuries_of s) <= 20.59 ->
  Rabs (sun_altitude_sine lat lon s + low_sun) <= 0.0009 -> exists s', Rabs (s' - s) <= 0.00033 /\ sun_altitude_sine lat lon s' = - low_sun.
Proof.
  intros P H F. assert (IR : forall x, Rabs x <= 1 -> in_range (s + x)).
  { intros x X. unfold in_range, centuries_of in *. apply Rabs_le_iff in X. apply Rabs_le_iff in H. apply Rabs_le_iff. lra. }
  assert (H0 : in_range s) by (unfold in_range; lra). rewrite altitude_FF in F by assumption.
  pose proof (decl_range s H0) as D. destruct (horizon_cos2w lat _ _ P D F) as [C S]. pose proof (B2375w lat _ P D) as B.
  assert (G : forall x, (x = 0.00033 \/ x = -0.00033) -> Rabs (sun_altitude_sine lat lon (s + x) - sun_altitude_sine lat lon s + cos (rad lat) * cos (rad (decl s)) * sin (rad (hour lon s)) * (x * (2 * PI))) <= 0.00001).
  { intros x X. assert (XA : Rabs x = 0.00033) by (destruct X as [-> | ->]; [rewrite Rabs_right; lra|rewrite Rabs_left; lra]).
    assert (I : in_range (s + x)) by (apply IR; lra). rewrite !altitude_FF by assumption. destruct (sun_moves lon s (s + x) H0 I) as [M1 M2].
    replace (s + x - s) with x in * by ring. rewrite XA in *.
    pose proof (FF_lip_d lat (decl s) (decl (s + x)) (hour lon (s + x))) as FD. rewrite <- rad_minus in FD. pose proof (rad_abs _ _ M1) as RM.
    pose proof (FF_lip_h lat (decl s) (hour lon s + 360 * x) (hour lon (s + x))) as FH. rewrite <- rad_minus in FH.
    replace (hour lon (s + x) - (hour lon s + 360 * x)) with (hour lon (s + x) - hour lon s - 360 * x) in FH by ring. pose proof (rad_abs _ _ M2) as RH.
    assert (XR : Rabs (360 * x) <= 0.1188) by (rewrite Rabs_mult, XA, Rabs_right; lra). pose proof (rad_abs _ _ XR) as XR'.
    pose proof (FF_step lat (decl s) (hour lon s) (360 * x) ltac:(lra) ltac:(eapply Rle_trans; [exact D|lra]) ltac:(lra)) as FS.
    pose proof (Rsq_abs _ _ XR') as XQ. replace (x * (2 * PI)) with (rad (360 * x)) by (unfold rad; field).
    assert (FD' : Rabs (FF lat (decl (s + x)) (hour lon (s + x)) - FF lat (decl s) (hour lon (s + x))) <= 0.0000027) by lra.
    assert (FH' : Rabs (FF lat (decl s) (hour lon (s + x)) - FF lat (decl s) (hour lon s + 360 * x)) <= 0.0000009) by lra.
    assert (FS' : Rabs (FF lat (decl s) (hour lon s + 360 * x) - FF lat (decl s) (hour lon s) + cos (rad lat) * cos (rad (decl s)) * sin (rad (hour lon s)) * rad (360 * x)) <= 0.0000044) by lra.
    apply Rabs_le_iff in FD'. apply Rabs_le_iff in FH'. apply Rabs_le_iff in FS'. apply Rabs_le_iff. lra. }
  pose proof (G 0.00033 ltac:(left; reflexivity)) as G1. pose proof (G (-0.00033) ltac:(right; reflexivity)) as G2. clear G.
  set (f := fun jd => sun_altitude_sine lat lon jd + low_sun).
  assert (F0 : Rabs (f s) <= 0.0009) by (unfold f; rewrite altitude_FF by assumption; exact F).
  set (q := cos (rad lat) * cos (rad (decl s)) * sin (rad (hour lon s))) in *.
  assert (Q : 0.449 <= Rabs q).
  { unfold q. rewrite Rabs_mult, (Rabs_right (cos (rad lat) * cos (rad (decl s)))) by lra. apply Rle_trans with (0.563 * 0.798); [lra|]. apply Rmult_le_compat; lra. }
  pose proof PI_bounds as PB. apply Rabs_le_iff in G1. apply Rabs_le_iff in G2. apply Rabs_le_iff in F0.
  assert (E1 : f (s + 0.00033) = f s + (sun_altitude_sine lat lon (s + 0.00033) - sun_altitude_sine lat lon s)) by (unfold f; ring).
  assert (E2 : f (s + -0.00033) = f s + (sun_altitude_sine lat lon (s + -0.00033) - sun_altitude_sine lat lon s)) by (unfold f; ring).
  assert (W : 0.449 * (0.00033 * (2 * 3.1415926)) <= Rabs q * (0.00033 * (2 * PI))) by (apply Rmult_le_compat; lra).
  assert (OPP : f (s + -0.00033) * f (s + 0.00033) <= 0).
  { unfold Rabs in W. destruct (Rcase_abs q) as [QN|QP].
    - assert (0 <= f (s + 0.00033)) by lra. assert (f (s + -0.00033) <= 0) by lra. 
      assert (0 <= - f (s + -0.00033) * f (s + 0.00033)) by (apply Rmult_le_pos; lra). lra.
    - assert (0 <= - f (s + 0.00033)) by lra. assert (0 <= f (s + -0.00033)) by lra. 
      assert (0 <= f (s + -0.00033) * - f (s + 0.00033)) by (apply Rmult_le_pos; lra). lra. }
  destruct (IVT_cor f (s + -0.00033) (s + 0.00033) (continuous_altitude lat lon) ltac:(lra) OPP) as [s' [S1 S2]].
  exists s'. split; [apply Rabs_le_iff; lra|]. unfold f in S2. lra.
Qed.
(** both at once *)
Lemma there_is_one_here lat lon s : -52 <= lat <= 52 -> Rabs (centuries_of s) <= 20.59 ->
  Rabs (sun_altitude_sine lat lon s + low_sun) <= 0.0009 ->
  exists s', Rabs (s' - s) <= 0.00033 /\ (-45 <= lat <= 45 -> Rabs (s' - s) <= 0.00026) /\ sun_altitude_sine lat lon s' = - low_sun.
Proof.
  intros P H F. destruct (Rle_dec (Rabs lat) 45) as [L|L].
  - apply Rabs_le_iff in L. destruct (there_is_one lat lon s L H F) as [s' [S1 S2]]. exists s'. split; [lra|]. split; [intros _; exact S1|exact S2].
  - destruct (there_is_onew lat lon s P H F) as [s' [S1 S2]]. exists s'. split; [exact S1|]. split; [intro X; exfalso; apply L, Rabs_le_iff; lra|exact S2].
Qed.
Lemma exactly_onew lat lon s s' : -52 <= lat <= 52 -> in_range s -> in_range s' -> Rabs (s' - s) <= 0.238 ->
  sun_altitude_sine lat lon s = - low_sun -> sun_altitude_sine lat lon s' = - low_sun -> s' = s.
Proof.
  intros P H H' Z F F'. rewrite altitude_FF in F, F' by assumption. destruct (sun_moves lon s s' H H') as [M1 M2].
  pose proof (decl_range s H) as D.
  assert (F0 : Rabs (FF lat (decl s) (hour lon s) + low_sun) <= 0.0009) by (rewrite F; apply Rabs_le_iff; lra).
  destruct (horizon_cos2w lat _ _ P D F0) as [C S]. pose proof (B2375w lat _ P D) as B.
  set (z := Rabs (s' - s)) in *. assert (Z0 : 0 <= z) by apply Rabs_pos. set (X := hour lon s' - hour lon s) in *.
  assert (HX : Rabs X <= 360.14 * z /\ 359.86 * z <= Rabs X).
  { assert (AZ : Rabs (360 * (s' - s)) = 360 * z) by (rewrite Rabs_mult, Rabs_right by lra; reflexivity). 
    pose proof (Rabs_triang (X - 360 * (s' - s)) (360 * (s' - s))) as T1. replace (X - 360 * (s' - s) + 360 * (s' - s)) with X in T1 by ring.
    pose proof (Rabs_triang (360 * (s' - s) - X) X) as T2. replace (360 * (s' - s) - X + X) with (360 * (s' - s)) in T2 by ring. rewrite (Rabs_minus_sym _ X) in T2. lra. }
  assert (K : Rabs (cos (rad (hour lon s + X)) - cos (rad (hour lon s))) <= 0.00803 * z / 0.563).
  { pose proof (FF_lip_d lat (decl s) (decl s') (hour lon s')) as FD. rewrite <- rad_minus in FD. pose proof (rad_abs _ _ M1) as RM.
    assert (E : FF lat (decl s) (hour lon s') - FF lat (decl s) (hour lon s) = cos (rad lat) * cos (rad (decl s)) * (cos (rad (hour lon s')) - cos (rad (hour lon s)))) by (unfold FF; ring).
    assert (G : Rabs (FF lat (decl s) (hour lon s') - FF lat (decl s) (hour lon s)) <= 0.00803 * z).
    { rewrite F. rewrite F' in FD. rewrite Rabs_minus_sym. lra. }
    replace (hour lon s + X) with (hour lon s') by (unfold X; ring). rewrite E, Rabs_mult, (Rabs_right (cos (rad lat) * cos (rad (decl s)))) in G by lra.
    set (q := Rabs (cos (rad (hour lon s')) - cos (rad (hour lon s)))) in *. assert (Q0 : 0 <= q) by apply Rabs_pos.
    assert (0.563 * q <= cos (rad lat) * cos (rad (decl s)) * q) by (apply Rmult_le_compat_r; lra). lra. }
  pose proof (hour_close52 (hour lon s) X _ C S ltac:(lra) K ltac:(lra)) as R1.
  assert (Z1 : z = 0) by lra. unfold z in Z1. destruct (Req_dec (s' - s) 0) as [Q|Q]; [lra|]. apply Rabs_no_R0 in Q. contradiction.
Qed.
