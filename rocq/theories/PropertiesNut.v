(** PropertiesNut.v -- C96: nutation, obliquity, sidereal time and the sun's longitude against the formulas of the book. *)
From Coq Require Import ZArith QArith Qabs Qreals Lqa Reals Lra Lia List Bool.
From Verif Require Import Base Flt QUtil BaseModel BaseProofs AstroModel SpecAstro SpecSun SpecNut AstroReal AstroReal2 AstroFlt AstroApx AstroSun AstroNut AstroRA AstroRise SunLine NutProofs PropertiesAstro.
Import ListNotations.
Local Open Scope R_scope.

Lemma sin_ang a b K : Rabs (a - b) <= K -> Rabs (sin (rad a) - sin (rad b)) <= 0.0174533 * K.
Proof. intro H. eapply Rle_trans; [apply sin_lip|]. replace (rad a - rad b) with (rad (a - b)) by (unfold rad; ring). pose proof (rad_abs _ _ H). lra. Qed.
Lemma cos_ang a b K : Rabs (a - b) <= K -> Rabs (cos (rad a) - cos (rad b)) <= 0.0174533 * K.
Proof. intro H. eapply Rle_trans; [apply cos_lip|]. replace (rad a - rad b) with (rad (a - b)) by (unfold rad; ring). pose proof (rad_abs _ _ H). lra. Qed.
Lemma t_powers t : Rabs t <= 20.7 -> 0 <= t * t <= 428.49 /\ Rabs (t * t * t) <= 8870.
Proof.
  intro H. apply Rabs_le_iff in H. assert (0 <= t * t <= 428.49) by (split; nra). split; [assumption|]. rewrite Rabs_mult, (Rabs_right (t * t)) by lra.
  assert (Rabs t <= 20.7) by (apply Rabs_le_iff; lra). pose proof (Rabs_pos t). nra.
Qed.
Lemma g2_near t : Rabs t <= 20.7 -> Rabs (g2 t - 2 * sun_mean t + 360 * 2) <= 0.2605.
Proof. intro H. destruct (t_powers t H) as [T2 T3]. apply Rabs_le_iff in H. apply Rabs_le_iff in T3. unfold g2, Fr, Dr, moon_node, sun_mean. apply Rabs_le_iff. lra. Qed.
Lemma g3_near t : Rabs t <= 20.7 -> Rabs (g3 t - 2 * moon_mean t) <= 1.476.
Proof. intro H. destruct (t_powers t H) as [T2 T3]. apply Rabs_le_iff in H. apply Rabs_le_iff in T3. unfold g3, Fr, moon_node, moon_mean. apply Rabs_le_iff. lra. Qed.

Lemma diff_mul x s K : Rabs x <= K -> Rabs s <= 1 -> - K <= x * s <= K.
Proof. intros. pose proof (bound_mul x s K ltac:(assumption) ltac:(assumption)) as B. apply Rabs_le_iff in B. exact B. Qed.
Lemma psi_near t : Rabs t <= 20.7 -> Rabs (psi4 t / 10000 - nutation_psi t) <= 0.3858.
Proof.
  intro H. pose proof (sin_ang (g2 t + 360 * IZR 2) (2 * sun_mean t) 0.2605 ltac:(pose proof (g2_near t H) as G; replace (g2 t + 360 * IZR 2 - 2 * sun_mean t) with (g2 t - 2 * sun_mean t + 360 * 2) by ring; exact G)) as S2. rewrite sin_turn_d in S2.
  pose proof (sin_ang _ _ _ (g3_near t H)) as S3. unfold psi4, nutation_psi. unfold sind. fold (rad (moon_node t)) (rad (2 * sun_mean t)) (rad (2 * moon_mean t)) (rad (2 * moon_node t)).
  set (s1 := sin (rad (moon_node t))). set (s2 := sin (rad (g2 t))) in *. set (s2' := sin (rad (2 * sun_mean t))) in *. set (s3 := sin (rad (g3 t))) in *. set (s3' := sin (rad (2 * moon_mean t))) in *. set (s4 := sin (rad (2 * moon_node t))).
  pose proof (diff_mul t s1 20.7 H (sin_1 _)). pose proof (diff_mul t s2 20.7 H (sin_1 _)). pose proof (diff_mul t s3 20.7 H (sin_1 _)). pose proof (diff_mul t s4 20.7 H (sin_1 _)).
  pose proof (SIN_bound (rad (moon_node t))) as A1. fold s1 in A1. pose proof (SIN_bound (rad (g2 t))) as A2. fold s2 in A2. pose proof (SIN_bound (rad (g3 t))) as A3. fold s3 in A3. pose proof (SIN_bound (rad (2 * moon_node t))) as A4. fold s4 in A4.
  apply Rabs_le_iff in S2. apply Rabs_le_iff in S3. apply Rabs_le_iff. lra.
Qed.
Lemma eps_near t : Rabs t <= 20.7 -> Rabs (eps4 t / 10000 - nutation_eps t) <= 0.042.
Proof.
  intro H. pose proof (cos_ang (g2 t + 360 * IZR 2) (2 * sun_mean t) 0.2605 ltac:(pose proof (g2_near t H) as G; replace (g2 t + 360 * IZR 2 - 2 * sun_mean t) with (g2 t - 2 * sun_mean t + 360 * 2) by ring; exact G)) as S2. rewrite cos_turn_d in S2.
  pose proof (cos_ang _ _ _ (g3_near t H)) as S3. unfold eps4, nutation_eps. unfold cosd. fold (rad (moon_node t)) (rad (2 * sun_mean t)) (rad (2 * moon_mean t)) (rad (2 * moon_node t)).
  set (s1 := cos (rad (moon_node t))). set (s2 := cos (rad (g2 t))) in *. set (s2' := cos (rad (2 * sun_mean t))) in *. set (s3 := cos (rad (g3 t))) in *. set (s3' := cos (rad (2 * moon_mean t))) in *. set (s4 := cos (rad (2 * moon_node t))).
  pose proof (diff_mul t s1 20.7 H (cos_1 _)). pose proof (diff_mul t s2 20.7 H (cos_1 _)). pose proof (diff_mul t s3 20.7 H (cos_1 _)). pose proof (diff_mul t s4 20.7 H (cos_1 _)).
  pose proof (COS_bound (rad (moon_node t))) as A1. fold s1 in A1. pose proof (COS_bound (rad (g2 t))) as A2. fold s2 in A2. pose proof (COS_bound (rad (g3 t))) as A3. fold s3 in A3. pose proof (COS_bound (rad (2 * moon_node t))) as A4. fold s4 in A4.
  apply Rabs_le_iff in S2. apply Rabs_le_iff in S3. apply Rabs_le_iff. lra.
Qed.
Lemma centuries_Q tc : Rabs (Q2R tc) <= 20.7 -> (Qabs tc <= TX)%Q.
Proof. intro H. apply R_Qabs. unfold TX. rewrite Q2R_lit. lra. Qed.

Definition Lk : list Q := [84381448 # 3600000; (-468093) # 360000; (-155) # 360000; 199925 # 360000; (-5138) # 360000; (-24967) # 360000; (-3905) # 360000; 712 # 360000; 2787 # 360000; 579 # 360000; 245 # 360000]%Q.
Lemma Lk_R t : Q2R (pe (t * (1 # 100)) Lk) = laskar (Q2R t).
Proof.
  unfold Lk. rewrite !pe_cons. unfold pe. cbn [poly]. rewrite !Q2R_plus. 
  repeat (rewrite !Q2R_mult; rewrite !Q2R_plus). rewrite !Q2R_mult, !Q2R_lit. unfold laskar. cbv zeta.
  replace (Q2R t * (1 / 100)) with (Q2R t / 100) by lra. set (u := Q2R t / 100). ring_simplify. lra.
Qed.
Lemma laskar_near t : (Qabs t <= TX)%Q -> Rabs (Q2R (Pe t) - laskar (Q2R t)) <= 0.000000001.
Proof.
  intro H. assert (U : (Qabs (t * (1 # 100)) <= 207 # 1000)%Q) by (apply (mul_le t (1 # 100) TX (1 # 100)) ; [exact H|discriminate]).
  pose proof (pe_abs _ _ (zdiff Eb Lk) U) as B. assert (V : (pabs (207 # 1000) (zdiff Eb Lk) <= 1 # 1000000000)%Q) by (vm_compute; discriminate).
  pose proof (pe_zdiff (t * (1 # 100)) Eb Lk ltac:(cbn; lia)) as Z. fold (Pe t) in Z. rewrite <- Lk_R.
  assert (W : (Qabs (Pe t - pe (t * (1 # 100)) Lk) <= 1 # 1000000000)%Q) by (rewrite Z; eapply Qle_trans; [exact B|exact V]).
  apply Qabs_R in W. rewrite Q2R_minus, Q2R_lit in W. lra.
Qed.

(** ** C96 *)
(** The nutation the code sums from 106 terms is that of the book's four, to within 0.89 and 0.16 seconds of arc. *)
Theorem C96_nutation : forall rnd lm tc, Nearest rnd -> accurate lm -> Rabs (Q2R tc) <= 20.7 ->
  Rabs (3600 * Q2R (nutation_longitude rnd lm tc) - nutation_psi (Q2R tc)) <= 0.89 /\
  Rabs (3600 * Q2R (nutation_obliquity rnd lm tc) - nutation_eps (Q2R tc)) <= 0.16.
Proof.
  intros rnd lm tc N A H. destruct (nutation_main rnd N lm A tc (centuries_Q tc H)) as [P E]. pose proof (psi_near _ H) as P'. pose proof (eps_near _ H) as E'.
  apply Rabs_le_iff in P. apply Rabs_le_iff in E. apply Rabs_le_iff in P'. apply Rabs_le_iff in E'. split; apply Rabs_le_iff; lra.
Qed.
Print Assumptions C96_nutation.

Section More.
Variable rnd : Q -> Q.
Hypothesis N : Nearest rnd.
Variable lm : libm.
Hypothesis A : accurate lm.

Ltac apxs := repeat first
  [ eassumption
  | match goal with
    | |- apx (lit _ _ _) _ _ _ => apply (apx_litc rnd _ _ N)
    | |- apx (fadd _ _ _) _ _ _ => eapply (apx_add rnd N)
    | |- apx (fsub _ _ _) _ _ _ => eapply (apx_sub rnd N)
    | |- apx (fmul _ _ _) _ _ _ => eapply (apx_mul rnd N)
    | |- apx (fdiv _ _ _) _ _ _ => eapply (apx_divc rnd N)
    | |- apx (sq _ _) _ _ _ => eapply (apx_sq rnd N)
    | |- apx (sin_deg _ _ _) _ _ _ => eapply (apx_sin rnd N lm A)
    | |- apx (cos_deg _ _ _) _ _ _ => eapply (apx_cos rnd N lm A)
    end ].
Ltac nums := cbn [Z.abs]; unfold u; lra.

Lemma nut_small t : Rabs t <= 20.7 -> Rabs (nutation_psi t) <= 18.96 /\ Rabs (nutation_eps t) <= 9.96.
Proof.
  intro H. unfold nutation_psi, nutation_eps, sind, cosd.
  pose proof (fun x => SIN_bound (x * (PI / 180))) as SB. pose proof (fun x => COS_bound (x * (PI / 180))) as CB.
  pose proof (SB (moon_node t)). pose proof (SB (2 * sun_mean t)). pose proof (SB (2 * moon_mean t)). pose proof (SB (2 * moon_node t)).
  pose proof (CB (moon_node t)). pose proof (CB (2 * sun_mean t)). pose proof (CB (2 * moon_mean t)). pose proof (CB (2 * moon_node t)). clear SB CB.
  split; apply Rabs_le_iff; lra.
Qed.
Lemma laskar_range t : Rabs (Q2R t) <= 20.7 -> 23.15 <= laskar (Q2R t) <= 23.73.
Proof.
  intro H. pose proof (laskar_near t (centuries_Q t H)) as L. pose proof (Pe_near t (centuries_Q t H)) as P.
  apply Rabs_le_iff in L. apply Rabs_le_iff in P. lra.
Qed.
Lemma true_obliquity_near t : Rabs (Q2R t) <= 20.7 ->
  Rabs (Q2R (true_obliquity_of_ecliptic rnd lm t) - (laskar (Q2R t) + nutation_eps (Q2R t) / 3600)) <= 0.000045.
Proof.
  intro H. pose proof (obl_poly_R rnd N t (centuries_Q t H)) as P. pose proof (laskar_near t (centuries_Q t H)) as B. pose proof (laskar_range t H) as RG.
  destruct (C96_nutation rnd lm t N A H) as [_ O]. destruct (nut_small _ H) as [_ S].
  unfold true_obliquity_of_ecliptic. apply Rabs_le_iff in P. apply Rabs_le_iff in B. apply Rabs_le_iff in O. apply Rabs_le_iff in S.
  pose proof (fadd_R rnd N (poly rnd (fdiv rnd t 100) (OBL rnd)) (nutation_obliquity rnd lm t) 30) as F.
  assert (G : Rabs (Q2R (poly rnd (fdiv rnd t 100) (OBL rnd)) + Q2R (nutation_obliquity rnd lm t)) <= 30) by (apply Rabs_le_iff; lra).
  specialize (F G). apply Rabs_le_iff in F. unfold u in F. apply Rabs_le_iff. lra.
Qed.
Lemma sun_eps_near t : Rabs (Q2R t) <= 20.7 ->
  Rabs (Q2R (sun_eps rnd lm t) - (laskar (Q2R t) + nutation_eps (Q2R t) / 3600 + 0.00256 * cosd (moon_node (Q2R t)))) <= 0.000046.
Proof.
  intro H. pose proof (true_obliquity_near t H) as P. pose proof (laskar_range t H) as RG. destruct (nut_small _ H) as [_ S].
  destruct (O_R rnd N t (centuries_Q t H)) as [k O].
  pose proof (apx_mul rnd N _ _ _ _ _ _ _ _ (apx_litc rnd 256 100000 N) (apx_cos rnd N lm A _ _ _ _ O)) as [M _].
  rewrite cos_turn_d in M. fold (cosd (moon_node (Q2R t))) in M. unfold rad in M. fold (cosd (moon_node (Q2R t))) in M.
  pose proof (COS_bound (moon_node (Q2R t) * (PI / 180))) as C. fold (cosd (moon_node (Q2R t))) in C. cbn [Z.abs] in M. unfold u in M.
  unfold sun_eps. apply Rabs_le_iff in P. apply Rabs_le_iff in S. apply Rabs_le_iff in M.
  match goal with |- context [fadd rnd ?a ?b] => pose proof (fadd_R rnd N a b 30) as F;
    assert (G : Rabs (Q2R a + Q2R b) <= 30) by (apply Rabs_le_iff; lra) end.
  specialize (F G). apply Rabs_le_iff in F. unfold u in F. apply Rabs_le_iff. lra.
Qed.
Lemma longitude_near t : Rabs (Q2R t) <= 20.7 -> exists k : Z,
  Rabs (Q2R (sun_apparent_longitude rnd lm t) - (sun_lon (Q2R t) - 0.00478 * sind (moon_node (Q2R t)) + 360 * IZR k)) <= 0.00002 /\
  apx (sun_apparent_longitude rnd lm t) (sun_lon (Q2R t) - 0.00478 * sind (moon_node (Q2R t)) + 360 * IZR k) 363.3 (1 / 50000).
Proof.
  intro H0. assert (H := centuries_Q t H0). destruct (mean_longitude_R rnd N t H) as [k [L _]]. pose proof (center_R rnd N lm A t H) as C. destruct (O_R rnd N t H) as [k2 O].
  assert (E : apx (sun_apparent_longitude rnd lm t) (Lr (Q2R t) + Cr (Q2R t) - 0.00569 - 0.00478 * sin (rad (moon_node (Q2R t))) + 360 * IZR k) 363.3 (1 / 50000)).
  { unfold sun_apparent_longitude, sun_true_longitude. rewrite <- (sin_turn_d _ k2). eapply apx_eq; [eapply apx_weaken; [apxs|nums|nums]|]. lra. }
  exists k. split; [|unfold sind; fold (rad (moon_node (Q2R t))); rewrite sun_lon_eq; exact E]. apply proj1 in E. rewrite sun_lon_eq. unfold sind. unfold rad in E. apply Rabs_le_iff in E. apply Rabs_le_iff. lra.
Qed.
Lemma sidereal_near t : Rabs (Q2R t) <= 20.7 -> exists k : Z,
  Rabs (Q2R (apparent_sidereal_time_greenwich rnd lm t) - (sidereal (Q2R t) + nutation_psi (Q2R t) / 3600 * cosd (laskar (Q2R t) + nutation_eps (Q2R t) / 3600) + 360 * IZR k)) <= 0.00028.
Proof.
  intro H0. assert (H := centuries_Q t H0). pose proof (t_R t H) as T. unfold apparent_sidereal_time_greenwich. cbv zeta.
  assert (C3 : apx (cube rnd t) (Q2R t * Q2R t * Q2R t) 8900 (1 / 100000000)).
  { unfold cube. eapply apx_weaken; [apply (apx_rnd rnd N), apx_qmul; [apply apx_qmul; exact T|exact T]| |]; unfold u; lra. }
  assert (K0 : apx 36525 (36525 / 1) 36525 0) by (apply (apx_const 36525 1); rewrite Rabs_right; lra).
  assert (M : exists k : Z, apx (mean_sidereal_time_greenwich rnd t) (Th (Q2R t) + 360 * IZR k) 362 (1 / 100000)).
  { unfold mean_sidereal_time_greenwich.
    assert (Y1 : apx (fmul rnd t 36525) (Q2R t * (36525 / 1)) 760000 (1 / 1000000000)) by (eapply apx_weaken; [apxs|nums|nums]).
    assert (Y2 : apx (fmul rnd (lit rnd 36098564736629 100000000000) (fmul rnd t 36525)) (36098564736629 / 100000000000 * (Q2R t * (36525 / 1))) 275000000 (1 / 1000000))
      by (eapply apx_weaken; [apxs|nums|nums]).
    assert (Y3 : apx (fadd rnd (lit rnd 28046061837 100000000) (fmul rnd (lit rnd 36098564736629 100000000000) (fmul rnd t 36525))) (28046061837 / 100000000 + 36098564736629 / 100000000000 * (Q2R t * (36525 / 1))) 276000000 (2 / 1000000))
      by (eapply apx_weaken; [apxs|nums|nums]).
    assert (Y4 : apx (fmul rnd (lit rnd 387933 1000000000) (sq rnd t)) (387933 / 1000000000 * (Q2R t * Q2R t)) 1 (1 / 1000000))
      by (eapply apx_weaken; [apxs|nums|nums]).
    match goal with |- context [coterminal_angle rnd ?y] => assert (Y : apx y (Th (Q2R t)) 280000000 (9 / 1000000)) end.
    { eapply apx_eq; [eapply apx_weaken; [apxs|nums|nums]|]. unfold Th. lra. }
    destruct (apx_cot rnd N _ _ _ _ Y) as [k [B _]]. exists k. eapply apx_weaken; [exact B| |]; lra. }
  destruct M as [k M]. destruct (C96_nutation rnd lm t N A H0) as [L _]. destruct (nut_small _ H0) as [S _].
  assert (L' : apx (nutation_longitude rnd lm t) (nutation_psi (Q2R t) / 3600) 0.00527 0.000248).
  { apply Rabs_le_iff in L. apply Rabs_le_iff in S. split; apply Rabs_le_iff; lra. }
  assert (O : apx (true_obliquity_of_ecliptic rnd lm t) (laskar (Q2R t) + nutation_eps (Q2R t) / 3600) 24 0.000045).
  { split; [exact (true_obliquity_near t H0)|]. pose proof (laskar_range t H0). destruct (nut_small _ H0) as [_ S']. apply Rabs_le_iff in S'. apply Rabs_le_iff. lra. }
  pose proof (apx_add rnd N _ _ _ _ _ _ _ _ M (apx_mul rnd N _ _ _ _ _ _ _ _ L' (apx_cos rnd N lm A _ _ _ _ O))) as X.
  destruct (apx_cot rnd N _ _ _ _ X) as [k2 [[B _] _]]. exists (k + k2)%Z. rewrite plus_IZR, sidereal_eq. unfold cosd. unfold rad in B.
  eapply Rle_trans; [|eapply Rle_trans; [exact B|unfold u; lra]]. right. f_equal. ring.
Qed.

End More.

Theorem C96_obliquity : forall rnd lm tc, Nearest rnd -> accurate lm -> Rabs (Q2R tc) <= 20.7 ->
  Rabs (Q2R (true_obliquity_of_ecliptic rnd lm tc) - (laskar (Q2R tc) + nutation_eps (Q2R tc) / 3600)) <= 0.000045.
Proof. intros rnd lm tc N A H. exact (true_obliquity_near rnd N lm A tc H). Qed.
Print Assumptions C96_obliquity.

Theorem C96_sidereal : forall rnd lm tc, Nearest rnd -> accurate lm -> Rabs (Q2R tc) <= 20.7 -> exists k : Z,
  Rabs (Q2R (apparent_sidereal_time_greenwich rnd lm tc)
        - (sidereal (Q2R tc) + nutation_psi (Q2R tc) / 3600 * cosd (laskar (Q2R tc) + nutation_eps (Q2R tc) / 3600) + 360 * IZR k)) <= 0.00028.
Proof. intros rnd lm tc N A H. exact (sidereal_near rnd N lm A tc H). Qed.
Print Assumptions C96_sidereal.

Theorem C96_longitude : forall rnd lm tc, Nearest rnd -> accurate lm -> Rabs (Q2R tc) <= 20.7 -> exists k : Z,
  Rabs (Q2R (sun_apparent_longitude rnd lm tc) - (sun_lon (Q2R tc) - 0.00478 * sind (moon_node (Q2R tc)) + 360 * IZR k)) <= 0.00002.
Proof. intros rnd lm tc N A H. destruct (longitude_near rnd N lm A tc H) as [k [P _]]. exists k. exact P. Qed.
Print Assumptions C96_longitude.

(** the place of the sun on the equator: from its apparent longitude, and from the true obliquity with 0.00256 cos Omega added *)
Theorem C96_position : forall rnd lm tc, Nearest rnd -> accurate lm -> Rabs (Q2R tc) <= 20.7 ->
  exists d, sun_apparent_declination rnd lm tc = Ok d /\
  Rabs (sind (Q2R d) - sind (used_eps (Q2R tc)) * sind (apparent_lon (Q2R tc))) <= 0.000006 /\ Rabs (Q2R d) <= 23.75 /\
  let ra := Q2R (sun_apparent_right_ascension rnd lm tc) in
  Rabs (sind ra * cosd (apparent_lon (Q2R tc)) - cosd ra * (cosd (used_eps (Q2R tc)) * sind (apparent_lon (Q2R tc)))) <= 0.000012 /\
  0 < cosd ra * cosd (apparent_lon (Q2R tc)) + sind ra * (cosd (used_eps (Q2R tc)) * sind (apparent_lon (Q2R tc))).
Proof.
  intros rnd lm tc N A H. destruct (longitude_near rnd N lm A tc H) as [k [_ L]]. fold (apparent_lon (Q2R tc)) in L. set (l := apparent_lon (Q2R tc)) in *.
  assert (H' := centuries_Q tc H). destruct (ra_at rnd N lm A tc l k H' L) as [[k2 [RE _]] [d [D1 [D2 D3]]]].
  destruct (sun_eps_R rnd N lm A tc H') as [_ ER]. pose proof (sun_eps_near rnd N lm A tc H) as SE. fold (used_eps (Q2R tc)) in SE.
  set (e := Q2R (sun_eps rnd lm tc)) in *. set (e' := used_eps (Q2R tc)) in *.
  pose proof (sin_ang _ _ _ SE) as S1. pose proof (cos_ang _ _ _ SE) as C1. exists d. split; [exact D1|].
  unfold sind, cosd. fold (rad (Q2R d)) (rad l) (rad e'). pose proof (SIN_bound (rad l)) as BS. split; [|split; [exact D3|]].
  - apply Rabs_le_iff in D2. assert (X : Rabs ((sin (rad e) - sin (rad e')) * sin (rad l)) <= 0.0174533 * 0.000046 * 1).
    { rewrite Rabs_mult. apply Rmult_le_compat; try apply Rabs_pos; [exact S1|apply sin_1]. }
    apply Rabs_le_iff in X. apply Rabs_le_iff. lra.
  - cbv zeta. set (ra := Q2R (sun_apparent_right_ascension rnd lm tc)) in *. fold (rad ra).
    destruct (obl_range e ltac:(lra)) as [OS OC]. destruct (RA_polar _ (rad l) OC) as [r [R0 [R1 R2]]].
    set (al := RA (cos (rad e)) (rad l)) in *.
    pose proof (sin2_cos2 al) as I1. pose proof (sin2_cos2 (rad l)) as I2. unfold Rsqr in I1, I2.
    assert (RR : r * r <= 1).
    { assert (Q1 : r * r = cos (rad l) * cos (rad l) + (cos (rad e) * sin (rad l)) * (cos (rad e) * sin (rad l))).
      { rewrite R2, R1. transitivity (r * r * (sin al * sin al + cos al * cos al)); [rewrite I1|]; ring. }
      assert (0 <= cos (rad e) * cos (rad e) <= 1) by (split; nra). assert (0 <= sin (rad l) * sin (rad l)) by nra. nra. }
    assert (R9 : r <= 1) by nra.
    assert (DE : Rabs (rad ra - (al + 2 * PI * IZR k2)) <= 0.00001).
    { pose proof (rad_abs _ _ RE) as X. replace (rad ra - (al + 2 * PI * IZR k2)) with (rad (ra - (RAd e l + 360 * IZR k2))); [lra|].
      unfold RAd. fold al. unfold rad, deg. pose proof PI_RGT_0. field. lra. }
    set (dl := rad ra - (al + 2 * PI * IZR k2)) in *.
    assert (SD : Rabs (sin dl) <= 0.00001) by (pose proof (sin_lip 0 dl) as X; rewrite sin_0, !Rminus_0_r in X; lra).
    assert (CD : Rabs (cos dl - 1) <= 0.00001) by (pose proof (cos_lip 0 dl) as X; rewrite cos_0, !Rminus_0_r in X; lra).
    assert (SR : sin (rad ra) = sin (al + dl)) by (replace (rad ra) with ((al + dl) + 2 * PI * IZR k2) by (unfold dl; ring); apply sin_turn).
    assert (CR : cos (rad ra) = cos (al + dl)) by (replace (rad ra) with ((al + dl) + 2 * PI * IZR k2) by (unfold dl; ring); apply cos_turn).
    assert (X1 : sin (rad ra) * cos (rad l) - cos (rad ra) * (cos (rad e) * sin (rad l)) = r * sin dl).
    { rewrite R2, R1, SR, CR, sin_plus, cos_plus. transitivity (r * sin dl * (sin al * sin al + cos al * cos al)); [ring|rewrite I1; ring]. }
    assert (X2 : cos (rad ra) * cos (rad l) + sin (rad ra) * (cos (rad e) * sin (rad l)) = r * cos dl).
    { rewrite R2, R1, SR, CR, sin_plus, cos_plus. transitivity (r * cos dl * (sin al * sin al + cos al * cos al)); [ring|rewrite I1; ring]. }
    assert (Z1 : Rabs (cos (rad ra) * ((cos (rad e) - cos (rad e')) * sin (rad l))) <= 1 * (0.0174533 * 0.000046 * 1)).
    { rewrite !Rabs_mult. apply Rmult_le_compat; try apply Rabs_pos; [apply Rmult_le_pos; apply Rabs_pos|apply cos_1|apply Rmult_le_compat; try apply Rabs_pos; [exact C1|apply sin_1]]. }
    assert (Z2 : Rabs (sin (rad ra) * ((cos (rad e) - cos (rad e')) * sin (rad l))) <= 1 * (0.0174533 * 0.000046 * 1)).
    { rewrite !Rabs_mult. apply Rmult_le_compat; try apply Rabs_pos; [apply Rmult_le_pos; apply Rabs_pos|apply sin_1|apply Rmult_le_compat; try apply Rabs_pos; [exact C1|apply sin_1]]. }
    apply Rabs_le_iff in SD. apply Rabs_le_iff in CD. apply Rabs_le_iff in Z1. apply Rabs_le_iff in Z2.
    assert (- 0.00001 <= r * sin dl <= 0.00001) by (split; nra). assert (0.8 <= r * cos dl) by nra.
    split; [apply Rabs_le_iff|]; lra.
Qed.
Print Assumptions C96_position.

(** Meeus (25.8) corrects the MEAN obliquity by 0.00256 cos Omega; the code corrects the true one, so the nutation in obliquity
    is counted twice, and near midsummer 2006 the sine of the declination is too large by more than 0.00002 (5 seconds of arc) *)
Lemma eps_2006 : 8.43 <= nutation_eps (Q2R (646515 # 10000000)).
Proof.
  set (t := Q2R (646515 # 10000000)). assert (TE : t = 646515 / 10000000) by (unfold t, Q2R; cbn [Qnum Qden]; lra). clearbody t. unfold nutation_eps, cosd. fold (rad (moon_node t)).
  pose proof (COS_bound (2 * sun_mean t * (PI / 180))). pose proof (COS_bound (2 * moon_mean t * (PI / 180))). pose proof (COS_bound (2 * moon_node t * (PI / 180))).
  assert (M : Rabs (moon_node t - 0) <= 0.01) by (unfold moon_node; rewrite TE; apply Rabs_le_iff; lra).
  pose proof (cos_ang _ _ _ M) as C. rewrite rad_0, cos_0 in C. apply Rabs_le_iff in C. lra.
Qed.
Lemma lon_2006 : 0.9 <= sind (apparent_lon (Q2R (646515 # 10000000))).
Proof.
  set (t := Q2R (646515 # 10000000)). assert (TE : t = 646515 / 10000000) by (unfold t, Q2R; cbn [Qnum Qden]; lra). clearbody t. unfold sind. fold (rad (apparent_lon t)).
  assert (B : Rabs (apparent_lon t - 360 * IZR 7 - 90) <= 5).
  { unfold apparent_lon, sun_lon, sun_center, sind.
    assert (X1 := SIN_bound (moon_node t * (PI / 180))). assert (X2 := SIN_bound (sun_anomaly t * (PI / 180))).
    assert (X3 := SIN_bound (2 * sun_anomaly t * (PI / 180))). assert (X4 := SIN_bound (3 * sun_anomaly t * (PI / 180))).
    unfold sun_mean_lon. apply Rabs_le_iff.
    generalize dependent (sin (moon_node t * (PI / 180))). generalize dependent (sin (sun_anomaly t * (PI / 180))).
    generalize dependent (sin (2 * sun_anomaly t * (PI / 180))). generalize dependent (sin (3 * sun_anomaly t * (PI / 180))).
    intros. rewrite TE. lra. }
  replace (apparent_lon t) with ((apparent_lon t - 360 * IZR 7) + 360 * IZR 7) by ring. rewrite sin_turn_d.
  set (x := apparent_lon t - 360 * IZR 7) in *. pose proof (sin_ang _ _ _ B) as S. rewrite rad_90, sin_PI2 in S. apply Rabs_le_iff in S. lra.
Qed.
Theorem C96_double_nutation_refuted : exists tc, Rabs (Q2R tc) <= 1 /\ forall rnd lm, Nearest rnd -> accurate lm ->
  exists d, sun_apparent_declination rnd lm tc = Ok d /\
    sind (book_eps (Q2R tc)) * sind (apparent_lon (Q2R tc)) + 0.00002 <= sind (Q2R d).
Proof.
  exists (646515 # 10000000)%Q. assert (T : Rabs (Q2R (646515 # 10000000)) <= 1) by (unfold Q2R; cbn [Qnum Qden]; apply Rabs_le_iff; lra).
  split; [exact T|]. intros rnd lm N A. assert (T2 : Rabs (Q2R (646515 # 10000000)) <= 20.7) by lra.
  destruct (C96_position rnd lm _ N A T2) as [d [D1 [D2 _]]]. exists d. split; [exact D1|].
  pose proof eps_2006 as E. pose proof lon_2006 as L. pose proof (nut_small _ T2) as [_ S]. pose proof (laskar_range _ T2) as RG.
  set (t := Q2R (646515 # 10000000)) in *. apply Rabs_le_iff in S.
  replace (used_eps t) with (book_eps t + nutation_eps t / 3600) in D2 by (unfold used_eps, book_eps; ring).
  assert (BR : 0 <= book_eps t <= 23.73).
  { pose proof (laskar_near _ (centuries_Q _ T2)) as LN. pose proof (Pe_near _ (centuries_Q _ T2)) as PN. fold t in LN. apply Rabs_le_iff in LN. apply Rabs_le_iff in PN.
    unfold book_eps, cosd. pose proof (COS_bound (moon_node t * (PI / 180))). lra. }
  set (e := book_eps t) in *. set (n := nutation_eps t / 3600) in *. assert (NR : 0.00234 <= n <= 0.00277) by (unfold n; lra).
  unfold sind in D2 |- *. fold (rad (e + n)) (rad e) in *. fold (rad (Q2R d)) in *. rewrite rad_plus in D2.
  pose proof PI_bounds as PB. assert (RN : 0.00004 <= rad n <= 0.00005) by (unfold rad; split; nra).
  pose proof (sin_step (rad e) (rad n) ltac:(apply Rabs_le_iff; lra)) as ST.
  destruct (obl_range e BR) as [SE CE]. apply Rabs_le_iff in ST. apply Rabs_le_iff in D2. set (x := sin (rad e + rad n)) in *. set (y := sin (rad e)) in *.
  assert (G : 0.000035 <= x - y) by nra.
  assert (0.0000315 <= (x - y) * sin (apparent_lon t * (PI / 180))) by (unfold sind in L; nra).
  lra.
Qed.
Print Assumptions C96_double_nutation_refuted.

Example C96_case : Nearest b64 /\ accurate real_libm /\ Rabs (Q2R (646515 # 10000000)) <= 20.7.
Proof. split; [exact b64_nearest|]. split; [exact real_libm_accurate|]. unfold Q2R; cbn [Qnum Qden]. apply Rabs_le_iff. lra. Qed.
