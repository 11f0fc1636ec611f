(** AstroSun.v -- the sun's longitude and the obliquity as computed, against their formulas in the reals (proof support). *)
From Coq Require Import ZArith QArith Qabs Qreals Lqa Reals Lra Lia List Bool.
From Verif Require Import Base Flt QUtil BaseModel BaseProofs AstroModel SpecAstro AstroReal AstroReal2 AstroFlt AstroApx.
Import ListNotations.
Local Open Scope R_scope.

Definition TX : Q := 207 # 10.
Definition Lb : list Q := [28046646 # 100000; 3600076983 # 100000; 3032 # 10000000]%Q.
Definition Mb : list Q := [35752772 # 100000; 3599905034 # 100000; (-1603) # 10000000; (-1) # 300000]%Q.
Definition Ob : list Q := [12504452 # 100000; (-1934136261) # 1000000; 20708 # 10000000; 1 # 450000]%Q.
Definition Eb : list Q :=
  [2343929111111111 # 100000000000000; (-13002583333333335) # 10000000000000000; (-43055555555555555) # 100000000000000000000;
   5553472222222222 # 10000000000000000; (-14272222222222223) # 1000000000000000000; (-6935277777777778) # 100000000000000000;
   (-10847222222222222) # 1000000000000000000; 1977777777777778 # 1000000000000000000; 7741666666666667 # 1000000000000000000;
   16083333333333334 # 10000000000000000000; 6805555555555556 # 10000000000000000000]%Q.
Definition Lr (t : R) : R := 280.46646 + 36000.76983 * t + 0.0003032 * (t * t).
Definition Mr (t : R) : R := 357.52772 + 35999.05034 * t - 0.0001603 * (t * t) - t * t * t / 300000.
Definition C1 (t : R) : R := 1.914602 - 0.004817 * t - 0.000014 * (t * t).
Definition C2 (t : R) : R := 0.019993 - 0.000101 * t.
Definition Cr (t : R) : R := C1 t * sin (rad (Mr t)) + C2 t * sin (rad (2 * Mr t)) + 0.00029 * sin (rad (3 * Mr t)).

Lemma rad_turn x k : rad (x + 360 * IZR k) = rad x + 2 * PI * IZR k.
Proof. unfold rad. field. Qed.
Lemma sin_turn_d x k : sin (rad (x + 360 * IZR k)) = sin (rad x).
Proof. rewrite rad_turn. apply sin_turn. Qed.
Lemma cos_turn_d x k : cos (rad (x + 360 * IZR k)) = cos (rad x).
Proof. rewrite rad_turn. apply cos_turn. Qed.
Ltac q2r := repeat first [rewrite Q2R_plus | rewrite Q2R_mult | rewrite Q2R_lit | rewrite RMicromega.Q2R_0].
Lemma Lb_R t : Q2R (pe t Lb) = Lr (Q2R t).
Proof. unfold Lb. rewrite !pe_cons. unfold pe. cbn [poly]. q2r. unfold Lr. lra. Qed.
Lemma Mb_R t : Q2R (pe t Mb) = Mr (Q2R t).
Proof. unfold Mb. rewrite !pe_cons. unfold pe. cbn [poly]. q2r. unfold Mr. lra. Qed.
Lemma apx_litc rnd n d : Nearest rnd -> apx (lit rnd n d) (IZR n / IZR (Zpos d)) (IZR (Z.abs n) / IZR (Zpos d)) (IZR (Z.abs n) / IZR (Zpos d) * u).
Proof.
  intro N. apply apx_lit; [exact N|]. rewrite abs_IZR. unfold Rdiv. rewrite Rabs_mult, (Rabs_right (/ IZR (Zpos d))); [lra|].
  left. apply Rinv_0_lt_compat. apply IZR_lt. lia.
Qed.

Section Sun.
Variable rnd : Q -> Q.
Hypothesis N : Nearest rnd.
Variable lm : libm.
Hypothesis A : accurate lm.

Ltac coeffs := repeat (apply Forall2_cons; [first [apply close_refl | apply (close_rnd rnd N); reflexivity]|]); apply Forall2_nil.
Ltac apxs := repeat first
  [ eassumption
  | match goal with
    | |- apx (lit _ _ _) _ _ _ => apply (apx_litc rnd _ _ N)
    | |- apx (fadd _ _ _) _ _ _ => eapply (apx_add rnd N)
    | |- apx (fsub _ _ _) _ _ _ => eapply (apx_sub rnd N)
    | |- apx (fmul _ _ _) _ _ _ => eapply (apx_mul rnd N)
    | |- apx (fdiv _ _ _) _ _ _ => eapply (apx_divc rnd N)
    | |- apx (sq _ _) _ _ _ => eapply (apx_sq rnd N)
    | |- apx (sin_deg _ _ _) _ _ _ => eapply (apx_sin rnd N lm A)
    | |- apx (cos_deg _ _ _) _ _ _ => eapply (apx_cos rnd N lm A)
    end ].
Ltac nums := cbn [Z.abs]; unfold u; lra.

Lemma mean_longitude_R t : (Qabs t <= TX)%Q ->
  exists k, apx (sun_mean_longitude rnd t) (Lr (Q2R t) + 360 * IZR k) 361.1 (2 / 100000000) /\ 0 <= Q2R (sun_mean_longitude rnd t) <= 360.0001.
Proof.
  intro H. unfold sun_mean_longitude.
  match goal with |- context [poly rnd t ?l] => assert (F : Forall2 close l Lb) by (unfold lit; coeffs) end.
  pose proof (apx_poly rnd N t TX _ _ (1 # 100000000) H F ltac:(vm_compute; discriminate)) as P. rewrite Lb_R, Q2R_lit in P.
  destruct (apx_cot rnd N _ _ _ _ P) as [k [B C]]. exists k. split; [|exact C]. eapply apx_weaken; [exact B|lra|lra].
Qed.
Lemma mean_anomaly_R t : (Qabs t <= TX)%Q ->
  exists k, apx (sun_earth_mean_anomaly rnd t) (Mr (Q2R t) + 360 * IZR k) 361.1 (2 / 100000000) /\ 0 <= Q2R (sun_earth_mean_anomaly rnd t) <= 360.0001.
Proof.
  intro H. unfold sun_earth_mean_anomaly.
  match goal with |- context [poly rnd t ?l] => assert (F : Forall2 close l Mb) by (unfold lit, fdiv; coeffs) end.
  pose proof (apx_poly rnd N t TX _ _ (1 # 100000000) H F ltac:(vm_compute; discriminate)) as P. rewrite Mb_R, Q2R_lit in P.
  destruct (apx_cot rnd N _ _ _ _ P) as [k [B C]]. exists k. split; [|exact C]. eapply apx_weaken; [exact B|lra|lra].
Qed.
Lemma t_R t : (Qabs t <= TX)%Q -> apx t (Q2R t) 20.7 0.
Proof. intro H. apply apx_exact. apply Qabs_R in H. unfold TX in H. rewrite Q2R_lit in H. lra. Qed.

Lemma center_R t : (Qabs t <= TX)%Q -> apx (sun_equation_of_center rnd lm t) (Cr (Q2R t)) 2.1 (1 / 100000).
Proof.
  intro H. pose proof (t_R t H) as T. destruct (mean_anomaly_R t H) as [k [M _]]. unfold sun_equation_of_center. cbv zeta.
  set (m := sun_earth_mean_anomaly rnd t) in *.
  assert (S1 : apx (sin_deg rnd lm m) (sin (rad (Mr (Q2R t)))) 1 (1 / 1000000)).
  { eapply apx_eq; [eapply apx_weaken; [apxs|lra|nums]|apply sin_turn_d]. }
  assert (S2 : apx (sin_deg rnd lm (fmul rnd 2 m)) (sin (rad (2 * Mr (Q2R t)))) 1 (1 / 500000)).
  { eapply apx_eq; [eapply apx_weaken; [eapply (apx_sin rnd N lm A), (apx_mul rnd N); [apply (apx_const 2 1 2); rewrite Rabs_right; lra|exact M]|lra|nums]|].
    replace (2 / 1 * (Mr (Q2R t) + 360 * IZR k)) with (2 * Mr (Q2R t) + 360 * IZR (2 * k)) by (rewrite mult_IZR; lra). apply sin_turn_d. }
  assert (S3 : apx (sin_deg rnd lm (fmul rnd 3 m)) (sin (rad (3 * Mr (Q2R t)))) 1 (1 / 200000)).
  { eapply apx_eq; [eapply apx_weaken; [eapply (apx_sin rnd N lm A), (apx_mul rnd N); [apply (apx_const 3 1 3); rewrite Rabs_right; lra|exact M]|lra|nums]|].
    replace (3 / 1 * (Mr (Q2R t) + 360 * IZR k)) with (3 * Mr (Q2R t) + 360 * IZR (3 * k)) by (rewrite mult_IZR; lra). apply sin_turn_d. }
  generalize dependent (sin_deg rnd lm m). intros s1 S1. generalize dependent (sin_deg rnd lm (fmul rnd 2 m)). intros s2 S2.
  generalize dependent (sin_deg rnd lm (fmul rnd 3 m)). intros s3 S3.
  assert (K1 : apx (fsub rnd (fsub rnd (lit rnd 1914602 1000000) (fmul rnd (lit rnd 4817 1000000) t)) (fmul rnd (lit rnd 14 1000000) (sq rnd t))) (C1 (Q2R t)) 2.03 (1 / 10000000)).
  { eapply apx_eq; [eapply apx_weaken; [apxs|nums|nums]|]. unfold C1. lra. }
  assert (K2 : apx (fsub rnd (lit rnd 19993 1000000) (fmul rnd (lit rnd 101 1000000) t)) (C2 (Q2R t)) 0.0222 (1 / 10000000)).
  { eapply apx_eq; [eapply apx_weaken; [apxs|nums|nums]|]. unfold C2. lra. }
  eapply apx_eq; [eapply apx_weaken; [apxs|nums|nums]|]. unfold Cr. lra.
Qed.

Lemma node_R t : (Qabs t <= TX)%Q -> apx (moon_ascending_node_longitude rnd t) (Q2R (moon_ascending_node_longitude rnd t)) 361 0.
Proof.
  intro H. apply apx_exact. unfold moon_ascending_node_longitude.
  match goal with |- context [poly rnd t ?l] => destruct (coterminal_R rnd N (poly rnd t l)) as [k [B C]] end. apply Rabs_le_iff. lra.
Qed.
Lemma apparent_longitude_R t : (Qabs t <= TX)%Q ->
  exists (l : R) (k : Z), apx (sun_apparent_longitude rnd lm t) (l + 360 * IZR k) 363.3 (1 / 50000) /\
    Rabs (l - (Lr (Q2R t) + Cr (Q2R t) - 0.00569)) <= 0.00478.
Proof.
  intro H. destruct (mean_longitude_R t H) as [k [L _]]. pose proof (center_R t H) as C. pose proof (node_R t H) as O.
  set (o := Q2R (moon_ascending_node_longitude rnd t)) in *.
  exists (Lr (Q2R t) + Cr (Q2R t) - 0.00569 - 0.00478 * sin (rad o)), k. split.
  - unfold sun_apparent_longitude, sun_true_longitude. eapply apx_eq; [eapply apx_weaken; [apxs|nums|nums]|]. lra.
  - replace (_ - _) with (- (0.00478 * sin (rad o))) by lra. rewrite Rabs_Ropp, Rabs_mult, (Rabs_right 0.00478) by lra. pose proof (sin_1 (rad o)). lra.
Qed.
End Sun.
