(** AstroRA.v -- the sun's obliquity, right ascension and declination as computed (proof support). *)
From Coq Require Import ZArith QArith Qabs Qreals Lqa Reals Lra Lia List Bool.
From Verif Require Import Base Flt QUtil BaseModel BaseProofs AstroModel SpecAstro AstroReal AstroReal2 AstroFlt AstroApx AstroSun AstroNut.
Import ListNotations.
Local Open Scope R_scope.

Definition Pe (t : Q) : Q := pe (t * (1 # 100)) Eb.
Definition UX : Q := 2071 # 10000.
Lemma Pe_near t : (Qabs t <= TX)%Q -> Rabs (Q2R (Pe t) - 23.43929) <= 0.2845.
Proof.
  intro H. assert (U : (Qabs (t * (1 # 100)) <= 207 # 1000)%Q) by (apply (mul_le t (1 # 100) TX (1 # 100)) ; [exact H|discriminate]).
  pose proof (pe_lip (t * (1 # 100)) 0 (207 # 1000) Eb U ltac:(discriminate)) as L. fold (Pe t) in L.
  assert (V : (plip (207 # 1000) Eb <= 1374 # 1000)%Q) by (vm_compute; discriminate).
  assert (B : (Qabs (Pe t - pe 0 Eb) <= 28442 # 100000)%Q).
  { eapply Qle_trans; [exact L|]. eapply Qle_trans; [apply Qmult_le_compat_nonneg; split|].
    - vm_compute; discriminate.
    - exact V.
    - apply Qabs_nonneg.
    - setoid_replace (t * (1 # 100) - 0)%Q with (t * (1 # 100))%Q by ring. exact U.
    - vm_compute; discriminate. }
  apply Qabs_R in B. rewrite Q2R_minus, Q2R_lit in B.
  assert (Z0 : (pe 0 Eb == 2343929111111111 # 100000000000000)%Q) by (vm_compute; reflexivity). rewrite (Qeq_eqR _ _ Z0), Q2R_lit in B.
  apply Rabs_le_iff in B. apply Rabs_le_iff. lra.
Qed.
Lemma Pe_lip t t' : (Qabs t <= TX)%Q -> (Qabs t' <= TX)%Q -> Rabs (Q2R (Pe t') - Q2R (Pe t)) <= 0.0138 * Rabs (Q2R t' - Q2R t).
Proof.
  intros H H'. assert (U : (Qabs (t * (1 # 100)) <= 207 # 1000)%Q) by (apply (mul_le t (1 # 100) TX (1 # 100)) ; [exact H|discriminate]).
  assert (U' : (Qabs (t' * (1 # 100)) <= 207 # 1000)%Q) by (apply (mul_le t' (1 # 100) TX (1 # 100)) ; [exact H'|discriminate]).
  pose proof (pe_lip _ _ _ Eb U' U) as L. fold (Pe t) (Pe t') in L.
  assert (V : (plip (207 # 1000) Eb <= 1374 # 1000)%Q) by (vm_compute; discriminate).
  assert (B : (Qabs (Pe t' - Pe t) <= (1374 # 1000) * ((1 # 100) * Qabs (t' - t)))%Q).
  { eapply Qle_trans; [exact L|]. apply Qmult_le_compat_nonneg; split.
    - vm_compute; discriminate.
    - exact V.
    - apply Qabs_nonneg.
    - setoid_replace (t' * (1 # 100) - t * (1 # 100))%Q with ((1 # 100) * (t' - t))%Q by ring. rewrite Qabs_Qmult. apply Qle_refl. }
  apply Qle_Rle in B. rewrite !Q2R_mult, !Q2R_abs, !Q2R_minus, !Q2R_lit in B. pose proof (Rabs_pos (Q2R t' - Q2R t)). lra.
Qed.

(** radians to degrees *)
Definition deg (x : R) : R := x * (180 / PI).
Lemma PI_pos : 0 < PI. Proof. pose proof PI_bounds. lra. Qed.
Lemma rad_deg x : rad (deg x) = x.
Proof. pose proof PI_pos. unfold rad, deg. field. lra. Qed.
Lemma deg_rad x : deg (rad x) = x.
Proof. pose proof PI_pos. unfold rad, deg. field. lra. Qed.
Lemma deg_minus a b : deg (a - b) = deg a - deg b. Proof. unfold deg. ring. Qed.
Lemma deg_plus a b : deg (a + b) = deg a + deg b. Proof. unfold deg. ring. Qed.
Lemma deg_k : 57.29577 <= 180 / PI <= 57.29579.
Proof.
  pose proof PI_bounds as P. split.
  - apply (Rmult_le_reg_r PI); [lra|]. replace (180 / PI * PI) with 180 by (field; lra). lra.
  - apply (Rmult_le_reg_r PI); [lra|]. replace (180 / PI * PI) with 180 by (field; lra). lra.
Qed.
Lemma deg_abs x a : Rabs x <= a -> Rabs (deg x) <= 57.29579 * a.
Proof.
  intro H. unfold deg. rewrite Rabs_mult, (Rabs_right (180 / PI)) by (pose proof deg_k; lra). rewrite Rmult_comm.
  pose proof deg_k. apply Rmult_le_compat; try lra. apply Rabs_pos.
Qed.
Lemma deg_turn k : deg (2 * PI * IZR k) = 360 * IZR k.
Proof. pose proof PI_pos. unfold deg. field. lra. Qed.
Lemma Rabs_rad x : Rabs (rad x) = Rabs x * (PI / 180).
Proof. unfold rad. rewrite Rabs_mult, (Rabs_right (PI / 180)); [reflexivity|]. pose proof PI_pos. lra. Qed.
Lemma Rabs_deg x : Rabs (deg x) = Rabs x * (180 / PI).
Proof. unfold deg. rewrite Rabs_mult, (Rabs_right (180 / PI)); [reflexivity|]. pose proof deg_k. lra. Qed.

(** the right ascension in degrees, from the obliquity and the longitude in degrees *)
Definition RAd (e l : R) : R := deg (RA (cos (rad e)) (rad l)).
Lemma RAd_near e l : 0 <= e <= 23.73 -> Rabs (RAd e l - l) <= 2.6529.
Proof.
  intro H. destruct (obl_range e H) as [_ C]. pose proof (RA_near _ (rad l) C) as R. apply deg_abs in R.
  rewrite deg_minus, deg_rad in R. unfold RAd. lra.
Qed.
Lemma RAd_move e e' l l' : 0 <= e <= 23.73 -> 0 <= e' <= 23.73 ->
  Rabs ((RAd e' l' - RAd e l) - (l' - l)) <= 0.1011 * Rabs (l' - l) + 0.6 * Rabs (e' - e).
Proof.
  intros H H'. destruct (obl_range e H) as [_ C]. destruct (obl_range e' H') as [_ C'].
  pose proof (RA_move _ _ (rad l) (rad l') C C') as M. pose proof (cos_lip (rad e) (rad e')) as L.
  rewrite <- rad_minus in L, M. rewrite Rabs_rad in L.
  replace (RAd e' l' - RAd e l - (l' - l)) with (deg (RA (cos (rad e')) (rad l') - RA (cos (rad e)) (rad l) - rad (l' - l)))
    by (rewrite !deg_minus, deg_rad; reflexivity).
  rewrite Rabs_deg. rewrite Rabs_rad in M. pose proof deg_k as K. pose proof PI_pos as P.
  apply (Rmult_le_compat_r (180 / PI)) in M; [|lra].
  eapply Rle_trans; [exact M|]. apply (Rmult_le_compat_r (180 / PI)) in L; [|lra].
  replace (Rabs (e' - e) * (PI / 180) * (180 / PI)) with (Rabs (e' - e)) in L by (field; lra).
  replace ((0.1011 * (Rabs (l' - l) * (PI / 180)) + 0.6 * Rabs (cos (rad e') - cos (rad e))) * (180 / PI))
    with (0.1011 * (Rabs (l' - l) * ((PI / 180) * (180 / PI))) + 0.6 * (Rabs (cos (rad e') - cos (rad e)) * (180 / PI))) by lra.
  replace ((PI / 180) * (180 / PI)) with 1 by (field; lra). lra.
Qed.

Lemma sin_23745 : 0.4026 <= sin (rad 23.745) <= 0.403.
Proof. apply sin_value; [lra|value]. Qed.
Lemma sin_small_angle th : - (PI / 2) <= th <= PI / 2 -> Rabs (sin th) <= 0.40255 -> Rabs th <= rad 23.745.
Proof.
  intros H S. apply Rabs_le_iff in S. pose proof sin_23745 as V. pose proof PI_bounds as P.
  assert (R1 : 0 <= rad 23.745) by (rewrite <- rad_0; apply rad_mono; lra).
  assert (R2 : rad 23.745 <= PI / 2) by (rewrite <- rad_90; apply rad_mono; lra).
  apply Rabs_le_iff. split.
  - destruct (Rle_dec (- rad 23.745) th) as [|C]; [assumption|]. assert (sin th < sin (- rad 23.745)) by (apply sin_increasing_1; lra). rewrite sin_neg in *. lra.
  - destruct (Rle_dec th (rad 23.745)) as [|C]; [assumption|]. assert (sin (rad 23.745) < sin th) by (apply sin_increasing_1; lra). lra.
Qed.

Section Ra.
Variable rnd : Q -> Q.
Hypothesis N : Nearest rnd.
Variable lm : libm.
Hypothesis A : accurate lm.

Lemma obl_poly_R t : (Qabs t <= TX)%Q -> Rabs (Q2R (poly rnd (fdiv rnd t 100) (OBL rnd)) - Q2R (Pe t)) <= 1 / 10000000.
Proof.
  intro H. assert (U : (Qabs (t * (1 # 100)) <= 207 # 1000)%Q) by (apply (mul_le t (1 # 100) TX (1 # 100)) ; [exact H|discriminate]).
  set (x := fdiv rnd t 100).
  assert (X1 : (Qabs (x - t * (1 # 100)) <= 1 # 1000000000000)%Q).
  { unfold x, fdiv. setoid_replace (rnd (t / 100) - t * (1 # 100))%Q with (rnd (t / 100) - t / 100)%Q by field.
    eapply Qle_trans; [apply (flq rnd N)|]. setoid_replace (t / 100)%Q with (t * (1 # 100))%Q by field. unfold uq. Lqa.lra. }
  assert (X2 : (Qabs x <= UX)%Q).
  { setoid_replace x with (t * (1 # 100) + (x - t * (1 # 100)))%Q by ring. eapply Qle_trans; [apply Qabs_triangle|]. unfold UX. Lqa.lra. }
  assert (F : Forall2 close (OBL rnd) Eb).
  { unfold OBL, Eb, lit. repeat (apply Forall2_cons; [apply (close_rnd rnd N); reflexivity|]). apply Forall2_nil. }
  assert (PE : (perr UX Eb <= 1 # 1000000000)%Q) by (vm_compute; discriminate).
  pose proof (apx_poly rnd N x UX _ _ (1 # 1000000000) X2 F PE) as P. apply proj1 in P.
  assert (U2 : (Qabs (t * (1 # 100)) <= UX)%Q) by (eapply Qle_trans; [exact U|vm_compute; discriminate]).
  pose proof (pe_lip _ _ _ Eb X2 U2) as L. fold (Pe t) in L.
  assert (V : (plip UX Eb <= 2)%Q) by (vm_compute; discriminate).
  assert (B : (Qabs (pe x Eb - Pe t) <= 2 * (1 # 1000000000000))%Q).
  { eapply Qle_trans; [exact L|]. apply Qmult_le_compat_nonneg; split; [vm_compute; discriminate|exact V|apply Qabs_nonneg|exact X1]. }
  apply Qabs_R in B. rewrite Q2R_minus, Q2R_mult, !Q2R_lit in B. rewrite Q2R_lit in P.
  apply Rabs_le_iff in B. apply Rabs_le_iff in P. apply Rabs_le_iff. lra.
Qed.
Lemma true_obl_R t : (Qabs t <= TX)%Q -> Rabs (Q2R (true_obliquity_of_ecliptic rnd lm t) - Q2R (Pe t)) <= 0.0029002.
Proof.
  intro H. pose proof (obl_poly_R t H) as P. pose proof (Pe_near t H) as B. destruct (nutation_le rnd N lm A t H) as [_ O].
  apply Qabs_R in O. rewrite Q2R_lit in O. unfold true_obliquity_of_ecliptic.
  apply Rabs_le_iff in P. apply Rabs_le_iff in B. apply Rabs_le_iff in O.
  pose proof (fadd_R rnd N (poly rnd (fdiv rnd t 100) (OBL rnd)) (nutation_obliquity rnd lm t) 30) as F.
  assert (G : Rabs (Q2R (poly rnd (fdiv rnd t 100) (OBL rnd)) + Q2R (nutation_obliquity rnd lm t)) <= 30) by (apply Rabs_le_iff; lra).
  specialize (F G). apply Rabs_le_iff in F. unfold u in F. apply Rabs_le_iff. lra.
Qed.
Lemma sun_eps_R t : (Qabs t <= TX)%Q -> Rabs (Q2R (sun_eps rnd lm t) - Q2R (Pe t)) <= 0.00547 /\ 23 <= Q2R (sun_eps rnd lm t) <= 23.73.
Proof.
  intro H. pose proof (true_obl_R t H) as P. pose proof (Pe_near t H) as B.
  pose proof (node_R rnd N t H) as O. pose proof (apx_mul rnd N _ _ _ _ _ _ _ _ (apx_litc rnd 256 100000 N) (apx_cos rnd N lm A _ _ _ _ O)) as M.
  apply apx_size in M. cbn [Z.abs] in M.
  assert (M' : Rabs (Q2R (fmul rnd (lit rnd 256 100000) (cos_deg rnd lm (moon_ascending_node_longitude rnd t)))) <= 0.002569) by (eapply Rle_trans; [exact M|unfold u; lra]).
  clear M. unfold sun_eps. apply Rabs_le_iff in P. apply Rabs_le_iff in B. apply Rabs_le_iff in M'.
  match goal with |- context [fadd rnd ?a ?b] => pose proof (fadd_R rnd N a b 30) as F;
    assert (G : Rabs (Q2R a + Q2R b) <= 30) by (apply Rabs_le_iff; lra) end.
  specialize (F G). apply Rabs_le_iff in F. unfold u in F. split; [apply Rabs_le_iff; lra|lra].
Qed.

(** the longitude of the sun on the ecliptic, and what the code makes of it *)
Definition sun_l (t : Q) (l : R) : Prop := Rabs (l - (Lr (Q2R t) + Cr (Q2R t) - 0.00569)) <= 0.00478.
Lemma ra_at t l k : (Qabs t <= TX)%Q -> apx (sun_apparent_longitude rnd lm t) (l + 360 * IZR k) 363.3 (1 / 50000) ->
  (exists k : Z, Rabs (Q2R (sun_apparent_right_ascension rnd lm t) - (RAd (Q2R (sun_eps rnd lm t)) l + 360 * IZR k)) <= 0.0005 /\
     0 <= Q2R (sun_apparent_right_ascension rnd lm t) <= 360.0001) /\
  (exists d, sun_apparent_declination rnd lm t = Ok d /\ 
     Rabs (sin (rad (Q2R d)) - sin (rad (Q2R (sun_eps rnd lm t))) * sin (rad l)) <= 0.000005 /\ Rabs (Q2R d) <= 23.75).
Proof.
  intros H L. destruct (sun_eps_R t H) as [_ ER]. set (e := Q2R (sun_eps rnd lm t)) in *.
  assert (E : apx (sun_eps rnd lm t) e 23.73 0) by (apply apx_exact; fold e; rewrite Rabs_right; lra).
  destruct (obl_range e ltac:(lra)) as [OS OC].
  assert (SE : apx (sin_deg rnd lm (sun_eps rnd lm t)) (sin (rad e)) 0.4025 (1 / 10000000)).
  { destruct (apx_sin rnd N lm A _ _ _ _ E) as [B _]. split; [lra|rewrite Rabs_right; lra]. }
  assert (CE : apx (cos_deg rnd lm (sun_eps rnd lm t)) (cos (rad e)) 1 (1 / 10000000)).
  { destruct (apx_cos rnd N lm A _ _ _ _ E) as [B C]. split; lra. }
  assert (SL : apx (sin_deg rnd lm (sun_apparent_longitude rnd lm t)) (sin (rad l)) 1 0.0000011).
  { eapply apx_eq; [eapply apx_weaken; [apply (apx_sin rnd N lm A _ _ _ _ L)|lra|lra]|apply sin_turn_d]. }
  assert (CL : apx (cos_deg rnd lm (sun_apparent_longitude rnd lm t)) (cos (rad l)) 1 0.0000011).
  { eapply apx_eq; [eapply apx_weaken; [apply (apx_cos rnd N lm A _ _ _ _ L)|lra|lra]|apply cos_turn_d]. }
  split.
  - unfold sun_apparent_right_ascension. cbv zeta.
    pose proof (apx_mul rnd N _ _ _ _ _ _ _ _ CE SL) as Y. set (y := fmul rnd (cos_deg rnd lm (sun_eps rnd lm t)) (sin_deg rnd lm (sun_apparent_longitude rnd lm t))) in *.
    set (x := cos_deg rnd lm (sun_apparent_longitude rnd lm t)) in *.
    destruct (RA_polar _ (rad l) OC) as [r [R0 [R1 R2]]]. destruct Y as [Y _]. destruct CL as [X _]. rewrite R2 in Y. rewrite R1 in X.
    destruct (polar_near (Q2R x) (Q2R y) r (RA (cos (rad e)) (rad l)) 0.0000015 R0 ltac:(lra) ltac:(lra)) as [rho [th [P0 [P1 [P2 [P3 [k2 P4]]]]]]].
    { eapply Rle_trans; [exact Y|unfold u; lra]. }
    pose proof (acc_atan2 lm A y x rho th P0 P1 P2 P3) as T. unfold SpecAstro.near, tol in T. pose proof PI_bounds as PB.
    set (at_ := l_atan2 lm y x) in *. apply Rabs_le_iff in T.
    destruct (degrees_R rnd N at_ ltac:(apply Rabs_le_iff; lra)) as [D1 D2].
    destruct (coterminal_R rnd N (degrees rnd at_)) as [k3 [G1 G2]]. exists (k2 + k3)%Z. split; [|exact G2].
    apply Rabs_le_iff in P4. apply Rabs_le_iff in D1.
    assert (Z : Rabs (rad (Q2R (degrees rnd at_)) - (RA (cos (rad e)) (rad l) + 2 * PI * IZR k2)) <= 0.000005) by (apply Rabs_le_iff; lra).
    apply deg_abs in Z. rewrite deg_minus, deg_plus, deg_turn, deg_rad in Z. fold (RAd e l) in Z. rewrite plus_IZR.
    apply Rabs_le_iff in Z. apply Rabs_le_iff in G1. apply Rabs_le_iff. lra.
  - unfold sun_apparent_declination, asin_e. cbv zeta.
    pose proof (apx_mul rnd N _ _ _ _ _ _ _ _ SE SL) as Y. set (a := fmul rnd (sin_deg rnd lm (sun_eps rnd lm t)) (sin_deg rnd lm (sun_apparent_longitude rnd lm t))) in *.
    assert (Y1 : Rabs (Q2R a) <= 0.40255) by (eapply Rle_trans; [apply (apx_size _ _ _ _ Y)|unfold u; lra]).
    destruct Y as [Y _]. assert (Y2 : Rabs (Q2R a - sin (rad e) * sin (rad l)) <= 0.000002) by (eapply Rle_trans; [exact Y|unfold u; lra]). clear Y.
    assert (Y3 := Y1). apply Rabs_le_iff in Y3.
    assert (B : (Qleb (-1) a && Qleb a 1)%bool = true).
    { apply andb_true_intro. split; apply Qleb_le, Rle_Qle; rewrite Q2R_lit; lra. }
    rewrite B. cbn [bind]. exists (degrees rnd (l_asin lm a)). split; [reflexivity|].
    assert (SA : sin (asin (Q2R a)) = Q2R a) by (apply sin_asin; lra). pose proof (asin_bound (Q2R a)) as AB.
    pose proof (acc_asin lm A a (asin (Q2R a)) (eq_sym SA) ltac:(lra)) as T. unfold SpecAstro.near, tol in T.
    pose proof (sin_small_angle (asin (Q2R a)) ltac:(lra) ltac:(rewrite SA; exact Y1)) as TH.
    set (th := asin (Q2R a)) in *. pose proof PI_bounds as PB. assert (R1 : rad 23.745 <= PI / 2) by (rewrite <- rad_90; apply rad_mono; lra).
    apply Rabs_le_iff in T. apply Rabs_le_iff in TH.
    destruct (degrees_R rnd N (l_asin lm a) ltac:(apply Rabs_le_iff; lra)) as [D1 _]. apply Rabs_le_iff in D1.
    set (d := Q2R (degrees rnd (l_asin lm a))) in *. split.
    + pose proof (sin_lip th (rad d)) as SLp. assert (Z : Rabs (rad d - th) <= 0.000001) by (apply Rabs_le_iff; lra).
      assert (W : Rabs (sin (rad d) - sin th) <= 0.000001) by lra. rewrite SA in W. apply Rabs_le_iff in W. apply Rabs_le_iff in Y2. apply Rabs_le_iff. lra.
    + assert (Z : Rabs (rad d - th) <= 0.000001) by (apply Rabs_le_iff; lra). apply deg_abs in Z. rewrite deg_minus, deg_rad in Z.
      assert (Z2 : Rabs (deg th) <= 23.745).
      { rewrite Rabs_deg. pose proof deg_k. replace 23.745 with (rad 23.745 * (180 / PI)) by (change (deg (rad 23.745) = 23.745); apply deg_rad).
        apply Rmult_le_compat_r; [lra|]. apply Rabs_le_iff. lra. }
      apply Rabs_le_iff in Z. apply Rabs_le_iff in Z2. apply Rabs_le_iff. lra.
Qed.
Lemma ra_R t : (Qabs t <= TX)%Q -> exists l, sun_l t l /\
  (exists k : Z, Rabs (Q2R (sun_apparent_right_ascension rnd lm t) - (RAd (Q2R (sun_eps rnd lm t)) l + 360 * IZR k)) <= 0.0005 /\
     0 <= Q2R (sun_apparent_right_ascension rnd lm t) <= 360.0001) /\
  (exists d, sun_apparent_declination rnd lm t = Ok d /\ 
     Rabs (sin (rad (Q2R d)) - sin (rad (Q2R (sun_eps rnd lm t))) * sin (rad l)) <= 0.000005 /\ Rabs (Q2R d) <= 23.75).
Proof. intro H. destruct (apparent_longitude_R rnd N lm A t H) as [l [k [L S]]]. exists l. split; [exact S|]. exact (ra_at t l k H L). Qed.
End Ra.
