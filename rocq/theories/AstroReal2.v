(** AstroReal2.v -- the angle constants and the right ascension as a function of longitude and obliquity. *)
From Coq Require Import Reals Lra Lia ZArith.
From Verif Require Import AstroReal.
Local Open Scope R_scope.

Lemma rad_mono a b : a <= b -> rad a <= rad b.
Proof. intro H. unfold rad. apply Rmult_le_compat_r; [pose proof PI_bounds; lra|exact H]. Qed.
Lemma rad_0 : rad 0 = 0. Proof. unfold rad. ring. Qed.
Lemma rad_180 : rad 180 = PI. Proof. unfold rad. field. Qed.
Lemma rad_90 : rad 90 = PI / 2. Proof. unfold rad. field. Qed.
Lemma sin_value x l u : 0 <= x <= 60 -> 
  (forall a, x * 0.0174532922 <= a <= x * 0.0174532928 -> l <= a - a ^ 3 / 6 + a ^ 5 / 120 - a ^ 7 / 5040 /\ a - a ^ 3 / 6 + a ^ 5 / 120 <= u) ->
  l <= sin (rad x) <= u.
Proof.
  intros Hx H. pose proof PI_bounds.
  assert (A : x * 0.0174532922 <= rad x <= x * 0.0174532928) by (unfold rad; split; apply Rmult_le_compat_l; lra).
  pose proof (sin_taylor (rad x) ltac:(lra)). specialize (H _ A). lra.
Qed.
Lemma pow_range a l u n : 0 <= l -> l <= a <= u -> l ^ n <= a ^ n <= u ^ n.
Proof. intros P [A B]. split; apply pow_incr; lra. Qed.
Ltac value := intros a [Ha1 Ha2];
  match type of Ha1 with ?l <= _ => match type of Ha2 with _ <= ?u =>
    assert (L0 : 0 <= l) by lra;
    pose proof (pow_range a l u 3 L0 (conj Ha1 Ha2)); pose proof (pow_range a l u 5 L0 (conj Ha1 Ha2));
    pose proof (pow_range a l u 7 L0 (conj Ha1 Ha2)) end end; cbn [pow] in *; lra.
Lemma sin_2373 : 0.4024 <= sin (rad 23.73) <= 0.4025.
Proof. apply sin_value; [lra|value]. Qed.
Lemma sin_248 : 0.419 <= sin (rad 24.8) <= 0.42.
Proof. apply sin_value; [lra|value]. Qed.
Lemma sin_276 : 0.463 <= sin (rad 27.6) <= 0.464.
Proof. apply sin_value; [lra|value]. Qed.
Lemma sin_08333 : 0.0145 <= sin (rad 0.8333) <= 0.01455.
Proof. apply sin_value; [lra|value]. Qed.

Lemma cos_sq x : cos x * cos x = 1 - sin x * sin x.
Proof. pose proof (sin2_cos2 x) as H. unfold Rsqr in H. lra. Qed.
Lemma cos_from_sin x s c : - (PI / 2) <= x <= PI / 2 -> Rabs (sin x) <= s -> 0 <= c -> c * c + s * s <= 1 -> c <= cos x.
Proof.
  intros H A C E. pose proof (cos_ge_0 x ltac:(lra) ltac:(lra)) as P. pose proof (cos_sq x) as Q. pose proof (Rsq_abs _ _ A) as B.
  destruct (Rle_dec c (cos x)) as [|N]; [assumption|]. nra.
Qed.
Lemma obl_range e : 0 <= e <= 23.73 -> 0 <= sin (rad e) <= 0.4025 /\ 0.9154 <= cos (rad e) <= 1.
Proof.
  intros H. pose proof PI_bounds. assert (R0 : 0 <= rad e) by (rewrite <- rad_0; apply rad_mono; lra).
  assert (R1 : rad e <= rad 23.73) by (apply rad_mono; lra). assert (R2 : rad 23.73 <= PI / 2) by (rewrite <- rad_90; apply rad_mono; lra).
  assert (S0 : 0 <= sin (rad e)) by (apply sin_ge_0; lra).
  assert (S1 : sin (rad e) <= sin (rad 23.73)) by (apply sin_incr_1; lra).
  pose proof sin_2373. split; [lra|]. split; [|apply COS_bound].
  apply (cos_from_sin _ 0.4025); [lra|rewrite Rabs_right; lra|lra|lra].
Qed.
Lemma lat_range e : -45 <= e <= 45 -> Rabs (sin (rad e)) <= cos (rad e) /\ 0.707 <= cos (rad e) <= 1.
Proof.
  intros H. pose proof PI_bounds.
  assert (R0 : rad (-45) <= rad e) by (apply rad_mono; lra). assert (R1 : rad e <= rad 45) by (apply rad_mono; lra).
  replace (-45) with (- (45)) in R0 by lra. rewrite rad_opp in R0. assert (E : rad 45 = PI / 4) by (unfold rad; field). rewrite E in *.
  assert (A : Rabs (sin (rad e)) <= cos (PI / 4)).
  { rewrite <- sin_cos_PI4. apply Rabs_le_iff. split; [rewrite <- sin_neg; apply sin_incr_1; lra|apply sin_incr_1; lra]. }
  assert (B : cos (PI / 4) <= cos (rad e)).
  { destruct (Rle_dec 0 (rad e)); [apply cos_decr_1; lra|]. rewrite <- (cos_neg (rad e)). apply cos_decr_1; lra. }
  assert (C : 0.707 <= cos (PI / 4)).
  { pose proof (cos_sq (PI / 4)) as Q. rewrite sin_cos_PI4 in Q. pose proof (cos_ge_0 (PI / 4) ltac:(lra) ltac:(lra)).
    destruct (Rle_dec 0.707 (cos (PI / 4))); [assumption|nra]. }
  split; [lra|]. split; [lra|apply COS_bound].
Qed.
Lemma sin_38 : 0.6156 <= sin (rad 38) <= 0.6157.
Proof. apply sin_value; [lra|value]. Qed.
Lemma sin_52 : 0.7878 <= sin (rad 52) <= 0.7885.
Proof. apply sin_value; [lra|value]. Qed.
Lemma lat_range52 e : -52 <= e <= 52 -> Rabs (sin (rad e)) <= 0.7885 /\ 0.6156 <= cos (rad e) <= 1 /\ Rabs (sin (rad e)) <= 1.281 * cos (rad e).
Proof.
  intros H. pose proof PI_bounds.
  assert (R0 : rad (-52) <= rad e) by (apply rad_mono; lra). assert (R1 : rad e <= rad 52) by (apply rad_mono; lra).
  replace (-52) with (- (52)) in R0 by lra. rewrite rad_opp in R0. assert (R2 : 0 <= rad 52 <= PI / 2) by (unfold rad; lra).
  pose proof sin_52 as S. pose proof sin_38 as C.
  assert (E : cos (rad 52) = sin (rad 38)) by (rewrite <- sin_shift; f_equal; unfold rad; lra).
  assert (A : Rabs (sin (rad e)) <= sin (rad 52)).
  { apply Rabs_le_iff. split; [rewrite <- sin_neg; apply sin_incr_1; lra|apply sin_incr_1; lra]. }
  assert (B : cos (rad 52) <= cos (rad e)).
  { destruct (Rle_dec 0 (rad e)); [apply cos_decr_1; lra|]. rewrite <- (cos_neg (rad e)). apply cos_decr_1; lra. }
  split; [lra|]. split; [split; [lra|apply COS_bound]|lra].
Qed.
Lemma sin_327 : 0.5395 <= sin (rad 32.7) <= 0.541.
Proof. apply sin_value; [lra|value]. Qed.
Lemma sin_363 : 0.5915 <= sin (rad 36.3) <= 0.593.
Proof. apply sin_value; [lra|value]. Qed.
(** the hour angle from its cosine *)
Lemma hour_range52 h : 0 <= h <= PI -> -0.5915 <= cos h <= 0.5395 -> rad 57.3 <= h <= rad 126.3.
Proof.
  intros H C. pose proof PI_bounds. 
  assert (E1 : cos (rad 57.3) = sin (rad 32.7)) by (rewrite <- sin_shift; f_equal; unfold rad; lra).
  assert (E2 : cos (rad 126.3) = - sin (rad 36.3)).
  { rewrite <- sin_neg. rewrite <- sin_shift. f_equal. unfold rad. lra. }
  pose proof sin_327. pose proof sin_363.
  assert (R1 : 0 <= rad 57.3 <= PI) by (unfold rad; lra). assert (R2 : 0 <= rad 126.3 <= PI) by (unfold rad; lra).
  split.
  - destruct (Rle_dec (rad 57.3) h) as [|N]; [assumption|]. pose proof (cos_decreasing_1 h (rad 57.3) ltac:(lra) ltac:(lra) ltac:(lra) ltac:(lra) ltac:(lra)). lra.
  - destruct (Rle_dec h (rad 126.3)) as [|N]; [assumption|]. pose proof (cos_decreasing_1 (rad 126.3) h ltac:(lra) ltac:(lra) ltac:(lra) ltac:(lra) ltac:(lra)). lra.
Qed.
Lemma hour_range h : 0 <= h <= PI -> -0.463 <= cos h <= 0.419 -> rad 65.2 <= h <= rad 117.6.
Proof.
  intros H C. pose proof PI_bounds. 
  assert (E1 : cos (rad 65.2) = sin (rad 24.8)) by (rewrite <- sin_shift; f_equal; unfold rad; lra).
  assert (E2 : cos (rad 117.6) = - sin (rad 27.6)).
  { rewrite <- sin_neg. rewrite <- sin_shift. f_equal. unfold rad. lra. }
  pose proof sin_248. pose proof sin_276.
  assert (R1 : 0 <= rad 65.2 <= PI) by (unfold rad; lra). assert (R2 : 0 <= rad 117.6 <= PI) by (unfold rad; lra).
  split.
  - destruct (Rle_dec (rad 65.2) h) as [|N]; [assumption|]. pose proof (cos_decreasing_1 h (rad 65.2) ltac:(lra) ltac:(lra) ltac:(lra) ltac:(lra) ltac:(lra)). lra.
  - destruct (Rle_dec h (rad 117.6)) as [|N]; [assumption|]. pose proof (cos_decreasing_1 (rad 117.6) h ltac:(lra) ltac:(lra) ltac:(lra) ltac:(lra) ltac:(lra)). lra.
Qed.

(** ** reduction to the equator *)
Definition yy (c : R) : R := (1 - c) / (1 + c).
Definition ff (c l : R) : R := yy c * sin (2 * l) / (1 + yy c * cos (2 * l)).
(** the right ascension of a body of the ecliptic, c the cosine of the obliquity, l the longitude *)
Definition RA (c l : R) : R := l - atan (ff c l).

Lemma yy_range c : 0.9154 <= c <= 1 -> 0 <= yy c <= 0.0442.
Proof.
  intro H. unfold yy. split.
  - apply Rmult_le_pos; [lra|left; apply Rinv_0_lt_compat; lra].
  - apply (Rmult_le_reg_r (1 + c)); [lra|]. unfold Rdiv. rewrite Rmult_assoc, Rinv_l by lra. lra.
Qed.
Lemma den_range c l : 0.9154 <= c <= 1 -> 0.9558 <= 1 + yy c * cos (2 * l) <= 1.0442.
Proof. intro H. pose proof (yy_range c H). pose proof (COS_bound (2 * l)). nra. Qed.
Lemma ff_small c l : 0.9154 <= c <= 1 -> Rabs (ff c l) <= 0.0463.
Proof.
  intro H. pose proof (yy_range c H). pose proof (den_range c l H). pose proof (SIN_bound (2 * l)). unfold ff.
  set (d := 1 + yy c * cos (2 * l)) in *. set (y := yy c) in *. set (s := sin (2 * l)) in *.
  apply Rabs_le_iff. split; apply (Rmult_le_reg_r d); try lra; unfold Rdiv; rewrite Rmult_assoc, Rinv_l by lra; nra.
Qed.
Lemma RA_near c l : 0.9154 <= c <= 1 -> Rabs (RA c l - l) <= 0.0463.
Proof.
  intro H. unfold RA. replace (l - atan (ff c l) - l) with (- atan (ff c l)) by ring. rewrite Rabs_Ropp.
  eapply Rle_trans; [apply atan_le|apply ff_small, H].
Qed.
(** it is the polar angle of (cos l, c sin l) *)
Lemma RA_polar c l : 0.9154 <= c <= 1 -> exists r, 0.9 <= r /\ cos l = r * cos (RA c l) /\ c * sin l = r * sin (RA c l).
Proof.
  intro H. pose proof (yy_range c H) as Y. pose proof (den_range c l H) as D.
  set (d := 1 + yy c * cos (2 * l)) in *.
  set (a := atan (ff c l)).
  assert (Ca : 0 < cos a) by (pose proof (atan_bound (ff c l)); apply cos_gt_0; unfold a; lra).
  assert (T : sin a = ff c l * cos a).
  { pose proof (atan_right_inv (ff c l)) as E. fold a in E. unfold tan in E. rewrite <- E. field. lra. }
  assert (F : ff c l * d = yy c * sin (2 * l)) by (unfold ff; fold d; field; lra).
  assert (Yc : yy c * (1 + c) = 1 - c) by (unfold yy; field; lra).
  assert (X1 : cos (RA c l) = cos a * (cos l * (1 + yy c)) / d).
  { unfold RA. fold a. rewrite cos_minus, T. apply (Rmult_eq_reg_r d); [|lra]. unfold Rdiv. rewrite (Rmult_assoc _ (/ d)), Rinv_l, Rmult_1_r by lra.
    replace ((cos l * cos a + sin l * (ff c l * cos a)) * d) with (cos a * (cos l * d + sin l * (ff c l * d))) by ring. rewrite F.
    unfold d. rewrite cos_2a_sin, sin_2a. pose proof (cos_sq l) as Q.
    replace (cos l * (1 + yy c * (1 - 2 * sin l * sin l)) + sin l * (yy c * (2 * sin l * cos l))) with (cos l * (1 + yy c)) by ring. reflexivity. }
  assert (X2 : sin (RA c l) = cos a * (sin l * (1 - yy c)) / d).
  { unfold RA. fold a. rewrite sin_minus, T. apply (Rmult_eq_reg_r d); [|lra]. unfold Rdiv. rewrite (Rmult_assoc _ (/ d)), Rinv_l, Rmult_1_r by lra.
    replace ((sin l * cos a - cos l * (ff c l * cos a)) * d) with (cos a * (sin l * d - cos l * (ff c l * d))) by ring. rewrite F.
    unfold d. rewrite cos_2a_cos, sin_2a. 
    replace (sin l * (1 + yy c * (2 * cos l * cos l - 1)) - cos l * (yy c * (2 * sin l * cos l))) with (sin l * (1 - yy c)) by ring. reflexivity. }
  exists (d / (cos a * (1 + yy c))).
  assert (P : 0 < cos a * (1 + yy c)) by (apply Rmult_lt_0_compat; lra).
  split; [|split].
  - apply (Rmult_le_reg_r (cos a * (1 + yy c))); [exact P|]. unfold Rdiv. rewrite Rmult_assoc, Rinv_l by lra. pose proof (COS_bound a). nra.
  - rewrite X1. field. split; lra.
  - rewrite X2. replace (c * sin l) with (sin l * ((1 - yy c) / (1 + yy c))); [field; split; lra|].
    rewrite (Rmult_comm c). f_equal. apply (Rmult_eq_reg_r (1 + yy c)); [|lra]. unfold Rdiv. rewrite Rmult_assoc, Rinv_l, Rmult_1_r by lra. lra.
Qed.
(** how it moves *)
Lemma ff_lip c l l' : 0.9154 <= c <= 1 -> Rabs (ff c l' - ff c l) <= 0.1011 * Rabs (l' - l).
Proof.
  intro H. pose proof (yy_range c H) as Y. pose proof (den_range c l H) as D. pose proof (den_range c l' H) as D'. unfold ff.
  set (y := yy c) in *. 
  assert (E : y * sin (2 * l') / (1 + y * cos (2 * l')) - y * sin (2 * l) / (1 + y * cos (2 * l)) =
              y * ((sin (2 * l') - sin (2 * l)) + y * sin (2 * l' - 2 * l)) / ((1 + y * cos (2 * l')) * (1 + y * cos (2 * l)))).
  { rewrite sin_minus. field. split; lra. }
  rewrite E. set (d := 1 + y * cos (2 * l)) in *. set (d' := 1 + y * cos (2 * l')) in *.
  assert (A : Rabs (sin (2 * l') - sin (2 * l)) <= 2 * Rabs (l' - l)).
  { eapply Rle_trans; [apply sin_lip|]. replace (2 * l' - 2 * l) with (2 * (l' - l)) by ring. rewrite Rabs_mult, (Rabs_right 2) by lra. lra. }
  assert (B : Rabs (sin (2 * l' - 2 * l)) <= 2 * Rabs (l' - l)).
  { eapply Rle_trans; [apply sin_le|]. replace (2 * l' - 2 * l) with (2 * (l' - l)) by ring. rewrite Rabs_mult, (Rabs_right 2) by lra. lra. }
  set (z := Rabs (l' - l)) in *. assert (Z0 : 0 <= z) by apply Rabs_pos. set (s := sin (2 * l') - sin (2 * l)) in *. set (t := sin (2 * l' - 2 * l)) in *.
  apply Rabs_le_iff in A. apply Rabs_le_iff in B.
  assert (DD : 0.9135 <= d' * d) by nra.
  assert (N1 : Rabs (y * (s + y * t)) <= 0.0923095 * z).
  { rewrite Rabs_mult, (Rabs_right y) by lra.
    assert (W : Rabs (s + y * t) <= 2 * 1.0442 * z) by (apply Rabs_le_iff; split; nra).
    pose proof (Rabs_pos (s + y * t)). apply Rle_trans with (0.0442 * (2 * 1.0442 * z)); [apply Rmult_le_compat; lra|]. lra. }
  unfold Rdiv. rewrite Rabs_mult, (Rabs_right (/ (d' * d))) by (apply Rle_ge; left; apply Rinv_0_lt_compat; lra).
  apply (Rmult_le_reg_r (d' * d)); [lra|]. rewrite Rmult_assoc, Rinv_l by lra. rewrite Rmult_1_r.
  apply Rle_trans with (0.0923095 * z); [exact N1|]. assert (0.1011 * z * 0.9135 <= 0.1011 * z * (d' * d)) by (apply Rmult_le_compat_l; lra). lra.
Qed.
Lemma ff_lip_c c c' l : 0.9154 <= c <= 1 -> 0.9154 <= c' <= 1 -> Rabs (ff c' l - ff c l) <= 0.6 * Rabs (c' - c).
Proof.
  intros H H'. pose proof (den_range c l H) as D. pose proof (den_range c' l H') as D'. unfold ff.
  assert (E : yy c' * sin (2 * l) / (1 + yy c' * cos (2 * l)) - yy c * sin (2 * l) / (1 + yy c * cos (2 * l)) =
              sin (2 * l) * (yy c' - yy c) / ((1 + yy c' * cos (2 * l)) * (1 + yy c * cos (2 * l)))) by (field; split; lra).
  rewrite E. set (d := 1 + yy c * cos (2 * l)) in *. set (d' := 1 + yy c' * cos (2 * l)) in *.
  assert (G : yy c' - yy c = 2 * (c - c') / ((1 + c) * (1 + c'))) by (unfold yy; field; split; lra).
  assert (K : Rabs (yy c' - yy c) <= 0.5452 * Rabs (c' - c)).
  { rewrite G. unfold Rdiv. rewrite !Rabs_mult, (Rabs_right 2), (Rabs_minus_sym c), (Rabs_right (/ ((1 + c) * (1 + c')))) by (try lra; apply Rle_ge; left; apply Rinv_0_lt_compat; nra).
    apply (Rmult_le_reg_r ((1 + c) * (1 + c'))); [nra|]. rewrite Rmult_assoc, Rinv_l by nra. rewrite Rmult_1_r. pose proof (Rabs_pos (c' - c)).
    assert (3.6687 <= (1 + c) * (1 + c')) by nra. nra. }
  pose proof (sin_1 (2 * l)) as S. assert (DD : 0.9135 <= d' * d) by nra.
  unfold Rdiv. rewrite !Rabs_mult, (Rabs_right (/ (d' * d))) by (apply Rle_ge; left; apply Rinv_0_lt_compat; lra).
  apply (Rmult_le_reg_r (d' * d)); [lra|]. rewrite Rmult_assoc, Rinv_l by lra. rewrite Rmult_1_r.
  pose proof (Rabs_pos (c' - c)). pose proof (Rabs_pos (yy c' - yy c)). pose proof (Rabs_pos (sin (2 * l))).
  apply Rle_trans with (1 * (0.5452 * Rabs (c' - c))); [apply Rmult_le_compat; lra|]. nra.
Qed.
Lemma RA_move c c' l l' : 0.9154 <= c <= 1 -> 0.9154 <= c' <= 1 ->
  Rabs ((RA c' l' - RA c l) - (l' - l)) <= 0.1011 * Rabs (l' - l) + 0.6 * Rabs (c' - c).
Proof.
  intros H H'. unfold RA. replace (l' - atan (ff c' l') - (l - atan (ff c l)) - (l' - l)) with (- (atan (ff c' l') - atan (ff c l))) by ring.
  rewrite Rabs_Ropp. eapply Rle_trans; [apply atan_lip|].
  replace (ff c' l' - ff c l) with ((ff c l' - ff c l) + (ff c' l' - ff c l')) by ring.
  eapply Rle_trans; [apply Rabs_triang|]. pose proof (ff_lip c l l' H). pose proof (ff_lip_c c c' l' H H'). lra.
Qed.

(** ** polar angles *)
Lemma turn_range x : exists k : Z, - PI < x + 2 * PI * IZR k <= PI.
Proof.
  pose proof PI_bounds as P. destruct (archimed ((PI - x) / (2 * PI))) as [A B].
  exists (up ((PI - x) / (2 * PI)) - 1)%Z. rewrite minus_IZR.
  set (u := IZR (up ((PI - x) / (2 * PI)))) in *.
  assert (E : (PI - x) / (2 * PI) * (2 * PI) = PI - x) by (field; lra).
  assert (A' : (PI - x) / (2 * PI) * (2 * PI) < u * (2 * PI)) by (apply Rmult_lt_compat_r; lra).
  assert (B' : (u - (PI - x) / (2 * PI)) * (2 * PI) <= 1 * (2 * PI)) by (apply Rmult_le_compat_r; lra).
  rewrite Rmult_minus_distr_r, E in B'. split; nra.
Qed.
Lemma sin_turn x k : sin (x + 2 * PI * IZR k) = sin x.
Proof.
  destruct (Z_le_gt_dec 0 k) as [H|H].
  - rewrite <- (Z2Nat.id k H), <- INR_IZR_INZ. replace (2 * PI * INR (Z.to_nat k)) with (2 * INR (Z.to_nat k) * PI) by ring. apply sin_period.
  - rewrite <- (sin_period (x + 2 * PI * IZR k) (Z.to_nat (- k))). f_equal. rewrite INR_IZR_INZ, Z2Nat.id by lia. rewrite opp_IZR. ring.
Qed.
Lemma cos_turn x k : cos (x + 2 * PI * IZR k) = cos x.
Proof.
  destruct (Z_le_gt_dec 0 k) as [H|H].
  - rewrite <- (Z2Nat.id k H), <- INR_IZR_INZ. replace (2 * PI * INR (Z.to_nat k)) with (2 * INR (Z.to_nat k) * PI) by ring. apply cos_period.
  - rewrite <- (cos_period (x + 2 * PI * IZR k) (Z.to_nat (- k))). f_equal. rewrite INR_IZR_INZ, Z2Nat.id by lia. rewrite opp_IZR. ring.
Qed.
(** a point near r (cos a, sin a) has a polar angle near a *)
Lemma polar_near x y r a e : 0.9 <= r -> 0 <= e <= 0.01 -> Rabs (x - r * cos a) <= e -> Rabs (y - r * sin a) <= e ->
  exists rho t, 0 < rho /\ x = rho * cos t /\ y = rho * sin t /\ - PI < t <= PI /\ exists k : Z, Rabs (t - (a + 2 * PI * IZR k)) <= 3 * e.
Proof.
  intros Hr He Hx Hy. apply Rabs_le_iff in Hx. apply Rabs_le_iff in Hy.
  set (p := x - r * cos a) in *. set (q := y - r * sin a) in *.
  assert (Ex : x = r * cos a + p) by (unfold p; ring). assert (Ey : y = r * sin a + q) by (unfold q; ring).
  pose proof (cos_sq a) as Q. pose proof (COS_bound a) as CB. pose proof (SIN_bound a) as SB.
  set (u := x * cos a + y * sin a). set (v := y * cos a - x * sin a).
  assert (Eu : u = r + (p * cos a + q * sin a)) by (unfold u; rewrite Ex, Ey; replace ((r * cos a + p) * cos a + (r * sin a + q) * sin a) with (r * (cos a * cos a + sin a * sin a) + (p * cos a + q * sin a)) by ring; rewrite Q; ring).
  assert (Ev : v = q * cos a - p * sin a) by (unfold v; rewrite Ex, Ey; ring).
  assert (U : 0.88 <= u) by nra. assert (V : Rabs v <= 2 * e) by (apply Rabs_le_iff; nra).
  set (f := atan (v / u)). assert (Cf : 0 < cos f) by (pose proof (atan_bound (v / u)); apply cos_gt_0; unfold f; lra).
  assert (T : sin f = v / u * cos f).
  { pose proof (atan_right_inv (v / u)) as E. fold f in E. unfold tan in E. rewrite <- E. field. lra. }
  assert (F : Rabs f <= 3 * e).
  { unfold f. eapply Rle_trans; [apply atan_le|]. unfold Rdiv. rewrite Rabs_mult, (Rabs_right (/ u)) by (apply Rle_ge; left; apply Rinv_0_lt_compat; lra).
    apply (Rmult_le_reg_r u); [lra|]. rewrite Rmult_assoc, Rinv_l by lra. nra. }
  destruct (turn_range (a + f)) as [k K].
  exists (u / cos f), (a + f + 2 * PI * IZR k). split; [apply Rdiv_lt_0_compat; lra|].
  assert (Xa : x = u * cos a - v * sin a) by (unfold u, v; replace ((x * cos a + y * sin a) * cos a - (y * cos a - x * sin a) * sin a) with (x * (cos a * cos a + sin a * sin a)) by ring; rewrite Q; ring). assert (Ya : y = u * sin a + v * cos a) by (unfold u, v; replace ((x * cos a + y * sin a) * sin a + (y * cos a - x * sin a) * cos a) with (y * (cos a * cos a + sin a * sin a)) by ring; rewrite Q; ring).
  split; [rewrite cos_turn, cos_plus, T, Xa; field; lra|]. split; [rewrite sin_turn, sin_plus, T, Ya; field; lra|]. split; [exact K|].
  exists k. replace (a + f + 2 * PI * IZR k - (a + 2 * PI * IZR k)) with f by ring. exact F.
Qed.
