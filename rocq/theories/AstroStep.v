(** AstroStep.v -- one correction of the moment of sunrise or sunset, in the reals (proof support). *)
From Coq Require Import Reals Lra Lia ZArith.
From Verif Require Import AstroReal AstroReal2 AstroRA AstroMove.
Local Open Scope R_scope.

(** the sine of the altitude at latitude p, declination d and hour angle h, all in degrees *)
Definition FF (p d h : R) : R := sin (rad p) * sin (rad d) + cos (rad p) * cos (rad d) * cos (rad h).

Lemma cauchy p q c s : p * p + q * q <= 1 -> c * c + s * s = 1 -> Rabs (p * c - q * s) <= 1.
Proof.
  intros H E. assert (K : (p * c - q * s) * (p * c - q * s) <= 1).
  { assert ((p * c - q * s) * (p * c - q * s) + (p * s + q * c) * (p * s + q * c) = (p * p + q * q) * (c * c + s * s)) by ring.
    rewrite E in H0. pose proof (Rle_0_sqr (p * s + q * c)) as Z. unfold Rsqr in Z. lra. }
  apply Rabs_le_iff. split; nra.
Qed.
Lemma FF_lip_d p d d' h : Rabs (FF p d' h - FF p d h) <= Rabs (rad d' - rad d).
Proof.
  unfold FF. set (P := sin (rad p)). set (Q := cos (rad p) * cos (rad h)).
  assert (B : P * P + Q * Q <= 1).
  { unfold P, Q. pose proof (cos_sq (rad p)) as E. pose proof (cos_sq (rad h)) as E2. pose proof (Rle_0_sqr (sin (rad h))) as S. pose proof (Rle_0_sqr (cos (rad p))) as S2. unfold Rsqr in *.
    replace (cos (rad p) * cos (rad h) * (cos (rad p) * cos (rad h))) with ((cos (rad p) * cos (rad p)) * (cos (rad h) * cos (rad h))) by ring.
    rewrite E2. assert (0 <= (cos (rad p) * cos (rad p)) * (sin (rad h) * sin (rad h))) by (apply Rmult_le_pos; assumption). lra. }
  replace (P * sin (rad d') + cos (rad p) * cos (rad d') * cos (rad h) - (P * sin (rad d) + cos (rad p) * cos (rad d) * cos (rad h)))
    with ((P * sin (rad d') + Q * cos (rad d')) - (P * sin (rad d) + Q * cos (rad d))) by (unfold Q; ring).
  rewrite <- (Rmult_1_l (Rabs (rad d' - rad d))).
  apply (lip1 (fun x => P * sin x + Q * cos x) (fun x => P * cos x - Q * sin x)).
  - intro x. replace (P * cos x - Q * sin x) with (P * cos x + Q * - sin x) by ring.
    apply (derivable_pt_lim_plus (fun x => P * sin x) (fun x => Q * cos x)); [apply (derivable_pt_lim_scal sin), derivable_pt_lim_sin|apply (derivable_pt_lim_scal cos), derivable_pt_lim_cos].
  - intro x. apply cauchy; [exact B|]. pose proof (cos_sq x). lra.
Qed.
Lemma B_range p d : -52 <= p <= 52 -> Rabs d <= 24.16 -> 0.5614 <= cos (rad p) * cos (rad d) <= 1.
Proof.
  intros H D. destruct (lat_range52 p H) as [_ [L _]]. pose proof (cos_2416 d D) as C. pose proof (COS_bound (rad d)) as C1.
  split; [eapply Rle_trans; [|apply (Rmult_le_compat 0.6156 _ 0.912 _); lra]; lra|].
  replace 1 with (1 * 1) by ring. apply Rmult_le_compat; lra.
Qed.
Lemma FF_lip_h p d h h' : Rabs (FF p d h' - FF p d h) <= Rabs (rad h' - rad h).
Proof.
  unfold FF. replace (_ - _) with (cos (rad p) * cos (rad d) * (cos (rad h') - cos (rad h))) by ring. rewrite !Rabs_mult.
  pose proof (cos_lip (rad h) (rad h')) as L. pose proof (cos_1 (rad p)) as A. pose proof (cos_1 (rad d)) as B.
  rewrite <- (Rmult_1_l (Rabs (rad h' - rad h))). apply Rmult_le_compat; auto using Rabs_pos.
  - apply Rmult_le_pos; apply Rabs_pos.
  - replace 1 with (1 * 1) by ring. apply Rmult_le_compat; auto using Rabs_pos.
Qed.
Lemma FF_step p d h x : -52 <= p <= 52 -> Rabs d <= 24.16 -> Rabs (rad x) <= 1 ->
  Rabs (FF p d (h + x) - FF p d h + cos (rad p) * cos (rad d) * sin (rad h) * rad x) <= rad x * rad x.
Proof.
  intros H D X. pose proof (B_range p d H D) as B. unfold FF. rewrite rad_plus. pose proof (cos_step (rad h) (rad x) X) as S.
  replace (_ + _) with (cos (rad p) * cos (rad d) * (cos (rad h + rad x) - cos (rad h) + rad x * sin (rad h))) by ring.
  rewrite Rabs_mult, (Rabs_right (cos (rad p) * cos (rad d))) by lra.
  rewrite <- (Rmult_1_l (rad x * rad x)). apply Rmult_le_compat; try lra. apply Rabs_pos.
Qed.

Definition OO : R := 0.8333.
Lemma newton p d h dm alt G : -52 <= p <= 52 -> Rabs d <= 24.16 -> 0.762 <= Rabs (sin (rad h)) ->
  Rabs (sin (rad alt) - FF p d h) <= 0.000005 -> Rabs alt <= 2 ->
  Rabs (FF p d h + sin (rad OO)) <= G -> G <= 0.0169 ->
  Rabs (dm * (360 * cos (rad d) * cos (rad p) * sin (rad h)) - (alt + OO)) <= 0.0005 ->
  Rabs dm <= 0.3727 * G + 0.000006 /\
  Rabs (FF p d (h + 360 * dm) + sin (rad OO)) <= 0.00102 * G + 0.000015 + 39.48 * (dm * dm).
Proof.
  intros HP HD HS HA HL HG G0 HM. pose proof (B_range p d HP HD) as B. pose proof PI_bounds as PB.
  set (bb := cos (rad p) * cos (rad d)) in *. set (sh := sin (rad h)) in *. set (f := FF p d h) in *.
  assert (GP : 0 <= G) by (eapply Rle_trans; [apply Rabs_pos|exact HG]).
  destruct (sin_mvt_deg (- OO) alt 2 0.999 ltac:(lra) ltac:(unfold OO; apply Rabs_le_iff; lra) HL cos_2) as [w [W1 W2]].
  rewrite rad_opp, sin_neg in W1.
  set (y := rad alt - - rad OO) in *. assert (Ey : y = rad (alt + OO)) by (unfold y; rewrite rad_plus; ring).
  assert (G1 : Rabs (w * y) <= G + 0.000005).
  { rewrite <- W1. apply Rabs_le_iff in HA. apply Rabs_le_iff in HG. apply Rabs_le_iff. lra. }
  rewrite Rabs_mult, (Rabs_right w) in G1 by lra. pose proof (Rabs_pos y) as Y0.
  assert (G2 : 0.999 * Rabs y <= G + 0.000005) by (eapply Rle_trans; [apply Rmult_le_compat_r; [exact Y0|apply W2]|exact G1]).
  set (z := bb * sh * rad (360 * dm)).
  assert (Ez : Rabs (z - y) <= 0.0000088).
  { replace (z - y) with (rad (dm * (360 * cos (rad d) * cos (rad p) * sh) - (alt + OO))) by (rewrite Ey; unfold z, bb, rad; ring).
    eapply Rle_trans; [apply rad_abs, HM|lra]. }
  assert (Z1 : Rabs z <= 1.0011 * G + 0.0000139) by (apply Rabs_le_iff in Ez; assert (Y3 : Rabs y <= 1.0011 * G + 0.0000051) by lra; apply Rabs_le_iff in Y3; apply Rabs_le_iff; lra).
  assert (K : 0.4277 <= bb * Rabs sh) by (eapply Rle_trans; [|apply (Rmult_le_compat 0.5614 bb 0.762); lra]; lra).
  assert (DM : 0.4277 * (6.2831852 * Rabs dm) <= Rabs z).
  { unfold z. rewrite !Rabs_mult, (Rabs_right bb), Rabs_rad, Rabs_mult, (Rabs_right 360) by lra.
    apply Rmult_le_compat; try lra. { pose proof (Rabs_pos dm). lra. }
    replace (360 * Rabs dm * (PI / 180)) with (2 * PI * Rabs dm) by lra. apply Rmult_le_compat_r; [apply Rabs_pos|lra]. }
  assert (D1 : Rabs dm <= 0.3727 * G + 0.000006) by lra. split; [exact D1|].
  assert (D2 : Rabs dm <= 0.0065) by lra.
  assert (X1 : Rabs (rad (360 * dm)) <= 1).
  { eapply Rle_trans; [apply (rad_abs _ 3)|lra]. rewrite Rabs_mult, (Rabs_right 360) by lra. lra. }
  pose proof (FF_step p d h (360 * dm) HP HD X1) as S. fold f bb sh in S. fold z in S.
  assert (Q1 : rad (360 * dm) * rad (360 * dm) <= 39.48 * (dm * dm)).
  { unfold rad. replace (360 * dm * (PI / 180) * (360 * dm * (PI / 180))) with (4 * (PI * PI) * (dm * dm)) by field.
    apply Rmult_le_compat_r; [pose proof (Rle_0_sqr dm) as Z2; exact Z2|]. assert (PI * PI <= 3.1415927 * 3.1415927) by (apply Rmult_le_compat; lra). lra. }
  assert (V : Rabs (y - (sin (rad alt) - - sin (rad OO))) <= 0.00101 * (G + 0.000005)).
  { rewrite W1. replace (y - w * y) with ((1 - w) * y) by ring. rewrite Rabs_mult, (Rabs_right (1 - w)) by lra.
    assert ((1 - w) * Rabs y <= 0.001 * Rabs y) by (apply Rmult_le_compat_r; lra). lra. }
  apply Rabs_le_iff in S. apply Rabs_le_iff in V. apply Rabs_le_iff in Ez. apply Rabs_le_iff in HA. apply Rabs_le_iff. lra.
Qed.

(** ** the sky of one day *)
Section Day.
Variables p a b da db d1 m0 be sg h0 : R.
Hypothesis HP : -52 <= p <= 52.
Hypothesis HAB : 0.8277 <= a <= 1.143 /\ 0.8277 <= b <= 1.143.
Hypothesis HD : Rabs da <= 0.468 /\ Rabs db <= 0.468 /\ Rabs d1 <= 23.75.
Hypothesis HM : Rabs (m0 - 0.5) <= 0.0145.
Hypothesis HB : Rabs be <= 0.413.
Hypothesis HS : sg = 1 \/ sg = -1.
Hypothesis HH : 57.29 <= h0 <= 126.31 /\ Rabs (cos (rad h0)) <= 0.5916.
Hypothesis H0 : Rabs (FF p d1 h0 + sin (rad OO)) <= 0.00002.

Definition al (n : R) : R := n / 2 * (a + b + n * (b - a)).
Definition de (n : R) : R := d1 + n / 2 * (da + db + n * (db - da)).
Definition hh (m n : R) : R := 360 * (m - m0) + 0.98564736629 * m + be - al n.
Definition m1 : R := m0 + sg * h0 / 360.
Definition ok (m n : R) (r : R) : Prop := Rabs (m - m1) <= r /\ Rabs (n - m) <= 0.00001.

Lemma m1_range : 0.134 <= m1 <= 0.866.
Proof. unfold m1. apply Rabs_le_iff in HM. destruct HS as [->| ->]; lra. Qed.
Lemma n_range m n : ok m n 0.0071 -> 0.126 <= n <= 0.874.
Proof. intros [A B]. pose proof m1_range. apply Rabs_le_iff in A. apply Rabs_le_iff in B. lra. Qed.
Lemma mul_range x l u n : 0 <= n -> l <= x <= u -> n * l <= n * x <= n * u.
Proof. intros. split; apply Rmult_le_compat_l; lra. Qed.
Lemma al_range n : 0 <= n <= 1 -> n * 0.8277 <= al n <= n * 1.143.
Proof.
  intro H. unfold al. destruct HAB as [A B].
  replace (n / 2 * (a + b + n * (b - a))) with (n * (((1 - n) * a + (1 + n) * b) / 2)) by lra.
  apply mul_range; [lra|]. pose proof (mul_range a _ _ (1 - n) ltac:(lra) A). pose proof (mul_range b _ _ (1 + n) ltac:(lra) B). lra.
Qed.
Lemma de_near n : 0 <= n <= 1 -> Rabs (de n - d1) <= n * 0.468.
Proof.
  intro H. unfold de. destruct HD as [A [B _]]. apply Rabs_le_iff in A. apply Rabs_le_iff in B.
  replace (d1 + n / 2 * (da + db + n * (db - da)) - d1) with (n * (((1 - n) * da + (1 + n) * db) / 2)) by lra.
  pose proof (mul_range da _ _ (1 - n) ltac:(lra) A). pose proof (mul_range db _ _ (1 + n) ltac:(lra) B).
  assert (C : -0.468 <= ((1 - n) * da + (1 + n) * db) / 2 <= 0.468) by lra. pose proof (mul_range _ _ _ n ltac:(lra) C). apply Rabs_le_iff. lra.
Qed.
Lemma de_range n : 0 <= n <= 0.874 -> Rabs (de n) <= 24.16.
Proof.
  intro H. pose proof (de_near n ltac:(lra)) as D. destruct HD as [_ [_ E]]. apply Rabs_le_iff in D. apply Rabs_le_iff in E. apply Rabs_le_iff. lra.
Qed.
Lemma hh_near m n r : r <= 0.0071 -> ok m n r -> Rabs (hh m n - sg * h0) <= 360 * r + 0.5515.
Proof.
  intros R K. assert (K' : ok m n 0.0071) by (destruct K; split; lra). pose proof (n_range m n K') as NR. destruct K as [K1 K2].
  pose proof (al_range n ltac:(lra)) as AR. apply Rabs_le_iff in K1. apply Rabs_le_iff in K2. pose proof HB as HB'. apply Rabs_le_iff in HB'.
  unfold hh, m1 in *. apply Rabs_le_iff. lra.
Qed.
Lemma sin_hh m n : ok m n 0.0071 -> 0.762 <= Rabs (sin (rad (hh m n))).
Proof.
  intro K. pose proof (hh_near m n 0.0071 ltac:(lra) K) as H. assert (H2 : Rabs (hh m n - sg * h0) <= 3.1076) by lra.
  pose proof (cos_lip (rad (sg * h0)) (rad (hh m n))) as L. rewrite <- rad_minus in L. pose proof (rad_abs _ _ H2) as R.
  assert (C : cos (rad (sg * h0)) = cos (rad h0)).
  { destruct HS as [->| ->]; [rewrite Rmult_1_l; reflexivity|]. replace (-1 * h0) with (- h0) by ring. rewrite rad_opp. apply cos_neg. }
  rewrite C in L. destruct HH as [_ HC]. assert (B : Rabs (cos (rad (hh m n))) <= 0.6460).
  { apply Rabs_le_iff in HC. assert (L2 : Rabs (cos (rad (hh m n)) - cos (rad h0)) <= 0.0543) by lra. apply Rabs_le_iff in L2. apply Rabs_le_iff. lra. }
  apply Rsq_abs in B. pose proof (cos_sq (rad (hh m n))) as E. set (s := sin (rad (hh m n))) in *.
  assert (S2 : 0.5826 <= s * s) by lra. assert (S3 : s * s = Rabs s * Rabs s) by (rewrite <- Rabs_mult; symmetry; apply Rabs_right; lra).
  pose proof (Rabs_pos s). destruct (Rle_dec 0.762 (Rabs s)) as [|NN]; [assumption|]. assert (Rabs s * Rabs s <= 0.762 * 0.762) by (apply Rmult_le_compat; lra). lra.
Qed.
(** the first guess is within a degree of the horizon *)
Lemma start m n : ok m n 0.000001 -> Rabs (FF p (de n) (hh m n) + sin (rad OO)) <= 0.0169.
Proof.
  intro K. assert (K' : ok m n 0.0071) by (destruct K; split; lra). pose proof (n_range m n K') as NR.
  pose proof (hh_near m n 0.000001 ltac:(lra) K) as H. pose proof (de_near n ltac:(lra)) as D.
  pose proof (FF_lip_d p d1 (de n) (hh m n)) as F1. pose proof (FF_lip_h p d1 (sg * h0) (hh m n)) as F2. rewrite <- rad_minus in F1, F2.
  assert (C : FF p d1 (sg * h0) = FF p d1 h0).
  { unfold FF. destruct HS as [->| ->]; [rewrite Rmult_1_l; reflexivity|]. replace (-1 * h0) with (- h0) by ring. rewrite rad_opp, cos_neg. reflexivity. }
  rewrite C in F2. pose proof (rad_abs _ _ H) as R1. pose proof (rad_abs _ _ D) as R2.
  assert (F1' : Rabs (FF p (de n) (hh m n) - FF p d1 (hh m n)) <= 0.00715) by lra.
  assert (F2' : Rabs (FF p d1 (hh m n) - FF p d1 h0) <= 0.00964) by lra.
  apply Rabs_le_iff in F1'. apply Rabs_le_iff in F2'. pose proof H0 as Z. apply Rabs_le_iff in Z. apply Rabs_le_iff. lra.
Qed.
Lemma follow m n dm m' n' r r' D : ok m n r -> ok m' n' r' -> r <= 0.0071 -> r' <= 0.0071 -> Rabs dm <= D -> D <= 0.0065 -> Rabs (m' - (m + dm)) <= 0.000000001 ->
  Rabs (FF p (de n') (hh m' n') - FF p (de n) (hh m n + 360 * dm)) <= 0.0193 * D + 0.000002.
Proof.
  intros K K' R R' DM DD ME. assert (D0 : 0 <= D) by (eapply Rle_trans; [apply Rabs_pos|exact DM]).
  assert (K1 : ok m n 0.0071) by (destruct K; split; lra). assert (K1' : ok m' n' 0.0071) by (destruct K'; split; lra).
  pose proof (n_range _ _ K1) as NR. pose proof (n_range _ _ K1') as NR'. destruct K as [_ E]. destruct K' as [_ E'].
  apply Rabs_le_iff in E. apply Rabs_le_iff in E'. apply Rabs_le_iff in DM. apply Rabs_le_iff in ME.
  destruct HD as [A [B _]]. apply Rabs_le_iff in A. apply Rabs_le_iff in B.
  set (x := n' - n). assert (X : - (D + 0.00003) <= x <= D + 0.00003) by (unfold x; lra). set (q := n' + n). assert (Qr : 0.25 <= q <= 1.75) by (unfold q; lra).
  assert (D1 : Rabs (de n' - de n) <= 0.82 * (D + 0.00003)).
  { replace (de n' - de n) with (x * (((1 - q) * da + (1 + q) * db) / 2)) by (unfold de, x, q; field).
    rewrite Rabs_mult, Rmult_comm. apply Rmult_le_compat; try apply Rabs_pos; [|apply Rabs_le_iff; lra].
    assert (U1 : Rabs ((1 - q) * da) <= 0.75 * 0.468) by (rewrite Rabs_mult; apply Rmult_le_compat; try apply Rabs_pos; apply Rabs_le_iff; lra).
    assert (U2 : Rabs ((1 + q) * db) <= 2.75 * 0.468) by (rewrite Rabs_mult; apply Rmult_le_compat; try apply Rabs_pos; apply Rabs_le_iff; lra).
    apply Rabs_le_iff in U1. apply Rabs_le_iff in U2. apply Rabs_le_iff. lra. }
  assert (Hd : Rabs (hh m' n' - (hh m n + 360 * dm)) <= 0.2766 * D + 0.00003).
  { destruct HAB as [HA' HB'].
    replace (hh m' n' - (hh m n + 360 * dm)) with (360 * (m' - (m + dm)) + 0.98564736629 * ((m' - m) - x) + x * (((1 - q) * (0.98564736629 - a) + (1 + q) * (0.98564736629 - b)) / 2)) by (unfold hh, al, x, q; lra).
    assert (U1 : Rabs ((1 - q) * (0.98564736629 - a)) <= 0.75 * 0.158) by (rewrite Rabs_mult; apply Rmult_le_compat; try apply Rabs_pos; apply Rabs_le_iff; lra).
    assert (U2 : Rabs ((1 + q) * (0.98564736629 - b)) <= 2.75 * 0.158) by (rewrite Rabs_mult; apply Rmult_le_compat; try apply Rabs_pos; apply Rabs_le_iff; lra).
    assert (U3 : Rabs (x * (((1 - q) * (0.98564736629 - a) + (1 + q) * (0.98564736629 - b)) / 2)) <= (D + 0.00003) * 0.2766).
    { rewrite Rabs_mult. apply Rmult_le_compat; try apply Rabs_pos; [apply Rabs_le_iff; lra|]. apply Rabs_le_iff in U1. apply Rabs_le_iff in U2. apply Rabs_le_iff. lra. }
    apply Rabs_le_iff in U3. unfold x in *. apply Rabs_le_iff. lra. }
  pose proof (FF_lip_d p (de n) (de n') (hh m' n')) as F1. pose proof (FF_lip_h p (de n) (hh m n + 360 * dm) (hh m' n')) as F2. rewrite <- rad_minus in F1, F2.
  pose proof (rad_abs _ _ D1) as R1. pose proof (rad_abs _ _ Hd) as R2.
  assert (F1' : Rabs (FF p (de n') (hh m' n') - FF p (de n) (hh m' n')) <= 0.01432 * D + 0.0000005) by lra.
  assert (F2' : Rabs (FF p (de n) (hh m' n') - FF p (de n) (hh m n + 360 * dm)) <= 0.00484 * D + 0.0000006) by lra.
  apply Rabs_le_iff in F1'. apply Rabs_le_iff in F2'. apply Rabs_le_iff. lra.
Qed.
(** one correction: the moment moves by at most [0.2871 G]; the error left is small when it moves little *)
Definition left_over (G D : R) : R := 0.00102 * G + 0.00002 + 39.48 * (D * D) + 0.0193 * D.
Lemma correction m n dm alt G r r' m' n' : ok m n r -> r <= 0.0071 ->
  Rabs (FF p (de n) (hh m n) + sin (rad OO)) <= G -> G <= 0.0169 ->
  Rabs (sin (rad alt) - FF p (de n) (hh m n)) <= 0.000005 -> Rabs alt <= 2 ->
  Rabs (dm * (360 * cos (rad (de n)) * cos (rad p) * sin (rad (hh m n))) - (alt + OO)) <= 0.0005 ->
  Rabs (m' - (m + dm)) <= 0.000000001 -> Rabs (n' - m') <= 0.00001 -> r + 0.3727 * G + 0.000007 <= r' -> r' <= 0.0071 ->
  ok m' n' r' /\ Rabs dm <= 0.3727 * G + 0.000006 /\
  forall D, Rabs dm <= D -> D <= 0.0065 -> Rabs (FF p (de n') (hh m' n') + sin (rad OO)) <= left_over G D.
Proof.
  intros K R HG G0 HA HL HDM ME NE RR RR'. assert (K1 : ok m n 0.0071) by (destruct K; split; lra). pose proof (n_range _ _ K1) as NR.
  destruct (newton p (de n) (hh m n) dm alt G HP (de_range n ltac:(lra)) (sin_hh m n K1) HA HL HG G0 HDM) as [D E].
  assert (GP : 0 <= G) by (eapply Rle_trans; [apply Rabs_pos|exact HG]).
  assert (K' : ok m' n' r').
  { destruct K as [K _]. split; [|exact NE]. apply Rabs_le_iff in K. apply Rabs_le_iff in ME. apply Rabs_le_iff in D. apply Rabs_le_iff. lra. }
  split; [exact K'|]. split; [exact D|]. intros B DB B5.
  pose proof (follow m n dm m' n' r r' B K K' R RR' DB B5 ME) as F. apply Rsq_abs in DB. unfold left_over.
  apply Rabs_le_iff in F. apply Rabs_le_iff in E. apply Rabs_le_iff. lra.
Qed.
End Day.
