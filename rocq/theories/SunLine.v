(** SunLine.v -- the sun's longitude, obliquity and sidereal time of SpecSun.v over a day (proof support). *)
From Coq Require Import ZArith QArith Qabs Qreals Lqa Reals Lra Lia List Bool.
From Verif Require Import Base Flt QUtil BaseModel BaseProofs AstroModel SpecAstro SpecSun AstroReal AstroReal2 AstroFlt AstroApx AstroSun AstroNut AstroRA AstroMove AstroRise SunReal.
Import ListNotations.
Local Open Scope R_scope.

Lemma sun_lon_eq t : sun_lon t = Lr t + Cr t - 0.00569.
Proof. reflexivity. Qed.
Lemma sidereal_eq t : sidereal t = Th t.
Proof. reflexivity. Qed.

Lemma sin_step h s : Rabs s <= 1 -> Rabs (sin (h + s) - sin h - s * cos h) <= s * s.
Proof.
  intro H. pose proof (cos_step (h - PI / 2) s H) as C.
  replace (h - PI / 2 + s) with ((h + s) - PI / 2) in C by ring.
  rewrite !cos_minus, sin_minus, cos_PI2, sin_PI2 in C. 
  replace (sin (h + s) - sin h - s * cos h) with (cos (h + s) * 0 + sin (h + s) * 1 - (cos h * 0 + sin h * 1) + s * (sin h * 0 - cos h * 1)) by ring. exact C.
Qed.

(** over two days the longitude runs along a straight line, to within 0.0007 degrees *)
Definition mm : R := 35999.05034 / 36525.
Definition slope (t : R) : R := 36000.76983 / 36525 + rad mm * (C1 t * cos (rad (Mr t)) + 2 * C2 t * cos (rad (2 * Mr t)) + 3 * 0.00029 * cos (rad (3 * Mr t))).
Lemma rad_mm : 0.0172 <= rad mm <= 0.01721.
Proof. pose proof PI_bounds. unfold rad, mm. split; lra. Qed.
Lemma slope_range t : Rabs t <= 20.6 -> 0.94 <= slope t <= 1.0222.
Proof.
  intro H. pose proof rad_mm as M. unfold slope. set (k := rad mm) in *.
  pose proof (C1_abs t ltac:(lra)) as A1. pose proof (C2_abs t ltac:(lra)) as A2.
  assert (B1 : Rabs (C1 t * cos (rad (Mr t))) <= 2.0205 * 1) by (rewrite Rabs_mult; apply Rmult_le_compat; auto using Rabs_pos, cos_1).
  assert (B2 : Rabs (C2 t * cos (rad (2 * Mr t))) <= 0.0221 * 1) by (rewrite Rabs_mult; apply Rmult_le_compat; auto using Rabs_pos, cos_1).
  pose proof (COS_bound (rad (3 * Mr t))) as B3. apply Rabs_le_iff in B1. apply Rabs_le_iff in B2.
  match goal with |- _ <= _ + k * ?e <= _ => assert (E : Rabs e <= 2.0656) by (apply Rabs_le_iff; lra); set (z := e) in * end.
  assert (F : Rabs (k * z) <= 0.01721 * 2.0656) by (rewrite Rabs_mult, (Rabs_right k) by lra; apply Rmult_le_compat; try lra; apply Rabs_pos).
  apply Rabs_le_iff in F. lra.
Qed.
Lemma M_line t x : Rabs t <= 20.6 -> Rabs x <= 1.0001 -> Rabs (Mr (t + x / 36525) - Mr t - mm * x) <= 0.0000004.
Proof.
  intros H X. apply Rabs_le_iff in H. apply Rabs_le_iff in X. set (h := x / 36525). assert (Hh : - 0.00002739 <= h <= 0.00002739) by (unfold h; lra).
  replace (Mr (t + h) - Mr t - mm * x) with (- h * (0.0001603 * (2 * t + h) + (3 * (t * t) + 3 * t * h + h * h) / 300000)) by (unfold Mr, mm, h; field).
  assert (T2 : 0 <= t * t <= 20.6 * 20.6) by (split; nra). assert (H2 : 0 <= h * h <= 0.001) by (split; nra).
  assert (TH : Rabs (t * h) <= 20.6 * 0.00002739) by (rewrite Rabs_mult; apply Rmult_le_compat; try apply Rabs_pos; apply Rabs_le_iff; lra).
  apply Rabs_le_iff in TH. rewrite Rabs_mult, Rabs_Ropp.
  apply Rle_trans with (0.00002739 * 0.011); [|lra]. apply Rmult_le_compat; try apply Rabs_pos; apply Rabs_le_iff; lra.
Qed.
Lemma sin_line (k : R) t x : 1 <= k <= 3 -> Rabs t <= 20.6 -> Rabs x <= 1.0001 ->
  Rabs (sin (rad (k * Mr (t + x / 36525))) - sin (rad (k * Mr t)) - rad mm * x * k * cos (rad (k * Mr t))) <= 0.0002963 * (k * k) + 0.00000001 * k.
Proof.
  intros K H X. pose proof (M_line t x H X) as M. set (M1 := Mr (t + x / 36525)) in *. set (M0 := Mr t) in *. pose proof rad_mm as R.
  set (s := rad (k * M1) - rad (k * M0)). replace (rad (k * M1)) with (rad (k * M0) + s) by (unfold s; ring).
  assert (S : Rabs (s - rad mm * x * k) <= 0.00000001 * k).
  { replace (s - rad mm * x * k) with (k * rad (M1 - M0 - mm * x)) by (unfold s, rad; ring). rewrite Rabs_mult, (Rabs_right k) by lra. pose proof (rad_abs _ _ M) as RM. rewrite Rmult_comm. apply Rmult_le_compat_r; lra. }
  assert (S1 : Rabs (rad mm * x * k) <= 0.01721 * 1.0001 * k).
  { rewrite !Rabs_mult, (Rabs_right k), (Rabs_right (rad mm)) by lra. apply Rmult_le_compat_r; [lra|]. pose proof (Rabs_pos x). apply Rmult_le_compat; lra. }
  assert (S2 : Rabs s <= 0.0172118 * k) by (apply Rabs_le_iff in S; apply Rabs_le_iff in S1; apply Rabs_le_iff; lra).
  pose proof (sin_step (rad (k * M0)) s ltac:(lra)) as T. pose proof (Rsq_abs _ _ S2) as Q.
  assert (Q' : s * s <= 0.0002963 * (k * k)) by (assert (0 <= k * k) by nra; lra).
  assert (W : Rabs ((s - rad mm * x * k) * cos (rad (k * M0))) <= 0.00000001 * k * 1) by (rewrite Rabs_mult; apply Rmult_le_compat; auto using Rabs_pos, cos_1).
  apply Rabs_le_iff in T. apply Rabs_le_iff in W. apply Rabs_le_iff. lra.
Qed.
Lemma lon_line t x : Rabs t <= 20.6 -> Rabs x <= 1.0001 -> Rabs (sun_lon (t + x / 36525) - (sun_lon t + slope t * x)) <= 0.0007.
Proof.
  intros H X. rewrite !sun_lon_eq. pose proof (sin_line 1 t x ltac:(lra) H X) as S1. pose proof (sin_line 2 t x ltac:(lra) H X) as S2. pose proof (sin_line 3 t x ltac:(lra) H X) as S3.
  rewrite !Rmult_1_l in S1. unfold Cr, slope.
  pose proof (C1_abs t ltac:(lra)) as A1. pose proof (C2_abs t ltac:(lra)) as A2. pose proof H as H'. pose proof X as X'. apply Rabs_le_iff in H'. apply Rabs_le_iff in X'.
  set (h := x / 36525) in *. assert (Hh : - 0.00002739 <= h <= 0.00002739) by (unfold h; lra).
  set (a := sin (rad (Mr (t + h)))) in *. set (b := sin (rad (2 * Mr (t + h)))) in *. set (c := sin (rad (3 * Mr (t + h)))) in *.
  assert (TH : Rabs (h * (2 * t + h)) <= 0.00002739 * 41.3) by (rewrite Rabs_mult; apply Rmult_le_compat; try apply Rabs_pos; apply Rabs_le_iff; lra).
  assert (L : Rabs (Lr (t + h) - Lr t - 36000.76983 / 36525 * x) <= 0.0000004).
  { replace (_ - _ - _) with (0.0003032 * (h * (2 * t + h))) by (unfold Lr, h; field). apply Rabs_le_iff in TH. apply Rabs_le_iff. lra. }
  assert (D1 : Rabs ((C1 (t + h) - C1 t) * a) <= 0.0000002 * 1).
  { rewrite Rabs_mult. apply Rmult_le_compat; try apply Rabs_pos; [|apply sin_1]. replace (C1 (t + h) - C1 t) with (- 0.004817 * h - 0.000014 * (h * (2 * t + h))) by (unfold C1; lra). apply Rabs_le_iff in TH. apply Rabs_le_iff. lra. }
  assert (D2 : Rabs ((C2 (t + h) - C2 t) * b) <= 0.0000001 * 1).
  { rewrite Rabs_mult. apply Rmult_le_compat; try apply Rabs_pos; [|apply sin_1]. replace (C2 (t + h) - C2 t) with (- 0.000101 * h) by (unfold C2; lra). apply Rabs_le_iff. lra. }
  assert (P1 : Rabs (C1 t * (a - sin (rad (Mr t)) - rad mm * x * 1 * cos (rad (Mr t)))) <= 2.0205 * (0.0002963 * (1 * 1) + 0.00000001 * 1)) by (rewrite Rabs_mult; apply Rmult_le_compat; auto using Rabs_pos; lra).
  assert (P2 : Rabs (C2 t * (b - sin (rad (2 * Mr t)) - rad mm * x * 2 * cos (rad (2 * Mr t)))) <= 0.0221 * (0.0002963 * (2 * 2) + 0.00000001 * 2)) by (rewrite Rabs_mult; apply Rmult_le_compat; auto using Rabs_pos).
  apply Rabs_le_iff in L. apply Rabs_le_iff in D1. apply Rabs_le_iff in D2. apply Rabs_le_iff in P1. apply Rabs_le_iff in P2. apply Rabs_le_iff in S3. apply Rabs_le_iff. lra.
Qed.

(** the obliquity *)
Definition E3 : list Q := [84381448 # 3600000; (-46815) # 36000; (-59) # 36000; 18130 # 36000]%Q.
Lemma E3_R t : Q2R (pe (t * (1 # 100)) E3) = obliquity (Q2R t).
Proof. unfold E3. rewrite !pe_cons. unfold pe. cbn [poly]. q2r. unfold obliquity. lra. Qed.
Fixpoint zdiff (a b : list Q) : list Q := match a, b with x :: a', y :: b' => (x - y)%Q :: zdiff a' b' | _, [] => a | [], _ => map Qopp b end.
Lemma pe_zdiff x a b : (length b <= length a)%nat -> (pe x a - pe x b == pe x (zdiff a b))%Q.
Proof.
  revert b. induction a as [|c a IH]; intros [|d b] H; cbn [length zdiff] in *; try lia; rewrite ?pe_cons.
  - unfold pe. cbn [poly]. reflexivity.
  - unfold pe at 2. cbn [poly]. ring.
  - rewrite <- (IH b) by lia. ring.
Qed.
Lemma obliquity_near t : (Qabs t <= TX)%Q -> Rabs (Q2R (Pe t) - obliquity (Q2R t)) <= 0.0006.
Proof.
  intro H. assert (U : (Qabs (t * (1 # 100)) <= 207 # 1000)%Q) by (apply (mul_le t (1 # 100) TX (1 # 100)) ; [exact H|discriminate]).
  pose proof (pe_abs _ _ (zdiff Eb E3) U) as B. assert (V : (pabs (207 # 1000) (zdiff Eb E3) <= 6 # 10000)%Q) by (vm_compute; discriminate).
  pose proof (pe_zdiff (t * (1 # 100)) Eb E3 ltac:(cbn; lia)) as Z. fold (Pe t) in Z. rewrite <- E3_R.
  assert (W : (Qabs (Pe t - pe (t * (1 # 100)) E3) <= 6 # 10000)%Q) by (rewrite Z; eapply Qle_trans; [exact B|exact V]).
  apply Qabs_R in W. rewrite Q2R_minus, Q2R_lit in W. lra.
Qed.
Lemma obliquity_lip t t' : Rabs t <= 20.7 -> Rabs t' <= 20.7 -> Rabs (obliquity t' - obliquity t) <= 0.014 * Rabs (t' - t).
Proof.
  intros H H'. apply Rabs_le_iff in H. apply Rabs_le_iff in H'.
  apply (Rabs_fact _ _ _ ((- 46.8150 - 0.00059 * (t + t') + 0.001813 * (t * t + t * t' + t' * t')) / 3600)); [unfold obliquity; lra|].
  assert (-1300 <= t * t + t * t' + t' * t' <= 1300) by (split; nra). apply Rabs_le_iff. lra.
Qed.
Lemma obliquity_range t : Rabs t <= 20.7 -> 23.1 <= obliquity t <= 23.73.
Proof.
  intro H. pose proof (obliquity_lip 0 t ltac:(rewrite Rabs_R0; lra) H) as L. rewrite Rminus_0_r in L. assert (0.014 * Rabs t <= 0.014 * 20.7) by lra.
  assert (E : obliquity 0 = 23 + 26 / 60 + 21.448 / 3600) by (unfold obliquity; lra). rewrite E in L. apply Rabs_le_iff in L. lra.
Qed.
(** sidereal time *)
Lemma sidereal_line t x : Rabs t <= 20.6 -> Rabs x <= 1.0001 -> Rabs (sidereal (t + x / 36525) - sidereal t - 360.98564736629 * x) <= 0.000001.
Proof.
  intros H X. apply Rabs_le_iff in H. apply Rabs_le_iff in X. set (h := x / 36525). assert (Hh : - 0.00002739 <= h <= 0.00002739) by (unfold h; lra).
  replace (sidereal (t + h) - sidereal t - 360.98564736629 * x) with (h * (0.000387933 * (2 * t + h) - (3 * (t * t) + 3 * t * h + h * h) / 38710000)) by (unfold sidereal, h; field).
  assert (T2 : 0 <= t * t <= 20.6 * 20.6) by (split; nra). assert (H2 : 0 <= h * h <= 0.001) by (split; nra).
  assert (TH : Rabs (t * h) <= 20.6 * 0.00002739) by (rewrite Rabs_mult; apply Rmult_le_compat; try apply Rabs_pos; apply Rabs_le_iff; lra).
  apply Rabs_le_iff in TH. rewrite Rabs_mult.
  apply Rle_trans with (0.00002739 * 0.017); [|lra]. apply Rmult_le_compat; try apply Rabs_pos; apply Rabs_le_iff; lra.
Qed.
