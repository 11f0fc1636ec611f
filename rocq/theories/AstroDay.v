(** AstroDay.v -- sunrise and sunset on two days running (proof support). *)
From Coq Require Import ZArith QArith Qround Qabs Qreals Lqa Reals Lra Lia List Bool.
From Verif Require Import Base Flt QUtil BaseModel BaseProofs AstroModel SpecAstro AstroReal AstroReal2 AstroFlt AstroApx AstroSun AstroNut AstroRA AstroMove AstroStep AstroDt AstroRise AstroRise2 AstroRise3 AstroRise4 AstroRise5.
Import ListNotations.
Local Open Scope R_scope.

(** ** Two days of interpolation *)
(** [B] is the change from the start of a day to the start of the next, [a'] and [b] are the same but for noise *)
Lemma two_days y y' a b a' b' n B c r e : 0 <= n <= 1 -> y' - y = B -> Rabs (b - B) <= e -> Rabs (a' - B) <= e ->
  Rabs (a - c) <= r -> Rabs (b' - c) <= r -> Rabs (B - c) <= r -> 0 <= r -> 0 <= e ->
  Rabs (between3 y' a' b' n - between3 y a b n - c) <= 1.25 * r + 1.125 * e.
Proof.
  intros Hn HY Hb Ha' Ha Hb' HB Hr He. unfold between3.
  set (c1 := n * (1 - n) / 2). set (c2 := n * (1 + n) / 2).
  assert (C1 : 0 <= c1 <= 0.125) by (unfold c1; split; [assert (0 <= n * (1 - n)) by (apply Rmult_le_pos; lra); lra|pose proof (Rle_0_sqr (n - 1 / 2)) as S; unfold Rsqr in S; lra]).
  assert (C2 : 0 <= c2 <= 1) by (unfold c2; assert (0 <= n * (1 + n) <= 1 * 2) by (split; [apply Rmult_le_pos; lra|apply Rmult_le_compat; lra]); lra).
  assert (C3 : 0 <= 1 + c1 - c2 <= 1) by (unfold c1, c2; assert (0 <= n * n <= 1 * 1) by (split; [apply Rmult_le_pos; lra|apply Rmult_le_compat; lra]); lra).
  assert (C4 : (1 + c1 - c2) + c1 + c2 <= 1.25) by lra.
  replace (y' + n / 2 * (a' + b' + n * (b' - a')) - (y + n / 2 * (a + b + n * (b - a))) - c) with
    ((1 + c1 - c2) * (B - c) + c1 * (a' - B) - c2 * (b - B) + c2 * (b' - c) - c1 * (a - c)) by (rewrite <- HY; unfold c1, c2; field).
  assert (M : forall k x X, 0 <= k -> Rabs x <= X -> - (k * X) <= k * x <= k * X).
  { intros k x X K HX. apply Rabs_le_iff in HX. replace (- (k * X)) with (k * - X) by ring. split; apply Rmult_le_compat_l; lra. }
  pose proof (M (1 + c1 - c2) _ _ ltac:(lra) HB). pose proof (M c1 _ _ ltac:(lra) Ha'). pose proof (M c2 _ _ ltac:(lra) Hb).
  pose proof (M c2 _ _ ltac:(lra) Hb'). pose proof (M c1 _ _ ltac:(lra) Ha).
  assert (c1 * e <= 0.125 * e) by (apply Rmult_le_compat_r; lra). assert (c2 * e <= 1 * e) by (apply Rmult_le_compat_r; lra).
  assert (((1 + c1 - c2) + c1 + c2) * r <= 1.25 * r) by (apply Rmult_le_compat_r; lra).
  apply Rabs_le_iff. lra.
Qed.
Lemma between_lip y a b n n' K : 0 <= n <= 1 -> 0 <= n' <= 1 -> Rabs a <= K -> Rabs b <= K -> Rabs (between3 y a b n' - between3 y a b n) <= 2 * K * Rabs (n' - n).
Proof.
  intros Hn Hn' HA HB. unfold between3.
  replace (y + n' / 2 * (a + b + n' * (b - a)) - (y + n / 2 * (a + b + n * (b - a)))) with ((n' - n) * (a * ((1 - n - n') / 2) + b * ((1 + n + n') / 2))) by field.
  rewrite Rabs_mult, Rmult_comm. apply Rmult_le_compat_r; [apply Rabs_pos|]. eapply Rle_trans; [apply Rabs_triang|]. rewrite !Rabs_mult.
  assert (P1 : Rabs ((1 - n - n') / 2) <= 1 / 2) by (apply Rabs_le_iff; lra). assert (P2 : Rabs ((1 + n + n') / 2) <= 3 / 2) by (apply Rabs_le_iff; lra).
  assert (Rabs a * Rabs ((1 - n - n') / 2) <= K * (1 / 2)) by (apply Rmult_le_compat; auto using Rabs_pos).
  assert (Rabs b * Rabs ((1 + n + n') / 2) <= K * (3 / 2)) by (apply Rmult_le_compat; auto using Rabs_pos). lra.
Qed.

Lemma Rabs_self x : Rabs x * Rabs x = x * x.
Proof. rewrite <- Rabs_mult. apply Rabs_right. pose proof (Rle_0_sqr x) as H. unfold Rsqr in H. lra. Qed.

(** ** The hour angle at which the sun is on the horizon *)
Lemma sin_242 : 0.409 <= sin (rad 24.2) <= 0.41. Proof. apply sin_value; [lra|value]. Qed.
Lemma cos_242 x : Rabs x <= 24.2 -> 0.912 <= cos (rad x).
Proof. pose proof sin_242. apply (cos_ge 24.2 0.41); lra. Qed.
Lemma B_range45 p d : -45 <= p <= 45 -> Rabs d <= 24.2 -> 0.6447 <= cos (rad p) * cos (rad d) <= 1.
Proof.
  intros H D. destruct (lat_range p H) as [_ L]. pose proof (cos_242 d D) as C. pose proof (COS_bound (rad d)) as C1.
  split; [eapply Rle_trans; [|apply (Rmult_le_compat 0.707 _ 0.912 _); lra]; lra|].
  replace 1 with (1 * 1) by ring. apply Rmult_le_compat; lra.
Qed.
Lemma B_range52 p d : -52 <= p <= 52 -> Rabs d <= 24.2 -> 0.5614 <= cos (rad p) * cos (rad d) <= 1.
Proof.
  intros H D. destruct (lat_range52 p H) as [_ [L _]]. pose proof (cos_242 d D) as C. pose proof (COS_bound (rad d)) as C1.
  split; [eapply Rle_trans; [|apply (Rmult_le_compat 0.6156 _ 0.912 _); lra]; lra|].
  replace 1 with (1 * 1) by ring. apply Rmult_le_compat; lra.
Qed.
Lemma horizon_cos p d h : -45 <= p <= 45 -> Rabs d <= 24.2 -> Rabs (FF p d h + sin (rad OO)) <= 0.00005 ->
  Rabs (cos (rad h)) <= 0.473 /\ 0.881 <= Rabs (sin (rad h)).
Proof.
  intros P D F. pose proof (B_range45 p d P D) as B. destruct (lat_range p P) as [L1 L2]. pose proof (cos_242 d D) as CD.
  pose proof sinO as SO. pose proof (sin_abs_le d 24.2 D ltac:(lra)) as SD. pose proof sin_242 as S24. unfold FF in F.
  set (C := cos (rad h)) in *. set (S := sin (rad p) * sin (rad d)) in *.
  assert (HS : Rabs S <= cos (rad p) * 0.41). { unfold S. rewrite Rabs_mult. apply Rmult_le_compat; auto using Rabs_pos. lra. }
  assert (X : Rabs C <= 0.473).
  { apply Rabs_le_iff in F. apply Rabs_le_iff in HS.
    assert (Y : Rabs (cos (rad p) * cos (rad d) * C) <= cos (rad p) * 0.41 + 0.0146) by (apply Rabs_le_iff; lra).
    rewrite Rabs_mult, (Rabs_right (cos (rad p) * cos (rad d))) in Y by lra. pose proof (Rabs_pos C) as CP.
    destruct (Rle_dec (Rabs C) 0.473) as [|G]; [assumption|]. exfalso.
    assert (cos (rad p) * cos (rad d) * 0.473 <= cos (rad p) * cos (rad d) * Rabs C) by (apply Rmult_le_compat_l; lra).
    assert (cos (rad p) * 0.912 <= cos (rad p) * cos (rad d)) by (apply Rmult_le_compat_l; lra). lra. }
  split; [exact X|].
  pose proof (cos_sq (rad h)) as Q. fold C in Q. assert (C * C <= 0.473 * 0.473) by (rewrite <- (Rabs_self C); apply Rmult_le_compat; auto using Rabs_pos).
  destruct (Rle_dec 0.881 (Rabs (sin (rad h)))) as [|G]; [assumption|]. exfalso.
  assert (sin (rad h) * sin (rad h) <= 0.881 * 0.881) by (rewrite <- (Rabs_self (sin (rad h))); apply Rmult_le_compat; auto using Rabs_pos; lra). lra.
Qed.
Lemma horizon_cos52 p d h : -52 <= p <= 52 -> Rabs d <= 24.2 -> Rabs (FF p d h + sin (rad OO)) <= 0.00005 ->
  Rabs (cos (rad h)) <= 0.602 /\ 0.798 <= Rabs (sin (rad h)).
Proof.
  intros P D F. pose proof (B_range52 p d P D) as B. destruct (lat_range52 p P) as [_ [L2 L1]]. pose proof (cos_242 d D) as CD.
  pose proof sinO as SO. pose proof (sin_abs_le d 24.2 D ltac:(lra)) as SD. pose proof sin_242 as S24. unfold FF in F.
  set (C := cos (rad h)) in *. set (S := sin (rad p) * sin (rad d)) in *.
  assert (HS : Rabs S <= 1.281 * cos (rad p) * 0.41). { unfold S. rewrite Rabs_mult. apply Rmult_le_compat; auto using Rabs_pos. lra. }
  assert (X : Rabs C <= 0.602).
  { apply Rabs_le_iff in F. apply Rabs_le_iff in HS.
    assert (Y : Rabs (cos (rad p) * cos (rad d) * C) <= 1.281 * cos (rad p) * 0.41 + 0.0146) by (apply Rabs_le_iff; lra).
    rewrite Rabs_mult, (Rabs_right (cos (rad p) * cos (rad d))) in Y by lra. pose proof (Rabs_pos C) as CP.
    destruct (Rle_dec (Rabs C) 0.602) as [|G]; [assumption|]. exfalso.
    assert (cos (rad p) * cos (rad d) * 0.602 <= cos (rad p) * cos (rad d) * Rabs C) by (apply Rmult_le_compat_l; lra).
    assert (cos (rad p) * 0.912 <= cos (rad p) * cos (rad d)) by (apply Rmult_le_compat_l; lra). lra. }
  split; [exact X|].
  pose proof (cos_sq (rad h)) as Q. fold C in Q. assert (C * C <= 0.602 * 0.602) by (rewrite <- (Rabs_self C); apply Rmult_le_compat; auto using Rabs_pos).
  destruct (Rle_dec 0.798 (Rabs (sin (rad h)))) as [|G]; [assumption|]. exfalso.
  assert (sin (rad h) * sin (rad h) <= 0.798 * 0.798) by (rewrite <- (Rabs_self (sin (rad h))); apply Rmult_le_compat; auto using Rabs_pos; lra). lra.
Qed.
Lemma sin_35 : 0.5735 <= sin (rad 35) <= 0.5737. Proof. apply sin_value; [lra|value]. Qed.
Lemma cos_35 x : Rabs x <= 35 -> 0.819 <= cos (rad x).
Proof. pose proof sin_35. apply (cos_ge 35 0.5737); lra. Qed.
Lemma hour_close h D e : Rabs (cos (rad h)) <= 0.473 -> 0.881 <= Rabs (sin (rad h)) -> Rabs D <= 70 ->
  Rabs (cos (rad (h + D)) - cos (rad h)) <= e -> e <= 0.025 -> Rabs D <= 66.13 * e.
Proof.
  intros HC HS HD HE He. set (w := D / 2). assert (W : Rabs w <= 35) by (unfold w; apply Rabs_le_iff in HD; apply Rabs_le_iff; lra).
  assert (ID : cos (rad (h + D)) - cos (rad h) = -2 * sin (rad w) * sin (rad h + rad w)).
  { rewrite form2. f_equal; [f_equal|]; f_equal; unfold w, rad; field. }
  rewrite ID in HE. clear ID. rewrite !Rabs_mult, (Rabs_left (-2)) in HE by lra. replace (- -2) with 2 in HE by ring.
  pose proof (cos_35 w W) as CW. pose proof (sin_abs_le w 35 W ltac:(lra)) as SW. pose proof sin_35 as S35.
  assert (LOW : forall c s, 0 <= c -> c <= cos (rad w) -> Rabs (sin (rad w)) <= s -> c * 0.881 - s * 0.473 <= Rabs (sin (rad h + rad w))).
  { intros c s C0 C S. rewrite sin_plus.
    assert (X1 : c * 0.881 <= Rabs (sin (rad h) * cos (rad w))). { rewrite Rabs_mult, Rmult_comm, (Rabs_right (cos (rad w))) by lra. apply Rmult_le_compat; lra. }
    assert (X2 : Rabs (cos (rad h) * sin (rad w)) <= s * 0.473). { rewrite Rabs_mult, Rmult_comm. apply Rmult_le_compat; auto using Rabs_pos. }
    pose proof (Rabs_triang_inv (sin (rad h) * cos (rad w)) (- (cos (rad h) * sin (rad w)))) as T. rewrite Rabs_Ropp in T.
    replace (sin (rad h) * cos (rad w) - - (cos (rad h) * sin (rad w))) with (sin (rad h) * cos (rad w) + cos (rad h) * sin (rad w)) in T by ring. lra. }
  pose proof (LOW 0.819 0.5737 ltac:(lra) CW ltac:(lra)) as L1. pose proof (Rabs_pos (sin (rad w))) as P0.
  assert (S1 : Rabs (sin (rad w)) <= 0.0278).
  { destruct (Rle_dec (Rabs (sin (rad w))) 0.0278) as [|G]; [assumption|]. exfalso.
    assert (2 * 0.0278 * 0.4501 <= 2 * Rabs (sin (rad w)) * Rabs (sin (rad h + rad w))) by (apply Rmult_le_compat; lra). lra. }
  assert (CW2 : 0.9996 <= cos (rad w)) by (apply (cos_from_sin _ 0.0278); [apply (rad_abs_le w 35 W); lra|exact S1|lra|lra]).
  pose proof (LOW 0.9996 0.0278 ltac:(lra) CW2 S1) as L2.
  assert (S2 : 2 * Rabs (sin (rad w)) * 0.8674 <= e) by (eapply Rle_trans; [|exact HE]; apply Rmult_le_compat_l; lra).
  assert (W2 : Rabs w <= 2).
  { pose proof (small_angle (rad w) (rad_abs_le w 35 W ltac:(lra)) ltac:(lra)) as Q. rewrite Rabs_rad in Q. unfold rad in Q. pose proof PI_pos as PP.
    assert (Rabs w <= 1.9) by (apply (Rmult_le_reg_r (PI / 180)); lra). lra. }
  destruct (sin_mvt_deg 0 w 2 0.999 ltac:(lra) ltac:(rewrite Rabs_R0; lra) W2 cos_2) as [k [K1 K2]]. rewrite rad_0, sin_0, !Rminus_0_r in K1.
  assert (S3 : 0.999 * Rabs (rad w) <= Rabs (sin (rad w))). { rewrite K1, Rabs_mult, (Rabs_right k) by lra. apply Rmult_le_compat_r; [apply Rabs_pos|lra]. }
  rewrite Rabs_rad in S3. pose proof PI_bounds as PB. replace (Rabs D) with (2 * Rabs w) by (unfold w; rewrite <- (Rabs_right 2) at 1 by lra; rewrite <- Rabs_mult; f_equal; field).
  assert (0.999 * (Rabs w * (3.1415926 / 180)) <= 0.999 * (Rabs w * (PI / 180))) by (apply Rmult_le_compat_l; [lra|]; apply Rmult_le_compat_l; [apply Rabs_pos|lra]). lra.
Qed.

Lemma sin_45d : 0.707 <= sin (rad 45) <= 0.7072. Proof. apply sin_value; [lra|value]. Qed.
Lemma cos_45d x : Rabs x <= 45 -> 0.7069 <= cos (rad x).
Proof. pose proof sin_45d. apply (cos_ge 45 0.7072); lra. Qed.
Lemma hour_close52 h D e : Rabs (cos (rad h)) <= 0.602 -> 0.798 <= Rabs (sin (rad h)) -> Rabs D <= 90 ->
  Rabs (cos (rad (h + D)) - cos (rad h)) <= e -> e <= 0.0262 -> Rabs D <= 72.9 * e.
Proof.
  intros HC HS HD HE He. set (w := D / 2). assert (W : Rabs w <= 45) by (unfold w; apply Rabs_le_iff in HD; apply Rabs_le_iff; lra).
  assert (ID : cos (rad (h + D)) - cos (rad h) = -2 * sin (rad w) * sin (rad h + rad w)).
  { rewrite form2. f_equal; [f_equal|]; f_equal; unfold w, rad; field. }
  rewrite ID in HE. clear ID. rewrite !Rabs_mult, (Rabs_left (-2)) in HE by lra. replace (- -2) with 2 in HE by ring.
  pose proof (cos_45d w W) as CW. pose proof (sin_abs_le w 45 W ltac:(lra)) as SW. pose proof sin_45d as S45.
  assert (LOW : forall c s, 0 <= c -> c <= cos (rad w) -> Rabs (sin (rad w)) <= s -> c * 0.798 - s * 0.602 <= Rabs (sin (rad h + rad w))).
  { intros c s C0 C S. rewrite sin_plus.
    assert (X1 : c * 0.798 <= Rabs (sin (rad h) * cos (rad w))). { rewrite Rabs_mult, Rmult_comm, (Rabs_right (cos (rad w))) by lra. apply Rmult_le_compat; lra. }
    assert (X2 : Rabs (cos (rad h) * sin (rad w)) <= s * 0.602). { rewrite Rabs_mult, Rmult_comm. apply Rmult_le_compat; auto using Rabs_pos. }
    pose proof (Rabs_triang_inv (sin (rad h) * cos (rad w)) (- (cos (rad h) * sin (rad w)))) as T. rewrite Rabs_Ropp in T.
    replace (sin (rad h) * cos (rad w) - - (cos (rad h) * sin (rad w))) with (sin (rad h) * cos (rad w) + cos (rad h) * sin (rad w)) in T by ring. lra. }
  pose proof (LOW 0.7069 0.7072 ltac:(lra) CW ltac:(lra)) as L1. pose proof (Rabs_pos (sin (rad w))) as P0.
  assert (S0 : Rabs (sin (rad w)) <= 0.096).
  { destruct (Rle_dec (Rabs (sin (rad w))) 0.096) as [|G]; [assumption|]. exfalso.
    assert (2 * 0.096 * 0.1383 <= 2 * Rabs (sin (rad w)) * Rabs (sin (rad h + rad w))) by (apply Rmult_le_compat; lra). lra. }
  assert (CW1 : 0.995 <= cos (rad w)) by (apply (cos_from_sin _ 0.096); [apply (rad_abs_le w 45 W); lra|exact S0|lra|lra]).
  pose proof (LOW 0.995 0.096 ltac:(lra) CW1 S0) as L0.
  assert (S1 : Rabs (sin (rad w)) <= 0.018).
  { destruct (Rle_dec (Rabs (sin (rad w))) 0.018) as [|G]; [assumption|]. exfalso.
    assert (2 * 0.018 * 0.7362 <= 2 * Rabs (sin (rad w)) * Rabs (sin (rad h + rad w))) by (apply Rmult_le_compat; lra). lra. }
  assert (CW2 : 0.9998 <= cos (rad w)) by (apply (cos_from_sin _ 0.018); [apply (rad_abs_le w 45 W); lra|exact S1|lra|lra]).
  pose proof (LOW 0.9998 0.018 ltac:(lra) CW2 S1) as L2.
  assert (S2 : 2 * Rabs (sin (rad w)) * 0.787 <= e) by (eapply Rle_trans; [|exact HE]; apply Rmult_le_compat_l; lra).
  assert (W2 : Rabs w <= 2).
  { pose proof (small_angle (rad w) (rad_abs_le w 45 W ltac:(lra)) ltac:(lra)) as Q. rewrite Rabs_rad in Q. unfold rad in Q. pose proof PI_pos as PP.
    assert (Rabs w <= 1.9) by (apply (Rmult_le_reg_r (PI / 180)); lra). lra. }
  destruct (sin_mvt_deg 0 w 2 0.999 ltac:(lra) ltac:(rewrite Rabs_R0; lra) W2 cos_2) as [k [K1 K2]]. rewrite rad_0, sin_0, !Rminus_0_r in K1.
  assert (S3 : 0.999 * Rabs (rad w) <= Rabs (sin (rad w))). { rewrite K1, Rabs_mult, (Rabs_right k) by lra. apply Rmult_le_compat_r; [apply Rabs_pos|lra]. }
  rewrite Rabs_rad in S3. pose proof PI_bounds as PB. replace (Rabs D) with (2 * Rabs w) by (unfold w; rewrite <- (Rabs_right 2) at 1 by lra; rewrite <- Rabs_mult; f_equal; field).
  assert (0.999 * (Rabs w * (3.1415926 / 180)) <= 0.999 * (Rabs w * (PI / 180))) by (apply Rmult_le_compat_l; [lra|]; apply Rmult_le_compat_l; [apply Rabs_pos|lra]). lra.
Qed.

Lemma turn0 u e (K : Z) : Rabs (u - 360 * IZR K) <= e -> e <= 1 -> Rabs u <= 1 -> Rabs u <= e.
Proof.
  intros H E U. assert (K = 0%Z) as ->. { apply Rabs_le_iff in H. apply Rabs_le_iff in U. assert (K < 1)%Z by (apply lt_IZR; lra). assert (-1 < K)%Z by (apply lt_IZR; lra). lia. }
  rewrite Rmult_0_r, Rminus_0_r in H. exact H.
Qed.

Section Day.
Variable rnd : Q -> Q.
Hypothesis N : Nearest rnd.
Variable lm : libm.
Hypothesis A : accurate lm.
Notation ra := (sun_apparent_right_ascension rnd lm).
Notation dec := (sun_apparent_declination rnd lm).
Notation eps t := (Q2R (sun_eps rnd lm t)).
Notation day := (AstroRise2.day rnd).

(** the sun at two moments a few thousandths of a second apart *)
Lemma sun_close t t' d d' : (Qabs t <= TX)%Q -> (Qabs t' <= TX)%Q -> Rabs (Q2R t' - Q2R t) <= 1 / 1000000000 -> dec t = Ok d -> dec t' = Ok d' ->
  Rabs (Q2R d' - Q2R d) <= 0.0169 /\ exists k, Rabs (Q2R (ra t') - Q2R (ra t) - 360 * IZR k) <= 0.0182.
Proof.
  intros H H' D E E'. destruct (ra_R rnd N lm A t H) as [l [S [[k [K1 K2]] [d0 [D1 [E1 B1]]]]]].
  destruct (ra_R rnd N lm A t' H') as [l' [S' [[k' [K1' K2']] [d0' [D1' [E2 B2]]]]]].
  rewrite E in D1. injection D1 as <-. rewrite E' in D1'. injection D1' as <-.
  pose proof (ra_move rnd N lm A t t' l l' H H' S S') as M. pose proof (Rabs_pos (Q2R t' - Q2R t)) as XP. split.
  - pose proof (l_move_abs t t' l l' H H' S S') as L. pose proof (e_move rnd N lm A t t' H H') as EM.
    destruct (sun_eps_R rnd N lm A t H) as [_ R1]. destruct (sun_eps_R rnd N lm A t' H') as [_ R2].
    destruct (obl_range (eps t) ltac:(lra)) as [O1 _].
    set (e := eps t) in *. set (e' := eps t') in *. set (x := Rabs (Q2R t' - Q2R t)) in *.
    assert (L1 : Rabs (l' - l) <= 0.0096) by lra. assert (L2 : Rabs (e' - e) <= 0.01095) by lra.
    pose proof (sin_lip (rad e) (rad e')) as SE. rewrite <- rad_minus in SE. pose proof (rad_abs _ _ L2) as RE.
    pose proof (sin_lip (rad l) (rad l')) as SL. rewrite <- rad_minus in SL. pose proof (rad_abs _ _ L1) as RL.
    assert (P : Rabs (sin (rad e') * sin (rad l') - sin (rad e) * sin (rad l)) <= (0.4025 * (0.0174533 * 0.0096) + 1 * (0.0174533 * 0.01095)) * 1).
    { apply prod_lip; [rewrite Rabs_right; lra|apply sin_1|lra|lra]. }
    assert (F : Rabs (sin (rad (Q2R d')) - sin (rad (Q2R d))) <= 0.0174533 * 0.0154).
    { apply Rabs_le_iff in E1. apply Rabs_le_iff in E2. apply Rabs_le_iff in P. apply Rabs_le_iff. lra. }
    destruct (sin_mvt_deg (Q2R d) (Q2R d') 23.75 0.915 ltac:(lra) B1 B2 cos_2375) as [w [W1 W2]]. rewrite W1, <- rad_minus, Rabs_mult, Rabs_rad, (Rabs_right w) in F by lra.
    pose proof PI_bounds as PB. pose proof (Rabs_pos (Q2R d' - Q2R d)) as DP.
    assert (G : 0.915 * (Rabs (Q2R d' - Q2R d) * (3.1415926 / 180)) <= w * (Rabs (Q2R d' - Q2R d) * (PI / 180))).
    { apply Rmult_le_compat; try lra. apply Rmult_le_compat_l; lra. }
    lra.
  - exists (k' - k)%Z. rewrite minus_IZR. assert (M' : Rabs (RAd (eps t') l' - RAd (eps t) l - 36000.77 * (Q2R t' - Q2R t)) <= 0.01712) by lra.
    apply Rabs_le_iff in M'. apply Rabs_le_iff in K1. apply Rabs_le_iff in K1'. apply Rabs_le_iff in D. apply Rabs_le_iff. lra.
Qed.

Lemma sidereal_day t t' : (Qabs t <= TX)%Q -> (Qabs t' <= TX)%Q -> Rabs (Q2R t' - Q2R t - 1 / 36525) <= 1 / 50000000000 ->
  exists k : Z, Rabs (Q2R (apparent_sidereal_time_greenwich rnd lm t') - Q2R (apparent_sidereal_time_greenwich rnd lm t) - (0.98565 + 360 * IZR k)) <= 0.0126.
Proof.
  intros H H' D. destruct (sidereal_R rnd N lm A t H) as [k [K _]]. destruct (sidereal_R rnd N lm A t' H') as [k' [K' _]].
  exists (k' - k + 1)%Z. rewrite plus_IZR, minus_IZR.
  pose proof (TXr t H) as T1. pose proof (TXr t' H') as T2. apply Rabs_le_iff in D.
  assert (X : Rabs (Th (Q2R t') - Th (Q2R t) - 360.98565) <= 0.00031).
  { unfold Th. set (s := Q2R t) in *. set (s' := Q2R t') in *.
    replace (_ - _) with (360.98564736629 * 36525 * (s' - s) - 360.98565 + 0.000387933 * ((s' - s) * (s' + s)) - (s' - s) * (s' * s' + s' * s + s * s) / 38710000) by field.
    assert (SB : Rabs (s' - s) <= 0.00003) by (apply Rabs_le_iff; lra).
    assert (P1 : Rabs ((s' - s) * (s' + s)) <= 0.00003 * 42) by (rewrite Rabs_mult; apply Rmult_le_compat; auto using Rabs_pos; apply Rabs_le_iff in T1; apply Rabs_le_iff in T2; apply Rabs_le_iff; lra).
    assert (Q0 : forall x y, Rabs x <= 20.7 -> Rabs y <= 20.7 -> Rabs (x * y) <= 430) by (intros x y X Y; rewrite Rabs_mult; eapply Rle_trans; [apply Rmult_le_compat; [apply Rabs_pos|apply Rabs_pos|exact X|exact Y]|lra]).
    pose proof (Q0 s' s' T2 T2) as Q1. pose proof (Q0 s' s T2 T1) as Q2. pose proof (Q0 s s T1 T1) as Q3. apply Rabs_le_iff in Q1. apply Rabs_le_iff in Q2. apply Rabs_le_iff in Q3.
    assert (P2 : Rabs ((s' - s) * (s' * s' + s' * s + s * s)) <= 0.00003 * 1290) by (rewrite Rabs_mult; apply Rmult_le_compat; auto using Rabs_pos; apply Rabs_le_iff; lra).
    apply Rabs_le_iff in P1. apply Rabs_le_iff in P2. apply Rabs_le_iff. lra. }
  apply Rabs_le_iff in X. apply Rabs_le_iff in K. apply Rabs_le_iff in K'. apply Rabs_le_iff. lra.
Qed.

(** the moments of sunset (or of sunrise) on two days running differ by less than seven minutes, and by less than five minutes and a half up to 45 degrees from the equator *)
Lemma next_day (set : bool) jd jd' lat lon (H : Z) v v' : (1700002 <= H <= 2899998)%Z -> Rabs (Q2R lat) <= 52 -> Rabs (Q2R lon) <= 180 ->
  Rabs (Q2R jd - (IZR H - 1 / 2 - Q2R lon / 360)) <= 0.0000001 -> Rabs (Q2R jd' - (IZR (H + 1) - 1 / 2 - Q2R lon / 360)) <= 0.0000001 ->
  rising_setting rnd lm set jd lat lon (SUN_OFFSET rnd) = Ok v -> rising_setting rnd lm set jd' lat lon (SUN_OFFSET rnd) = Ok v' ->
  Rabs (Q2R v' - Q2R v) <= 0.0046 /\ (Rabs (Q2R lat) <= 45 -> Rabs (Q2R v' - Q2R v) <= 0.0038).
Proof.
  intros HR LA LO J J' E E'.
  destruct (rising_R rnd N lm A set jd lat lon H ltac:(lia) LA LO J) as [v0 [E0 [V [V45 O]]]]. rewrite E in E0. injection E0 as <-.
  destruct (rising_R rnd N lm A set jd' lat lon (H + 1) ltac:(lia) LA LO J') as [v0 [E0 [V' [V45' O']]]]. rewrite E' in E0. injection E0 as <-. clear E E'.
  destruct HR as [H1 H2]. apply IZR_le in H1. apply IZR_le in H2. rewrite plus_IZR in J'. apply Rabs_le_iff in J. apply Rabs_le_iff in J'.
  pose proof LO as LO'. apply Rabs_le_iff in LO'. pose proof LA as LA'. apply Rabs_le_iff in LA'.
  destruct (centuries_R rnd N jd ltac:(lra)) as [T1 T2]. destruct (centuries_R rnd N jd' ltac:(lra)) as [T1' T2'].
  unfold on_horizon in O, O'. cbv zeta in O, O'. fold day in O, O'.
  set (t := julian_centuries rnd jd) in *. set (t' := julian_centuries rnd jd') in *.
  assert (TT : Rabs (Q2R t' - Q2R t - 1 / 36525) <= 1 / 50000000000) by (apply Rabs_le_iff in T1; apply Rabs_le_iff in T1'; apply Rabs_le_iff; lra).
  pose proof (day_R rnd N) as DY. apply Rabs_le_iff in DY. assert (DS : Rabs (Q2R day) <= 0.0001) by (apply Rabs_le_iff; lra).
  destruct (shift_R rnd N t day ltac:(lra) DS) as [SA SS]. destruct (shift_R rnd N t' day ltac:(lra) DS) as [SA' SS'].
  destruct O as (d0 & d1 & d2 & a & b & n & k0 & k1 & D0 & D1 & D2 & EA & RA_ & EB & RB & NV & F).
  destruct O' as (d0' & d1' & d2' & a' & b' & n' & k0' & k1' & D0' & D1' & D2' & EA' & RA' & EB' & RB' & NV' & F').
  apply Rabs_le_iff in SA. apply Rabs_le_iff in SS. apply Rabs_le_iff in SA'. apply Rabs_le_iff in SS'. apply Rabs_le_iff in T2. apply Rabs_le_iff in T2'.
  pose proof TT as TT'. apply Rabs_le_iff in TT'.
  assert (Tt : (Qabs t <= TX)%Q) by (apply TXr', Rabs_le_iff; lra). assert (Tt' : (Qabs t' <= TX)%Q) by (apply TXr', Rabs_le_iff; lra).
  set (s0 := fsub rnd t day) in *. set (s2 := fadd rnd t day) in *. set (s0' := fsub rnd t' day) in *. set (s2' := fadd rnd t' day) in *.
  assert (Ts0 : (Qabs s0 <= TX)%Q) by (apply TXr', Rabs_le_iff; lra). assert (Ts2 : (Qabs s2 <= TX)%Q) by (apply TXr', Rabs_le_iff; lra).
  assert (Ts0' : (Qabs s0' <= TX)%Q) by (apply TXr', Rabs_le_iff; lra). assert (Ts2' : (Qabs s2' <= TX)%Q) by (apply TXr', Rabs_le_iff; lra).
  destruct (one_day rnd N lm A s0 t Ts0 Tt ltac:(apply Rabs_le_iff; lra)) as (x & kx & p0 & p1 & X1 & X2 & _ & _ & P0 & P1 & _ & B1 & XD).
  destruct (one_day rnd N lm A t t' Tt Tt' ltac:(apply Rabs_le_iff; lra)) as (y & ky & q0 & q1 & Y1 & Y2 & _ & _ & Q0 & Q1 & _ & B1' & YD).
  destruct (one_day rnd N lm A t' s2' Tt' Ts2' ltac:(apply Rabs_le_iff; lra)) as (z & kz & r0 & r1 & Z1 & Z2 & _ & _ & R0 & R1 & _ & _ & ZD).
  rewrite D0 in P0. injection P0 as <-. rewrite D1 in P1. injection P1 as <-. rewrite D1 in Q0. injection Q0 as <-. rewrite D1' in Q1. injection Q1 as <-.
  rewrite D1' in R0. injection R0 as <-. rewrite D2' in R1. injection R1 as <-.
  destruct (sun_close t' s2 d1' d2 Tt' Ts2 ltac:(apply Rabs_le_iff; lra) D1' D2) as [C2 [kc2 CR2]].
  destruct (sun_close t s0' d1 d0' Tt Ts0' ltac:(apply Rabs_le_iff; lra) D1 D0') as [C0 [kc0 CR0]].
  destruct (sidereal_day t t' Tt Tt' TT) as [kg G].
  assert (NR : 0 <= n <= 0.874). { apply Rabs_le_iff in NV. destruct set; lra. }
  assert (NR' : 0 <= n' <= 0.874). { apply Rabs_le_iff in NV'. destruct set; lra. }
  assert (NN : Rabs (n' - n) <= Rabs (Q2R v' - Q2R v) + 0.00002).
  { replace (n' - n) with ((Q2R v' - Q2R v) + ((n' - Q2R v') - (n - Q2R v))) by ring. eapply Rle_trans; [apply Rabs_triang|].
    apply Rplus_le_compat_l. apply Rabs_le_iff in NV. apply Rabs_le_iff in NV'. apply Rabs_le_iff. lra. }
  set (w := Rabs (Q2R v' - Q2R v)) in *. assert (W0 : 0 <= w) by apply Rabs_pos.
  assert (W1 : w <= 0.236). { unfold w. apply Rabs_le_iff. destruct set; lra. }
  (* declination *)
  set (de_ := between3 (Q2R d1) (Q2R d1 - Q2R d0) (Q2R d2 - Q2R d1) n) in *.
  set (de' := between3 (Q2R d1') (Q2R d1' - Q2R d0') (Q2R d2' - Q2R d1') n') in *.
  apply Rabs_le_iff in XD. apply Rabs_le_iff in YD. apply Rabs_le_iff in ZD. apply Rabs_le_iff in C2. apply Rabs_le_iff in C0.
  assert (DD : Rabs (de' - de_) <= 0.603 + 0.97 * w).
  { pose proof (two_days (Q2R d1) (Q2R d1') (Q2R d1 - Q2R d0) (Q2R d2 - Q2R d1) (Q2R d1' - Q2R d0') (Q2R d2' - Q2R d1') n (Q2R d1' - Q2R d1) 0 0.467 0.0169
      ltac:(lra) eq_refl ltac:(apply Rabs_le_iff; lra) ltac:(apply Rabs_le_iff; lra) ltac:(apply Rabs_le_iff; lra) ltac:(apply Rabs_le_iff; lra) ltac:(apply Rabs_le_iff; lra) ltac:(lra) ltac:(lra)) as U.
    fold de_ in U. pose proof (between_lip (Q2R d1') (Q2R d1' - Q2R d0') (Q2R d2' - Q2R d1') n n' 0.485 ltac:(lra) ltac:(lra) ltac:(apply Rabs_le_iff; lra) ltac:(apply Rabs_le_iff; lra)) as L.
    fold de' in L. apply Rabs_le_iff in U. apply Rabs_le_iff in L. apply Rabs_le_iff. lra. }
  assert (DB : Rabs de_ <= 24.2).
  { assert (U : Rabs (de (Q2R d1 - Q2R d0) (Q2R d2 - Q2R d1) (Q2R d1) n - Q2R d1) <= n * 0.484).
    { unfold de. replace (_ - _) with (n * ((Q2R d1 - Q2R d0) * ((1 - n) / 2) + (Q2R d2 - Q2R d1) * ((1 + n) / 2))) by field.
      rewrite Rabs_mult, (Rabs_right n) by lra. apply Rmult_le_compat_l; [lra|].
      assert (UU : forall k q X, 0 <= k -> - X <= q <= X -> - (X * k) <= q * k <= X * k).
      { intros k q X K HX. replace (- (X * k)) with ((- X) * k) by ring. split; apply Rmult_le_compat_r; lra. }
      pose proof (UU ((1 - n) / 2) (Q2R d1 - Q2R d0) 0.467 ltac:(lra) ltac:(lra)). pose proof (UU ((1 + n) / 2) (Q2R d2 - Q2R d1) 0.4839 ltac:(lra) ltac:(lra)).
      apply Rabs_le_iff. lra. }
    change (de (Q2R d1 - Q2R d0) (Q2R d2 - Q2R d1) (Q2R d1) n) with de_ in U. apply Rabs_le_iff in U. apply Rabs_le_iff in B1. apply Rabs_le_iff. lra. }
  (* right ascension *)
  set (B := Q2R (ra t') - Q2R (ra t) - 360 * IZR ky) in *. apply Rabs_le_iff in Y2.
  assert (BR : 0.8279 <= B <= 1.1428) by (unfold B; lra).
  assert (bB : Rabs (b - B) <= 0.0182).
  { apply (turn0 _ _ (kc2 + k1 + ky)); [|lra|apply Rabs_le_iff; lra]. rewrite !plus_IZR. apply Rabs_le_iff in CR2. apply Rabs_le_iff. unfold B. lra. }
  assert (aB : Rabs (a' - B) <= 0.0182).
  { apply (turn0 _ _ (k0' + ky - kc0)); [|lra|apply Rabs_le_iff; lra]. rewrite minus_IZR, plus_IZR. apply Rabs_le_iff in CR0. apply Rabs_le_iff. unfold B. lra. }
  assert (axx : Rabs (a - x) <= 0.001).
  { apply (turn0 _ _ (kx + k0)); [|lra|apply Rabs_le_iff; lra]. rewrite plus_IZR. apply Rabs_le_iff in X2. apply Rabs_le_iff. lra. }
  assert (bz : Rabs (b' - z) <= 0.001).
  { apply (turn0 _ _ (kz + k1')); [|lra|apply Rabs_le_iff; lra]. rewrite plus_IZR. apply Rabs_le_iff in Z2. apply Rabs_le_iff. lra. }
  assert (AL : Rabs (between3 (Q2R (ra t')) a' b' n' - between3 (Q2R (ra t)) a b n - (0.98565 + 360 * IZR ky)) <= 0.2186 + 2.4 * w).
  { apply Rabs_le_iff in axx. apply Rabs_le_iff in bz.
    pose proof (two_days (Q2R (ra t)) (Q2R (ra t') - 360 * IZR ky) a b a' b' n B 0.98565 0.1583 0.0182
      ltac:(lra) ltac:(unfold B; ring) bB aB ltac:(apply Rabs_le_iff; lra) ltac:(apply Rabs_le_iff; lra) ltac:(apply Rabs_le_iff; lra) ltac:(lra) ltac:(lra)) as U.
    pose proof (between_lip (Q2R (ra t')) a' b' n n' 1.2 ltac:(lra) ltac:(lra) ltac:(apply Rabs_le_iff; lra) ltac:(apply Rabs_le_iff; lra)) as L.
    replace (between3 (Q2R (ra t') - 360 * IZR ky) a' b' n) with (between3 (Q2R (ra t')) a' b' n - 360 * IZR ky) in U by (unfold between3; ring).
    apply Rabs_le_iff in U. apply Rabs_le_iff in L. apply Rabs_le_iff. lra. }
  (* hour angle *)
  set (g := Q2R (apparent_sidereal_time_greenwich rnd lm t)) in *. set (g' := Q2R (apparent_sidereal_time_greenwich rnd lm t')) in *.
  set (h := g + 360.98564736629 * Q2R v + Q2R lon - between3 (Q2R (ra t)) a b n) in *.
  set (h' := g' + 360.98564736629 * Q2R v' + Q2R lon - between3 (Q2R (ra t')) a' b' n') in *.
  set (D := h' - h - 360 * IZR (kg - ky)).
  assert (DW : Rabs (D - 360.98564736629 * (Q2R v' - Q2R v)) <= 0.2313 + 2.4 * w).
  { unfold D, h, h'. rewrite minus_IZR. apply Rabs_le_iff in AL. apply Rabs_le_iff in G. apply Rabs_le_iff. lra. }
  assert (D70 : Rabs D <= 90).
  { replace D with (360.98564736629 * (Q2R v' - Q2R v) + (D - 360.98564736629 * (Q2R v' - Q2R v))) by ring. eapply Rle_trans; [apply Rabs_triang|].
    rewrite Rabs_mult, (Rabs_right 360.98564736629) by lra. fold w. lra. }
  change (dsin 0.8333) with (sin (rad OO)) in F, F'. rewrite sine_of_altitude_FF in F, F'.
  pose proof (B_range52 (Q2R lat) de_ LA' DB) as BRG.
  pose proof (FF_lip_d (Q2R lat) de_ de' h') as LD. rewrite <- rad_minus in LD. pose proof (rad_abs _ _ DD) as RD.
  assert (CC : forall B0, 0 < B0 -> B0 <= cos (rad (Q2R lat)) * cos (rad de_) -> B0 * Rabs (cos (rad h') - cos (rad h)) <= 0.0001 + 0.0174533 * (0.603 + 0.97 * w)).
  { intros B0 B01 B02. assert (U : Rabs (cos (rad (Q2R lat)) * cos (rad de_) * (cos (rad h') - cos (rad h))) <= 0.0001 + 0.0174533 * (0.603 + 0.97 * w)).
    { replace (cos (rad (Q2R lat)) * cos (rad de_) * (cos (rad h') - cos (rad h))) with (FF (Q2R lat) de_ h' - FF (Q2R lat) de_ h) by (unfold FF; ring).
      assert (LD' : Rabs (FF (Q2R lat) de' h' - FF (Q2R lat) de_ h') <= 0.0174533 * (0.603 + 0.97 * w)) by lra.
      apply Rabs_le_iff in F. apply Rabs_le_iff in F'. apply Rabs_le_iff in LD'. apply Rabs_le_iff. lra. }
    rewrite Rabs_mult, (Rabs_right (cos (rad (Q2R lat)) * cos (rad de_))) in U by lra.
    assert (B0 * Rabs (cos (rad h') - cos (rad h)) <= cos (rad (Q2R lat)) * cos (rad de_) * Rabs (cos (rad h') - cos (rad h))) by (apply Rmult_le_compat_r; [apply Rabs_pos|lra]). lra. }
  assert (HD : cos (rad h') = cos (rad (h + D))).
  { replace h' with (h + D + 360 * IZR (kg - ky)) by (unfold D; ring). apply cos_turn_d. }
  rewrite HD in CC.
  assert (FW : 360.98564736629 * w <= Rabs D + (0.2313 + 2.4 * w)).
  { unfold w at 1. replace (360.98564736629 * Rabs (Q2R v' - Q2R v)) with (Rabs (360.98564736629 * (Q2R v' - Q2R v))) by (rewrite Rabs_mult, (Rabs_right 360.98564736629); lra).
    replace (360.98564736629 * (Q2R v' - Q2R v)) with (D + - (D - 360.98564736629 * (Q2R v' - Q2R v))) by ring. eapply Rle_trans; [apply Rabs_triang|]. rewrite Rabs_Ropp. lra. }
  split.
  - destruct (horizon_cos52 _ _ _ LA' DB F) as [HC HS]. specialize (CC 0.5614 ltac:(lra) ltac:(lra)).
    pose proof (hour_close52 h D ((0.0001 + 0.0174533 * (0.603 + 0.97 * w)) / 0.5614) HC HS D70 ltac:(lra) ltac:(lra)) as FIN. lra.
  - intros L45. apply Rabs_le_iff in L45. destruct (horizon_cos _ _ _ L45 DB F) as [HC HS]. pose proof (B_range45 (Q2R lat) de_ L45 DB) as BRG'.
    specialize (CC 0.6447 ltac:(lra) ltac:(lra)). assert (L45' : Rabs (Q2R lat) <= 45) by (apply Rabs_le_iff; lra). specialize (V45 L45'). specialize (V45' L45').
    assert (W2 : w <= 0.19). { unfold w. apply Rabs_le_iff. destruct set; lra. }
    assert (D70' : Rabs D <= 70).
    { replace D with (360.98564736629 * (Q2R v' - Q2R v) + (D - 360.98564736629 * (Q2R v' - Q2R v))) by ring. eapply Rle_trans; [apply Rabs_triang|].
      rewrite Rabs_mult, (Rabs_right 360.98564736629) by lra. fold w. lra. }
    pose proof (hour_close h D ((0.0001 + 0.0174533 * (0.603 + 0.97 * w)) / 0.6447) HC HS D70' ltac:(lra) ltac:(lra)) as FIN. lra.
Qed.
End Day.
