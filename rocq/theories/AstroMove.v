(** AstroMove.v -- how far the sun moves between two moments (proof support). *)
From Coq Require Import ZArith QArith Qabs Qreals Lqa Reals Lra Lia List Bool.
From Verif Require Import Base Flt QUtil BaseModel BaseProofs AstroModel SpecAstro AstroReal AstroReal2 AstroFlt AstroApx AstroSun AstroNut AstroRA.
Import ListNotations.
Local Open Scope R_scope.

Lemma Rabs_fact a b x K : b - a = x * K -> forall k, Rabs K <= k -> Rabs (b - a) <= k * Rabs x.
Proof. intros E k H. rewrite E, Rabs_mult, Rmult_comm. apply Rmult_le_compat_r; [apply Rabs_pos|exact H]. Qed.
Lemma prod_lip p q s r P S x dp ds : Rabs p <= P -> Rabs r <= S -> Rabs (q - p) <= dp * x -> Rabs (r - s) <= ds * x -> 
  Rabs (q * r - p * s) <= (P * ds + S * dp) * x.
Proof.
  intros HP HS D1 D2. replace (q * r - p * s) with (p * (r - s) + r * (q - p)) by ring.
  eapply Rle_trans; [apply Rabs_triang|]. rewrite !Rabs_mult.
  pose proof (Rmult_le_compat _ _ _ _ (Rabs_pos _) (Rabs_pos _) HP D2). pose proof (Rmult_le_compat _ _ _ _ (Rabs_pos _) (Rabs_pos _) HS D1). lra.
Qed.

Lemma Mr_lip t t' : Rabs t <= 20.7 -> Rabs t' <= 20.7 -> Rabs (Mr t' - Mr t) <= 35999.07 * Rabs (t' - t).
Proof.
  intros H H'. apply Rabs_le_iff in H. apply Rabs_le_iff in H'.
  apply (Rabs_fact _ _ _ (35999.05034 - 0.0001603 * (t + t') - (t * t + t * t' + t' * t') / 300000)); [unfold Mr; lra|].
  assert (-1300 <= t * t + t * t' + t' * t' <= 1300) by (split; nra). apply Rabs_le_iff. lra.
Qed.
Lemma Lr_move t t' : Rabs t <= 20.7 -> Rabs t' <= 20.7 -> Rabs (Lr t' - Lr t - 36000.77 * (t' - t)) <= 0.013 * Rabs (t' - t).
Proof.
  intros H H'. apply Rabs_le_iff in H. apply Rabs_le_iff in H'.
  apply (Rabs_fact (36000.77 * (t' - t)) (Lr t' - Lr t) (t' - t) (- 0.00017 + 0.0003032 * (t + t'))); [unfold Lr; lra|].
  apply Rabs_le_iff. lra.
Qed.
Lemma sinM_lip n t t' : 0 <= n -> Rabs t <= 20.7 -> Rabs t' <= 20.7 -> Rabs (sin (rad (n * Mr t')) - sin (rad (n * Mr t))) <= 628.31 * n * Rabs (t' - t).
Proof.
  intros Hn H H'. eapply Rle_trans; [apply sin_lip|]. rewrite <- rad_minus.
  assert (B : Rabs (n * Mr t' - n * Mr t) <= n * (35999.07 * Rabs (t' - t))).
  { replace (n * Mr t' - n * Mr t) with (n * (Mr t' - Mr t)) by ring. rewrite Rabs_mult, (Rabs_right n) by lra. apply Rmult_le_compat_l; [lra|]. apply Mr_lip; assumption. }
  apply rad_abs in B. pose proof (Rmult_le_pos _ _ Hn (Rabs_pos (t' - t))). lra.
Qed.
Lemma C1_abs t : Rabs t <= 20.7 -> Rabs (C1 t) <= 2.0205.
Proof. intro H. apply Rabs_le_iff in H. assert (0 <= t * t <= 428.5) by (split; nra). unfold C1. apply Rabs_le_iff. lra. Qed.
Lemma C2_abs t : Rabs t <= 20.7 -> Rabs (C2 t) <= 0.0221.
Proof. intro H. apply Rabs_le_iff in H. unfold C2. apply Rabs_le_iff. lra. Qed.
Lemma Cr_abs t : Rabs t <= 20.7 -> Rabs (Cr t) <= 2.0429.
Proof.
  intro H. pose proof (C1_abs t H) as A1. pose proof (C2_abs t H) as A2. unfold Cr.
  pose proof (Rmult_le_compat _ _ _ _ (Rabs_pos _) (Rabs_pos _) A1 (sin_1 (rad (Mr t)))) as B1.
  pose proof (Rmult_le_compat _ _ _ _ (Rabs_pos _) (Rabs_pos _) A2 (sin_1 (rad (2 * Mr t)))) as B2. rewrite <- Rabs_mult in B1, B2.
  pose proof (SIN_bound (rad (3 * Mr t))). apply Rabs_le_iff in B1. apply Rabs_le_iff in B2. apply Rabs_le_iff. lra.
Qed.
Lemma Cr_lip t t' : Rabs t <= 20.7 -> Rabs t' <= 20.7 -> Rabs (Cr t' - Cr t) <= 1298.3 * Rabs (t' - t).
Proof.
  intros H H'. pose proof (Rabs_pos (t' - t)) as P.
  assert (D1 : Rabs (C1 t' - C1 t) <= 0.0055 * Rabs (t' - t)).
  { apply (Rabs_fact _ _ _ (- 0.004817 - 0.000014 * (t + t'))); [unfold C1; lra|]. apply Rabs_le_iff in H. apply Rabs_le_iff in H'. apply Rabs_le_iff. lra. }
  assert (D2 : Rabs (C2 t' - C2 t) <= 0.00011 * Rabs (t' - t)).
  { apply (Rabs_fact _ _ _ (- 0.000101)); [unfold C2; lra|]. apply Rabs_le_iff. lra. }
  pose proof (sinM_lip 1 t t' ltac:(lra) H H') as S1. rewrite !Rmult_1_l in S1. pose proof (sinM_lip 2 t t' ltac:(lra) H H') as S2. pose proof (sinM_lip 3 t t' ltac:(lra) H H') as S3.
  pose proof (prod_lip _ _ _ _ _ _ _ _ _ (C1_abs t H) (sin_1 (rad (Mr t'))) D1 S1) as P1.
  pose proof (prod_lip _ _ _ _ _ _ _ _ _ (C2_abs t H) (sin_1 (rad (2 * Mr t'))) D2 S2) as P2.
  unfold Cr. apply Rabs_le_iff in P1. apply Rabs_le_iff in P2. apply Rabs_le_iff in S3. apply Rabs_le_iff. lra.
Qed.

Section Move.
Variable rnd : Q -> Q.
Hypothesis N : Nearest rnd.
Variable lm : libm.
Hypothesis A : accurate lm.
Lemma TXr t : (Qabs t <= TX)%Q -> Rabs (Q2R t) <= 20.7.
Proof. intro H. apply Qabs_R in H. unfold TX in H. rewrite Q2R_lit in H. lra. Qed.

Lemma l_move t t' l l' : (Qabs t <= TX)%Q -> (Qabs t' <= TX)%Q -> sun_l t l -> sun_l t' l' ->
  Rabs ((l' - l) - 36000.77 * (Q2R t' - Q2R t)) <= 1298.4 * Rabs (Q2R t' - Q2R t) + 0.00956.
Proof.
  intros H H' S S'. unfold sun_l in *. pose proof (Lr_move _ _ (TXr t H) (TXr t' H')) as L. pose proof (Cr_lip _ _ (TXr t H) (TXr t' H')) as C.
  pose proof (Rabs_pos (Q2R t' - Q2R t)). apply Rabs_le_iff in S. apply Rabs_le_iff in S'. apply Rabs_le_iff in L. apply Rabs_le_iff in C. apply Rabs_le_iff. lra.
Qed.
Lemma l_move_abs t t' l l' : (Qabs t <= TX)%Q -> (Qabs t' <= TX)%Q -> sun_l t l -> sun_l t' l' ->
  Rabs (l' - l) <= 37299.2 * Rabs (Q2R t' - Q2R t) + 0.00956.
Proof.
  intros H H' S S'. pose proof (l_move t t' l l' H H' S S') as M. set (x := Q2R t' - Q2R t) in *.
  replace (l' - l) with ((l' - l - 36000.77 * x) + 36000.77 * x) by ring. eapply Rle_trans; [apply Rabs_triang|].
  rewrite (Rabs_mult 36000.77), (Rabs_right 36000.77) by lra. pose proof (Rabs_pos x). lra.
Qed.
Lemma e_move t t' : (Qabs t <= TX)%Q -> (Qabs t' <= TX)%Q ->
  Rabs (Q2R (sun_eps rnd lm t') - Q2R (sun_eps rnd lm t)) <= 0.0138 * Rabs (Q2R t' - Q2R t) + 0.01094.
Proof.
  intros H H'. destruct (sun_eps_R rnd N lm A t H) as [E _]. destruct (sun_eps_R rnd N lm A t' H') as [E' _]. pose proof (Pe_lip t t' H H') as P.
  apply Rabs_le_iff in E. apply Rabs_le_iff in E'. apply Rabs_le_iff in P. apply Rabs_le_iff. lra.
Qed.
Notation eps t := (Q2R (sun_eps rnd lm t)).
Lemma ra_move t t' l l' : (Qabs t <= TX)%Q -> (Qabs t' <= TX)%Q -> sun_l t l -> sun_l t' l' ->
  Rabs ((RAd (eps t') l' - RAd (eps t) l) - 36000.77 * (Q2R t' - Q2R t)) <= 5069.5 * Rabs (Q2R t' - Q2R t) + 0.01711.
Proof.
  intros H H' S S'. pose proof (l_move t t' l l' H H' S S') as M. pose proof (l_move_abs t t' l l' H H' S S') as MA. pose proof (e_move t t' H H') as E.
  destruct (sun_eps_R rnd N lm A t H) as [_ E1]. destruct (sun_eps_R rnd N lm A t' H') as [_ E2].
  pose proof (RAd_move (eps t) (eps t') l l' ltac:(lra) ltac:(lra)) as R. pose proof (Rabs_pos (Q2R t' - Q2R t)).
  assert (R' : Rabs (RAd (eps t') l' - RAd (eps t) l - (l' - l)) <= 3771 * Rabs (Q2R t' - Q2R t) + 0.00754) by lra.
  apply Rabs_le_iff in M. apply Rabs_le_iff in R'. apply Rabs_le_iff. lra.
Qed.
End Move.

(** angles from their sines *)
Lemma sin_abs_le x X : Rabs x <= X -> X <= 60 -> Rabs (sin (rad x)) <= sin (rad X).
Proof.
  intros H HX. apply Rabs_le_iff in H. pose proof PI_bounds. assert (R2 : rad 60 <= PI / 2) by (rewrite <- rad_90; apply rad_mono; lra).
  assert (R3 : rad X <= rad 60) by (apply rad_mono; lra). assert (R1 : rad x <= rad X) by (apply rad_mono; lra). assert (R0 : - rad X <= rad x) by (rewrite <- rad_opp; apply rad_mono; lra).
  apply Rabs_le_iff. split; [rewrite <- sin_neg; apply sin_incr_1; lra|apply sin_incr_1; lra].
Qed.
Lemma rad_abs_le x X : Rabs x <= X -> X <= 60 -> - (PI / 2) <= rad x <= PI / 2.
Proof.
  intros H HX. apply Rabs_le_iff in H. replace (PI / 2) with (rad 90) by apply rad_90. rewrite <- rad_opp. split; apply rad_mono; lra.
Qed.
Lemma cos_ge X s c x : X <= 60 -> sin (rad X) <= s -> 0 <= c -> c * c + s * s <= 1 -> Rabs x <= X -> c <= cos (rad x).
Proof.
  intros HX S C E H. apply (cos_from_sin _ s); [apply (rad_abs_le x X H HX)| |exact C|exact E]. eapply Rle_trans; [apply (sin_abs_le x X H HX)|exact S].
Qed.
Lemma sin_mvt x y : exists z, sin y - sin x = cos z * (y - x) /\ Rmin x y <= z <= Rmax x y.
Proof.
  destruct (Rtotal_order x y) as [H|[H|H]].
  - destruct (MVT_cor2 sin cos x y H) as [z [E B]]; [intros; apply derivable_pt_lim_sin|]. exists z. rewrite Rmin_left, Rmax_right by lra. split; [exact E|lra].
  - subst. exists y. rewrite Rmin_left, Rmax_left by lra. split; [ring|lra].
  - destruct (MVT_cor2 sin cos y x H) as [z [E B]]; [intros; apply derivable_pt_lim_sin|]. exists z. rewrite Rmin_right, Rmax_left by lra. split; lra.
Qed.
Lemma sin_mvt_deg x y X c : X <= 60 -> Rabs x <= X -> Rabs y <= X -> (forall z, Rabs z <= X -> c <= cos (rad z)) ->
  exists w, sin (rad y) - sin (rad x) = w * (rad y - rad x) /\ c <= w <= 1.
Proof.
  intros HX H1 H2 H. destruct (sin_mvt (rad x) (rad y)) as [z [E B]]. exists (cos z). split; [exact E|]. split; [|apply COS_bound].
  rewrite <- (rad_deg z). apply H. apply Rabs_le_iff in H1. apply Rabs_le_iff in H2.
  assert (I : rad (- X) <= z <= rad X).
  { split.
    - eapply Rle_trans; [|apply B]. apply Rmin_glb; apply rad_mono; lra.
    - eapply Rle_trans; [apply B|]. apply Rmax_lub; apply rad_mono; lra. }
  pose proof deg_k as K. assert (M : forall a b, a <= b -> deg a <= deg b) by (intros; unfold deg; apply Rmult_le_compat_r; lra).
  destruct I as [I1 I2]. apply M in I1. apply M in I2. rewrite deg_rad in I1, I2. apply Rabs_le_iff. lra.
Qed.
Lemma sin_2375 : 0.4027 <= sin (rad 23.75) <= 0.4028. Proof. apply sin_value; [lra|value]. Qed.
Lemma sin_2416 : 0.409 <= sin (rad 24.16) <= 0.4096. Proof. apply sin_value; [lra|value]. Qed.
Lemma sin_2 : 0.0348 <= sin (rad 2) <= 0.035. Proof. apply sin_value; [lra|value]. Qed.
Lemma cos_2375 x : Rabs x <= 23.75 -> 0.915 <= cos (rad x).
Proof. pose proof sin_2375. apply (cos_ge 23.75 0.4028); lra. Qed.
Lemma cos_2416 x : Rabs x <= 24.16 -> 0.912 <= cos (rad x).
Proof. pose proof sin_2416. apply (cos_ge 24.16 0.4096); lra. Qed.
Lemma cos_2 x : Rabs x <= 2 -> 0.999 <= cos (rad x).
Proof. pose proof sin_2. apply (cos_ge 2 0.035); lra. Qed.

Section Move2.
Variable rnd : Q -> Q.
Hypothesis N : Nearest rnd.
Variable lm : libm.
Hypothesis A : accurate lm.
Notation eps t := (Q2R (sun_eps rnd lm t)).
Lemma decl_move t t' l l' d d' : (Qabs t <= TX)%Q -> (Qabs t' <= TX)%Q -> sun_l t l -> sun_l t' l' ->
  Rabs (Q2R t' - Q2R t) <= 1 / 36525 + 1 / 1000000000 ->
  Rabs (sin (rad d) - sin (rad (eps t)) * sin (rad l)) <= 0.000005 -> Rabs d <= 23.75 ->
  Rabs (sin (rad d') - sin (rad (eps t')) * sin (rad l')) <= 0.000005 -> Rabs d' <= 23.75 -> Rabs (d' - d) <= 0.467.
Proof.
  intros H H' S S' D E1 B1 E2 B2.
  pose proof (l_move_abs t t' l l' H H' S S') as L. pose proof (e_move rnd N lm A t t' H H') as E.
  destruct (sun_eps_R rnd N lm A t H) as [_ R1]. destruct (sun_eps_R rnd N lm A t' H') as [_ R2].
  destruct (obl_range (eps t) ltac:(lra)) as [O1 _].
  set (e := eps t) in *. set (e' := eps t') in *. set (x := Rabs (Q2R t' - Q2R t)) in *.
  assert (L1 : Rabs (l' - l) <= 1.0308) by lra. assert (L2 : Rabs (e' - e) <= 0.01095) by lra.
  pose proof (sin_lip (rad e) (rad e')) as SE. rewrite <- rad_minus in SE. pose proof (rad_abs _ _ L2) as RE.
  pose proof (sin_lip (rad l) (rad l')) as SL. rewrite <- rad_minus in SL. pose proof (rad_abs _ _ L1) as RL.
  assert (P : Rabs (sin (rad e') * sin (rad l') - sin (rad e) * sin (rad l)) <= (0.4025 * (0.0174533 * 1.0308) + 1 * (0.0174533 * 0.01095)) * 1).
  { apply prod_lip; [rewrite Rabs_right; lra|apply sin_1|lra|lra]. }
  assert (F : Rabs (sin (rad d') - sin (rad d)) <= 0.0174533 * 0.4265).
  { apply Rabs_le_iff in E1. apply Rabs_le_iff in E2. apply Rabs_le_iff in P. apply Rabs_le_iff. lra. }
  destruct (sin_mvt_deg d d' 23.75 0.915 ltac:(lra) B1 B2 cos_2375) as [w [W1 W2]]. rewrite W1, <- rad_minus, Rabs_mult, Rabs_rad, (Rabs_right w) in F by lra.
  pose proof PI_bounds as PB. pose proof (Rabs_pos (d' - d)) as DP.
  assert (G : 0.915 * (Rabs (d' - d) * (3.1415926 / 180)) <= w * (Rabs (d' - d) * (PI / 180))).
  { apply Rmult_le_compat; try lra. apply Rmult_le_compat_l; lra. }
  lra.
Qed.
End Move2.
