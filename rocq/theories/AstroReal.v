(** AstroReal.v -- real analysis used to bound the sunset computation (proof support). *)
From Coq Require Import Reals Lra Lia.
Local Open Scope R_scope.

(** ** moduli *)
Lemma Rabs_le_iff x a : Rabs x <= a <-> - a <= x <= a.
Proof. split; [intro H; unfold Rabs in H; destruct (Rcase_abs x); lra|intros [A B]; apply Rabs_le; lra]. Qed.
Lemma lip1 (f f' : R -> R) k a b : (forall x, derivable_pt_lim f x (f' x)) -> (forall x, Rabs (f' x) <= k) ->
  Rabs (f b - f a) <= k * Rabs (b - a).
Proof.
  intros D B. destruct (MVT_abs f f' a b (fun c _ => D c)) as (c & E & _). rewrite E.
  apply Rmult_le_compat_r; [apply Rabs_pos|apply B].
Qed.
Lemma sin_1 x : Rabs (sin x) <= 1.
Proof. apply Rabs_le_iff. pose proof (SIN_bound x). lra. Qed.
Lemma cos_1 x : Rabs (cos x) <= 1.
Proof. apply Rabs_le_iff. pose proof (COS_bound x). lra. Qed.
Lemma sin_lip a b : Rabs (sin b - sin a) <= Rabs (b - a).
Proof. rewrite <- (Rmult_1_l (Rabs (b - a))). apply (lip1 sin cos); [apply derivable_pt_lim_sin|apply cos_1]. Qed.
Lemma cos_lip a b : Rabs (cos b - cos a) <= Rabs (b - a).
Proof.
  rewrite <- (Rmult_1_l (Rabs (b - a))). apply (lip1 cos (fun x => - sin x)); [apply derivable_pt_lim_cos|].
  intro x. rewrite Rabs_Ropp. apply sin_1.
Qed.
Lemma atan_lip a b : Rabs (atan b - atan a) <= Rabs (b - a).
Proof.
  rewrite <- (Rmult_1_l (Rabs (b - a))). apply (lip1 atan (fun x => / (1 + x ^ 2))).
  - intro x. assert (E : / (1 + x ^ 2) = derive_pt atan x (derivable_pt_atan x)) by (rewrite derive_pt_atan; unfold Rsqr; field; nra).
    rewrite E. apply (derive_pt_eq_1 atan x _ (derivable_pt_atan x)). reflexivity.
  - intro x. rewrite Rabs_right.
    + rewrite <- Rinv_1. apply Rinv_le_contravar; [lra|nra].
    + apply Rle_ge. left. apply Rinv_0_lt_compat. nra.
Qed.
Lemma sin_le x : Rabs (sin x) <= Rabs x.
Proof. pose proof (sin_lip 0 x) as H. rewrite sin_0, !Rminus_0_r in H. exact H. Qed.
Lemma atan_le x : Rabs (atan x) <= Rabs x.
Proof. pose proof (atan_lip 0 x) as H. rewrite atan_0, !Rminus_0_r in H. exact H. Qed.
Lemma Rsq_abs x a : Rabs x <= a -> x * x <= a * a.
Proof. intro H. apply Rabs_le_iff in H. nra. Qed.
(** 1 - cos x = 2 sin^2 (x/2) *)
Lemma cos_near1 x : 0 <= 1 - cos x <= x * x / 2.
Proof.
  assert (E : cos x = 1 - 2 * (sin (x / 2) * sin (x / 2))).
  { replace x with (2 * (x / 2)) at 1 by field. rewrite cos_2a_sin. lra. }
  pose proof (Rsq_abs _ _ (sin_le (x / 2))) as A. assert (B : Rabs (x / 2) * Rabs (x / 2) = x * x / 4) by (rewrite <- Rabs_mult, Rabs_right; [field|nra]).
  rewrite B in A. rewrite E. pose proof (Rle_0_sqr (sin (x / 2))) as C. unfold Rsqr in C. lra.
Qed.
Lemma sin_near x : Rabs (sin x - x) <= Rabs x * (x * x / 2).
Proof.
  destruct (MVT_abs (fun t => sin t - t) (fun t => cos t - 1) 0 x) as (c & E & C).
  - intros c _. apply (derivable_pt_lim_minus sin (fun t => t) c (cos c) 1); [apply derivable_pt_lim_sin|apply derivable_pt_lim_id].
  - rewrite sin_0, !Rminus_0_r in E. rewrite E. rewrite Rmult_comm. apply Rmult_le_compat_l; [apply Rabs_pos|].
    pose proof (cos_near1 c) as [A B]. rewrite Rabs_left1 by lra.
    assert (c * c <= x * x). { unfold Rmin, Rmax in C. destruct (Rle_dec 0 x); nra. }
    lra.
Qed.
(** second order expansion of the cosine *)
Lemma cos_step h s : Rabs s <= 1 -> Rabs (cos (h + s) - cos h + s * sin h) <= s * s.
Proof.
  intro L. rewrite cos_plus.
  replace (cos h * cos s - sin h * sin s - cos h + s * sin h) with (- (cos h * (1 - cos s)) + sin h * (s - sin s)) by ring.
  assert (X : Rabs (cos s - 1) <= s * s / 2) by (pose proof (cos_near1 s); rewrite Rabs_left1; lra).
  pose proof (sin_near s) as A. pose proof (cos_1 h). pose proof (sin_1 h).
  eapply Rle_trans; [apply Rabs_triang|]. rewrite Rabs_Ropp, !Rabs_mult.
  rewrite (Rabs_minus_sym 1), (Rabs_minus_sym s).
  assert (P1 : Rabs (cos h) * Rabs (cos s - 1) <= 1 * (s * s / 2)) by (apply Rmult_le_compat; auto using Rabs_pos).
  assert (Q0 : 0 <= s * s) by nra.
  assert (P2 : Rabs (sin h) * Rabs (sin s - s) <= 1 * (s * s / 2)).
  { apply Rmult_le_compat; auto using Rabs_pos. eapply Rle_trans; [exact A|]. pose proof (Rabs_pos s). nra. }
  lra.
Qed.

(** ** constants *)
Lemma PI_bounds : 3.1415926 < PI < 3.1415927.
Proof.
  pose proof (PI_2_3_7_ineq 5) as [A B]. cbn [sum_f_R0 Nat.mul Nat.add] in A, B. unfold tg_alt, PI_2_3_7_tg, Ratan_seq in A, B. cbn [pow Nat.add Nat.mul] in A, B.
  repeat (rewrite S_INR in A || rewrite S_INR in B). cbn [INR] in A, B. split; lra.
Qed.
Definition rad (x : R) : R := x * (PI / 180).
Lemma rad_plus a b : rad (a + b) = rad a + rad b. Proof. unfold rad. ring. Qed.
Lemma rad_minus a b : rad (a - b) = rad a - rad b. Proof. unfold rad. ring. Qed.
Lemma rad_opp a : rad (- a) = - rad a. Proof. unfold rad. ring. Qed.
Lemma rad_abs x a : Rabs x <= a -> Rabs (rad x) <= 0.01745330 * a.
Proof.
  intro H. unfold rad. rewrite Rabs_mult. pose proof PI_bounds. rewrite (Rabs_right (PI / 180)) by lra.
  rewrite Rmult_comm. apply Rmult_le_compat; try apply Rabs_pos; lra.
Qed.
Lemma sin_taylor a : 0 <= a <= PI -> a - a ^ 3 / 6 + a ^ 5 / 120 - a ^ 7 / 5040 <= sin a <= a - a ^ 3 / 6 + a ^ 5 / 120.
Proof.
  intros [H1 H2]. pose proof (sin_bound a 0 H1 H2) as [_ B]. pose proof (sin_bound a 1 H1 H2) as [A _].
  unfold sin_approx in *. cbn [sum_f_R0 Nat.mul Nat.add] in *. unfold sin_term in *. cbn [Nat.mul Nat.add fact pow] in *. 
  split.
  - eapply Rle_trans; [|exact A]. cbn [INR]. right. cbn. field.
  - eapply Rle_trans; [exact B|]. right. cbn. field.
Qed.
