(** AstroApx.v -- a float near a real number, operation by operation (proof support). *)
From Coq Require Import ZArith QArith Qabs Qreals Lqa Reals Lra Lia List Bool.
From Verif Require Import Base Flt QUtil BaseModel BaseProofs AstroModel SpecAstro AstroReal AstroReal2 AstroFlt.
Import ListNotations.
Local Open Scope R_scope.

(** [q] is within [e] of [x], and [x] is at most [X] in size *)
Definition apx (q : Q) (x X e : R) : Prop := Rabs (Q2R q - x) <= e /\ Rabs x <= X.
Lemma apx_weaken q x X e X' e' : apx q x X e -> X <= X' -> e <= e' -> apx q x X' e'.
Proof. unfold apx. intros [? ?] ? ?. split; lra. Qed.
Lemma apx_eq q x y X e : apx q x X e -> x = y -> apx q y X e.
Proof. intros H <-. exact H. Qed.
Lemma apx_pos q x X e : apx q x X e -> 0 <= X /\ 0 <= e.
Proof. intros [A B]. pose proof (Rabs_pos (Q2R q - x)). pose proof (Rabs_pos x). lra. Qed.
Lemma apx_size q x X e : apx q x X e -> Rabs (Q2R q) <= X + e.
Proof. intros [A B]. replace (Q2R q) with (x + (Q2R q - x)) by ring. eapply Rle_trans; [apply Rabs_triang|]. lra. Qed.
Lemma apx_exact q X : Rabs (Q2R q) <= X -> apx q (Q2R q) X 0.
Proof. intro H. split; [rewrite Rminus_eq_0, Rabs_R0; lra|exact H]. Qed.
Lemma apx_const n d X : Rabs (IZR n / IZR (Zpos d)) <= X -> apx (n # d) (IZR n / IZR (Zpos d)) X 0.
Proof. intro H. rewrite <- Q2R_lit in *. apply apx_exact, H. Qed.
Lemma apx_opp q x X e : apx q x X e -> apx (- q) (- x) X e.
Proof. intros [A B]. split; [rewrite Q2R_opp; replace (- Q2R q - - x) with (- (Q2R q - x)) by ring; rewrite Rabs_Ropp; exact A|rewrite Rabs_Ropp; exact B]. Qed.

Section Apx.
Variable rnd : Q -> Q.
Hypothesis N : Nearest rnd.
Variable lm : libm.
Hypothesis A : accurate lm.

Lemma apx_rnd q x X e : apx q x X e -> apx (rnd q) x X (e + (X + e) * u).
Proof.
  intros H. pose proof (fl_K rnd N q _ (apx_size _ _ _ _ H)) as F. destruct H as [E B]. split; [|exact B].
  replace (Q2R (rnd q) - x) with ((Q2R (rnd q) - Q2R q) + (Q2R q - x)) by ring. eapply Rle_trans; [apply Rabs_triang|]. lra.
Qed.
Lemma apx_lit n d X : Rabs (IZR n / IZR (Zpos d)) <= X -> apx (lit rnd n d) (IZR n / IZR (Zpos d)) X (X * u).
Proof. intro H. eapply apx_weaken; [apply apx_rnd, apx_const, H| |]; lra. Qed.
Lemma apx_add a x X e b y Y f : apx a x X e -> apx b y Y f -> apx (fadd rnd a b) (x + y) (X + Y) (e + f + (X + Y + (e + f)) * u).
Proof.
  intros [A1 A2] [B1 B2]. unfold fadd. apply apx_rnd. split; [|eapply Rle_trans; [apply Rabs_triang|lra]].
  rewrite Q2R_plus. replace (Q2R a + Q2R b - (x + y)) with ((Q2R a - x) + (Q2R b - y)) by ring. eapply Rle_trans; [apply Rabs_triang|lra].
Qed.
Lemma apx_sub a x X e b y Y f : apx a x X e -> apx b y Y f -> apx (fsub rnd a b) (x - y) (X + Y) (e + f + (X + Y + (e + f)) * u).
Proof.
  intros [A1 A2] [B1 B2]. unfold fsub. apply apx_rnd. rewrite <- (Rabs_Ropp y) in B2. split; [|unfold Rminus; eapply Rle_trans; [apply Rabs_triang|lra]].
  rewrite Q2R_minus. replace (Q2R a - Q2R b - (x - y)) with ((Q2R a - x) + - (Q2R b - y)) by ring. eapply Rle_trans; [apply Rabs_triang|]. rewrite Rabs_Ropp. lra.
Qed.
Lemma apx_qmul a x X e b y Y f : apx a x X e -> apx b y Y f -> apx (a * b) (x * y) (X * Y) (X * f + (Y + f) * e).
Proof.
  intros HA HB. pose proof (apx_size _ _ _ _ HB) as SB. destruct HA as [A1 A2]. destruct HB as [B1 B2]. split.
  - rewrite Q2R_mult. replace (Q2R a * Q2R b - x * y) with (x * (Q2R b - y) + Q2R b * (Q2R a - x)) by ring.
    eapply Rle_trans; [apply Rabs_triang|]. rewrite !Rabs_mult.
    apply Rplus_le_compat; apply Rmult_le_compat; auto using Rabs_pos.
  - rewrite Rabs_mult. apply Rmult_le_compat; auto using Rabs_pos.
Qed.
Lemma apx_mul a x X e b y Y f : apx a x X e -> apx b y Y f ->
  apx (fmul rnd a b) (x * y) (X * Y) (X * f + (Y + f) * e + (X * Y + (X * f + (Y + f) * e)) * u).
Proof. intros HA HB. unfold fmul. apply apx_rnd, apx_qmul; assumption. Qed.
(** division by an exact constant *)
Lemma apx_divc a x X e n : apx a x X e -> 
  apx (fdiv rnd a (Zpos n # 1)) (x / IZR (Zpos n)) (X / IZR (Zpos n)) (e / IZR (Zpos n) + (X / IZR (Zpos n) + e / IZR (Zpos n)) * u).
Proof.
  intros [A1 A2]. assert (P : 0 < IZR (Zpos n)) by (apply IZR_lt; lia). unfold fdiv. apply apx_rnd.
  assert (I : 0 < / IZR (Zpos n)) by (apply Rinv_0_lt_compat, P). split.
  - rewrite Q2R_div by discriminate. rewrite Q2R_lit. replace (Q2R a / (IZR (Zpos n) / 1) - x / IZR (Zpos n)) with ((Q2R a - x) * / IZR (Zpos n)) by (field; lra).
    rewrite Rabs_mult, (Rabs_right (/ IZR (Zpos n))) by lra. unfold Rdiv. apply Rmult_le_compat_r; lra.
  - unfold Rdiv. rewrite Rabs_mult, (Rabs_right (/ IZR (Zpos n))) by lra. apply Rmult_le_compat_r; lra.
Qed.
Lemma apx_sq a x X e : apx a x X e -> apx (sq rnd a) (x * x) (X * X) (X * e + (X + e) * e + (X * X + (X * e + (X + e) * e)) * u).
Proof. intro H. unfold sq. apply apx_rnd, apx_qmul; assumption. Qed.
Lemma apx_sin a x X e : apx a x X e -> apx (sin_deg rnd lm a) (sin (rad x)) 1 ((X + e + 1) * (2 / 1000000000) + 0.0174533 * e).
Proof.
  intro H. pose proof (sin_deg_R rnd N lm A a _ (apx_size _ _ _ _ H)) as S. destruct H as [A1 A2]. split; [|apply sin_1].
  pose proof (sin_lip (rad x) (rad (Q2R a))) as L. rewrite <- rad_minus in L. pose proof (rad_abs _ _ A1) as R.
  replace (Q2R (sin_deg rnd lm a) - sin (rad x)) with ((Q2R (sin_deg rnd lm a) - sin (rad (Q2R a))) + (sin (rad (Q2R a)) - sin (rad x))) by ring.
  eapply Rle_trans; [apply Rabs_triang|]. lra.
Qed.
Lemma apx_cos a x X e : apx a x X e -> apx (cos_deg rnd lm a) (cos (rad x)) 1 ((X + e + 1) * (2 / 1000000000) + 0.0174533 * e).
Proof.
  intro H. pose proof (cos_deg_R rnd N lm A a _ (apx_size _ _ _ _ H)) as S. destruct H as [A1 A2]. split; [|apply cos_1].
  pose proof (cos_lip (rad x) (rad (Q2R a))) as L. rewrite <- rad_minus in L. pose proof (rad_abs _ _ A1) as R.
  replace (Q2R (cos_deg rnd lm a) - cos (rad x)) with ((Q2R (cos_deg rnd lm a) - cos (rad (Q2R a))) + (cos (rad (Q2R a)) - cos (rad x))) by ring.
  eapply Rle_trans; [apply Rabs_triang|]. lra.
Qed.
(** an angle brought into [0, 360) *)
Lemma apx_cot a x X e : apx a x X e -> exists k : Z, apx (coterminal_angle rnd a) (x + 360 * IZR k) (361 + e) (e + 1 / 1000000000000) /\
  0 <= Q2R (coterminal_angle rnd a) <= 360.0001.
Proof.
  intros [A1 A2]. destruct (coterminal_R rnd N a) as [k [B C]]. exists k. apply Rabs_le_iff in A1. apply Rabs_le_iff in B.
  split; [|exact C]. split; apply Rabs_le_iff; lra.
Qed.
Lemma apx_poly x X a b e : (Qabs x <= X)%Q -> Forall2 close a b -> (perr X b <= e)%Q -> 
  apx (poly rnd x a) (Q2R (pe x b)) (Q2R (pabs X b)) (Q2R e).
Proof.
  intros H F E. split.
  - rewrite <- Q2R_minus, <- Q2R_abs. apply Qle_Rle. eapply Qle_trans; [apply (poly_err rnd N x X a b H F)|exact E].
  - apply Qabs_R, pe_abs, H.
Qed.
End Apx.
