(** AstroBall.v -- computing with balls: fixed-point centres and radii that enclose real numbers (proof support). *)
From Coq Require Import ZArith Reals Lra Lia List Bool.
From Verif Require Import AstroReal AstroReal2 AstroRA.
Import ListNotations.
Local Open Scope R_scope.

Definition SZ : Z := 1099511627776.
Definition ball : Type := (Z * Z)%type.
(** [x] is within [snd b] of [fst b], in units of 2^-40 *)
Definition inb (x : R) (b : ball) : Prop := Rabs (x * IZR SZ - IZR (fst b)) <= IZR (snd b).
Lemma SZ_pos : 0 < IZR SZ. Proof. apply IZR_lt. reflexivity. Qed.
Lemma inb_rad x b : inb x b -> 0 <= IZR (snd b).
Proof. unfold inb. intro H. eapply Rle_trans; [apply Rabs_pos|exact H]. Qed.
Lemma Zdiv_R a b : (0 < b)%Z -> IZR (a / b) <= IZR a / IZR b < IZR (a / b) + 1.
Proof.
  intro B. pose proof (IZR_lt _ _ B) as B'. pose proof (Z.div_mod a b ltac:(lia)) as E. pose proof (Z.mod_pos_bound a b B) as M.
  apply (f_equal IZR) in E. rewrite plus_IZR, mult_IZR in E. destruct M as [M1 M2]. apply IZR_le in M1. apply IZR_lt in M2.
  assert (K : IZR a / IZR b = IZR (a / b) + IZR (a mod b) / IZR b) by (rewrite E; field; lra). rewrite K.
  assert (0 <= IZR (a mod b) / IZR b) by (apply Rmult_le_pos; [lra|left; apply Rinv_0_lt_compat; lra]).
  assert (IZR (a mod b) / IZR b < 1) by (apply (Rmult_lt_reg_r (IZR b)); [lra|]; unfold Rdiv; rewrite Rmult_assoc, Rinv_l by lra; lra). lra.
Qed.

(** n / d, exactly or rounded down *)
Definition bq (n : Z) (d : positive) : ball := (n * SZ / Zpos d, 1)%Z.
Lemma bq_in n d : inb (IZR n / IZR (Zpos d)) (bq n d).
Proof.
  unfold inb, bq. cbn [fst snd]. pose proof (Zdiv_R (n * SZ) (Zpos d) ltac:(lia)) as H. rewrite mult_IZR in H.
  replace (IZR n / IZR (Zpos d) * IZR SZ) with (IZR n * IZR SZ / IZR (Zpos d)) by (unfold Rdiv; ring). apply Rabs_le_iff. lra.
Qed.
Definition badd (a b : ball) : ball := (fst a + fst b, snd a + snd b)%Z.
Definition bopp (a : ball) : ball := (- fst a, snd a)%Z.
Definition bsub (a b : ball) : ball := badd a (bopp b).
Definition bmulz (k : Z) (a : ball) : ball := (k * fst a, Z.abs k * snd a)%Z.
Definition bdivz (a : ball) (k : positive) : ball := (fst a / Zpos k, snd a / Zpos k + 2)%Z.
Definition dsz (z : Z) : Z := Z.shiftr z 40.
Lemma dsz_eq z : dsz z = (z / SZ)%Z.
Proof. unfold dsz. rewrite Z.shiftr_div_pow2 by discriminate. reflexivity. Qed.
Definition bmul (a b : ball) : ball :=
  (dsz (fst a * fst b), dsz (Z.abs (fst a) * snd b + Z.abs (fst b) * snd a + snd a * snd b) + 2)%Z.
(** a larger radius *)
Definition bwide (a b : ball) : ball := (fst a, snd a + Z.abs (fst b) + snd b)%Z.
Lemma badd_in x y a b : inb x a -> inb y b -> inb (x + y) (badd a b).
Proof.
  unfold inb, badd. cbn [fst snd]. intros H K. rewrite !plus_IZR.
  replace ((x + y) * IZR SZ - (IZR (fst a) + IZR (fst b))) with ((x * IZR SZ - IZR (fst a)) + (y * IZR SZ - IZR (fst b))) by ring.
  eapply Rle_trans; [apply Rabs_triang|]. lra.
Qed.
Lemma bopp_in x a : inb x a -> inb (- x) (bopp a).
Proof.
  unfold inb, bopp. cbn [fst snd]. intro H. rewrite opp_IZR. replace (- x * IZR SZ - - IZR (fst a)) with (- (x * IZR SZ - IZR (fst a))) by ring. rewrite Rabs_Ropp. exact H.
Qed.
Lemma bsub_in x y a b : inb x a -> inb y b -> inb (x - y) (bsub a b).
Proof. intros H K. apply badd_in; [exact H|apply bopp_in, K]. Qed.
Lemma bmulz_in k x a : inb x a -> inb (IZR k * x) (bmulz k a).
Proof.
  unfold inb, bmulz. cbn [fst snd]. intro H. rewrite !mult_IZR, abs_IZR.
  replace (IZR k * x * IZR SZ - IZR k * IZR (fst a)) with (IZR k * (x * IZR SZ - IZR (fst a))) by ring.
  rewrite Rabs_mult. apply Rmult_le_compat_l; [apply Rabs_pos|exact H].
Qed.
Lemma bdivz_in x a k : inb x a -> inb (x / IZR (Zpos k)) (bdivz a k).
Proof.
  unfold inb, bdivz. cbn [fst snd]. intro H. pose proof (Zdiv_R (fst a) (Zpos k) ltac:(lia)) as D. pose proof (Zdiv_R (snd a) (Zpos k) ltac:(lia)) as D2.
  assert (K : 0 < IZR (Zpos k)) by (apply IZR_lt; lia). rewrite plus_IZR. set (kk := IZR (Zpos k)) in *.
  replace (x / kk * IZR SZ - IZR (fst a / Zpos k)) with ((x * IZR SZ - IZR (fst a)) / kk + (IZR (fst a) / kk - IZR (fst a / Zpos k))) by (field; lra).
  assert (A1 : Rabs ((x * IZR SZ - IZR (fst a)) / kk) <= IZR (snd a) / kk).
  { unfold Rdiv. rewrite Rabs_mult, (Rabs_right (/ kk)) by (left; apply Rinv_0_lt_compat; lra). apply Rmult_le_compat_r; [left; apply Rinv_0_lt_compat; lra|exact H]. }
  assert (A2 : Rabs (IZR (fst a) / kk - IZR (fst a / Zpos k)) <= 1) by (apply Rabs_le_iff; lra).
  eapply Rle_trans; [apply Rabs_triang|]. lra.
Qed.
Lemma bmul_in x y a b : inb x a -> inb y b -> inb (x * y) (bmul a b).
Proof.
  unfold inb, bmul. cbn [fst snd]. rewrite !dsz_eq. intros H K. pose proof SZ_pos as SP.
  pose proof (Zdiv_R (fst a * fst b) SZ ltac:(reflexivity)) as D. pose proof (Zdiv_R (Z.abs (fst a) * snd b + Z.abs (fst b) * snd a + snd a * snd b) SZ ltac:(reflexivity)) as D2.
  rewrite !plus_IZR, !mult_IZR, !abs_IZR in D2. rewrite mult_IZR in D. rewrite plus_IZR.
  set (A := IZR (fst a)) in *. set (B := IZR (fst b)) in *. set (s := IZR SZ) in *. set (p := x * s - A) in *. set (q := y * s - B) in *.
  assert (E : x * y * s = (A * B + (A * q + B * p + p * q)) / s) by (unfold p, q; field; lra). rewrite E.
  assert (Z : Rabs (A * q + B * p + p * q) <= Rabs A * IZR (snd b) + Rabs B * IZR (snd a) + IZR (snd a) * IZR (snd b)).
  { eapply Rle_trans; [apply Rabs_triang|]. apply Rplus_le_compat; [eapply Rle_trans; [apply Rabs_triang|]; apply Rplus_le_compat|]; rewrite Rabs_mult;
      apply Rmult_le_compat; auto using Rabs_pos, Rle_refl. }
  set (w := A * q + B * p + p * q) in *. set (W := Rabs A * IZR (snd b) + Rabs B * IZR (snd a) + IZR (snd a) * IZR (snd b)) in *.
  replace ((A * B + w) / s - IZR (fst a * fst b / SZ)) with (w / s + (A * B / s - IZR (fst a * fst b / SZ))) by (field; lra).
  assert (A1 : Rabs (w / s) <= W / s).
  { unfold Rdiv. rewrite Rabs_mult, (Rabs_right (/ s)) by (left; apply Rinv_0_lt_compat; lra). apply Rmult_le_compat_r; [left; apply Rinv_0_lt_compat; lra|exact Z]. }
  assert (A2 : Rabs (A * B / s - IZR (fst a * fst b / SZ)) <= 1) by (apply Rabs_le_iff; lra).
  eapply Rle_trans; [apply Rabs_triang|]. lra.
Qed.
Lemma inb_abs x b : inb x b -> Rabs x * IZR SZ <= IZR (Z.abs (fst b) + snd b).
Proof.
  unfold inb. intro H. pose proof SZ_pos. rewrite plus_IZR, abs_IZR. rewrite <- (Rabs_right (IZR SZ)) by lra. rewrite <- Rabs_mult.
  replace (x * IZR SZ) with (IZR (fst b) + (x * IZR SZ - IZR (fst b))) by ring. eapply Rle_trans; [apply Rabs_triang|]. lra.
Qed.
Lemma bwide_in x y e a b : inb x a -> inb e b -> Rabs (y - x) <= Rabs e -> inb y (bwide a b).
Proof.
  intros H E W. pose proof (inb_abs _ _ E) as B. pose proof SZ_pos as SP. unfold inb, bwide in *. cbn [fst snd]. replace (y * IZR SZ - IZR (fst a)) with ((y - x) * IZR SZ + (x * IZR SZ - IZR (fst a))) by ring.
  eapply Rle_trans; [apply Rabs_triang|]. rewrite Rabs_mult, (Rabs_right (IZR SZ)) by lra. rewrite <- Z.add_assoc, plus_IZR.
  assert (Rabs (y - x) * IZR SZ <= Rabs e * IZR SZ) by (apply Rmult_le_compat_r; lra). lra.
Qed.
Lemma inb_eq x y b : inb x b -> x = y -> inb y b.
Proof. intros H <-. exact H. Qed.
(** less a whole number of units [u] *)
Definition bmod (u : Z) (a : ball) : ball := (fst a - u * SZ * ((fst a + u * SZ / 2) / (u * SZ)), snd a)%Z.
Lemma bmod_in u x a : inb x a -> exists k : Z, inb (x - IZR u * IZR k) (bmod u a).
Proof.
  intro H. exists ((fst a + u * SZ / 2) / (u * SZ))%Z. unfold inb, bmod in *. cbn [fst snd]. set (k := ((fst a + u * SZ / 2) / (u * SZ))%Z) in *.
  rewrite minus_IZR, !mult_IZR. replace ((x - IZR u * IZR k) * IZR SZ - (IZR (fst a) - IZR u * IZR SZ * IZR k)) with (x * IZR SZ - IZR (fst a)) by ring. exact H.
Qed.
Lemma inb_le x b (n d : Z) : inb x b -> (0 < d)%Z -> ((fst b + snd b) * d <=? n * SZ)%Z = true -> x <= IZR n / IZR d.
Proof.
  intros H D C. apply Z.leb_le, IZR_le in C. rewrite !mult_IZR, plus_IZR in C. apply Rabs_le_iff in H. pose proof SZ_pos as SP. apply IZR_lt in D.
  apply (Rmult_le_reg_r (IZR SZ * IZR d)); [apply Rmult_lt_0_compat; lra|]. replace (IZR n / IZR d * (IZR SZ * IZR d)) with (IZR n * IZR SZ) by (field; lra).
  eapply Rle_trans; [|exact C]. replace (x * (IZR SZ * IZR d)) with (x * IZR SZ * IZR d) by ring. apply Rmult_le_compat_r; lra.
Qed.
Lemma inb_ge x b (n d : Z) : inb x b -> (0 < d)%Z -> (n * SZ <=? (fst b - snd b) * d)%Z = true -> IZR n / IZR d <= x.
Proof.
  intros H D C. apply Z.leb_le, IZR_le in C. rewrite !mult_IZR, minus_IZR in C. apply Rabs_le_iff in H. pose proof SZ_pos as SP. apply IZR_lt in D.
  apply (Rmult_le_reg_r (IZR SZ * IZR d)); [apply Rmult_lt_0_compat; lra|]. replace (IZR n / IZR d * (IZR SZ * IZR d)) with (IZR n * IZR SZ) by (field; lra).
  eapply Rle_trans; [exact C|]. replace (x * (IZR SZ * IZR d)) with (x * IZR SZ * IZR d) by ring. apply Rmult_le_compat_r; lra.
Qed.

(** ** division, when the denominator is seen to be positive *)
Definition bpos (b : ball) : bool := (snd b <? fst b)%Z.
Definition bdiv (a b : ball) : ball :=
  (fst a * SZ / fst b, SZ * (snd a * fst b + Z.abs (fst a) * snd b) / ((fst b - snd b) * fst b) + 2)%Z.
Lemma bdiv_in x y a b : inb x a -> inb y b -> bpos b = true -> inb (x / y) (bdiv a b).
Proof.
  intros H K P. apply Z.ltb_lt in P. pose proof (inb_rad _ _ K) as R0. apply le_IZR in R0.
  pose proof (inb_rad _ _ H) as R1. pose proof SZ_pos as SP.
  unfold inb, bdiv in *. cbn [fst snd].
  pose proof (Zdiv_R (fst a * SZ) (fst b) ltac:(lia)) as D. pose proof (Zdiv_R (SZ * (snd a * fst b + Z.abs (fst a) * snd b)) ((fst b - snd b) * fst b) ltac:(nia)) as D2.
  rewrite plus_IZR. rewrite !mult_IZR, plus_IZR, !mult_IZR, abs_IZR, minus_IZR in D2. rewrite mult_IZR in D.
  apply IZR_lt in P. apply IZR_le in R0.
  set (A := IZR (fst a)) in *. set (B := IZR (fst b)) in *. set (s := IZR SZ) in *. set (e := IZR (snd a)) in *. set (f := IZR (snd b)) in *.
  set (p := x * s - A) in *. set (q := y * s - B) in *.
  assert (Y : B - f <= y * s) by (apply Rabs_le_iff in K; unfold q in K; lra).
  assert (E : x / y * s = A * s / B + s * (p * B - A * q) / ((y * s) * B)).
  { assert (x = (A + p) / s) by (unfold p; field; lra). assert (y = (B + q) / s) by (unfold q; field; lra). assert (B + q <> 0) by (unfold q; lra).
    assert (YN : y <> 0) by (intro Z; rewrite Z in Y; lra). replace (y * s) with (B + q) by (unfold q; ring).
    rewrite H0, H1. field. repeat split; try lra. }
  rewrite E. set (w := p * B - A * q) in *.
  assert (W : Rabs w <= e * B + Rabs A * f).
  { unfold w, Rminus. eapply Rle_trans; [apply Rabs_triang|]. rewrite Rabs_Ropp, !Rabs_mult, (Rabs_right B) by lra.
    apply Rplus_le_compat; [apply Rmult_le_compat_r; [lra|exact H]|apply Rmult_le_compat_l; [apply Rabs_pos|exact K]]. }
  assert (V : Rabs (s * w / (y * s * B)) <= s * (e * B + Rabs A * f) / ((B - f) * B)).
  { assert (P1 : 0 < (B - f) * B) by (apply Rmult_lt_0_compat; lra). assert (P2 : (B - f) * B <= y * s * B) by (apply Rmult_le_compat_r; lra).
    unfold Rdiv. rewrite !Rabs_mult, (Rabs_right s), (Rabs_right (/ (y * s * B))) by (try (left; apply Rinv_0_lt_compat); lra).
    apply Rmult_le_compat; [apply Rmult_le_pos; [lra|apply Rabs_pos]|left; apply Rinv_0_lt_compat; lra|apply Rmult_le_compat_l; lra|apply Rinv_le_contravar; lra]. }
  replace (A * s / B + s * w / (y * s * B) - IZR (fst a * SZ / fst b)) with (s * w / (y * s * B) + (A * s / B - IZR (fst a * SZ / fst b))) by ring.
  eapply Rle_trans; [apply Rabs_triang|]. assert (Rabs (A * s / B - IZR (fst a * SZ / fst b)) <= 1) by (apply Rabs_le_iff; lra). lra.
Qed.

(** ** sine, cosine and the inverse functions of small numbers *)
Definition bsmall (b : ball) : bool := (100 * (Z.abs (fst b) + snd b) <=? 65 * SZ)%Z.
Lemma bsmall_R x b : inb x b -> bsmall b = true -> Rabs x <= 0.65.
Proof.
  intros H S. apply Z.leb_le, IZR_le in S. rewrite !mult_IZR in S. pose proof (inb_abs _ _ H) as K. pose proof SZ_pos.
  apply (Rmult_le_reg_r (IZR SZ)); lra.
Qed.
Lemma sin_poly x : Rabs x <= 0.65 -> Rabs (sin x - (x - x * x * x / 6 + x * x * x * (x * x) / 120)) <= 0.00001.
Proof.
  assert (P : forall x, 0 <= x <= 0.65 -> Rabs (sin x - (x - x * x * x / 6 + x * x * x * (x * x) / 120)) <= 0.00001).
  { intros y H. pose proof PI_bounds as PB. pose proof (sin_taylor y ltac:(lra)) as [A B]. cbn [pow] in A, B. rewrite !Rmult_1_r in A, B.
    assert (Q2 : 0 <= y * y <= 0.65 * 0.65) by (split; [apply Rmult_le_pos|apply Rmult_le_compat]; lra).
    assert (Q3 : 0 <= y * (y * y) <= 0.65 * (0.65 * 0.65)) by (split; [apply Rmult_le_pos|apply Rmult_le_compat]; lra).
    assert (Q7 : 0 <= y * (y * y) * ((y * y) * (y * y)) <= 0.65 * (0.65 * 0.65) * (0.65 * 0.65 * (0.65 * 0.65))).
    { assert (0 <= (y * y) * (y * y) <= 0.65 * 0.65 * (0.65 * 0.65)) by (split; [apply Rmult_le_pos|apply Rmult_le_compat]; lra). split; [apply Rmult_le_pos|apply Rmult_le_compat]; lra. }
    apply Rabs_le_iff. split; lra. }
  intro H. destruct (Rle_dec 0 x) as [G|G]; [apply P; apply Rabs_le_iff in H; lra|].
  specialize (P (- x) ltac:(apply Rabs_le_iff in H; lra)). rewrite sin_neg in P. rewrite <- Rabs_Ropp.
  replace (- (sin x - (x - x * x * x / 6 + x * x * x * (x * x) / 120))) with (- sin x - (- x - - x * - x * - x / 6 + - x * - x * - x * (- x * - x) / 120)) by field. exact P.
Qed.
Lemma F0 : INR (fact 0) = 1. Proof. reflexivity. Qed.
Lemma F2 : INR (fact 2) = 2. Proof. rewrite !fact_simpl, !mult_INR, F0. cbn [INR]. lra. Qed.
Lemma F4 : INR (fact 4) = 24. Proof. rewrite (fact_simpl 3), (fact_simpl 2), !mult_INR, F2. cbn [INR]. lra. Qed.
Lemma F6 : INR (fact 6) = 720. Proof. rewrite (fact_simpl 5), (fact_simpl 4), !mult_INR, F4. cbn [INR]. lra. Qed.
Lemma F8 : INR (fact 8) = 40320. Proof. rewrite (fact_simpl 7), (fact_simpl 6), !mult_INR, F6. cbn [INR]. lra. Qed.
Lemma cos_poly x : Rabs x <= 0.65 -> Rabs (cos x - (1 - x * x / 2 + x * x * (x * x) / 24 - x * x * (x * x) * (x * x) / 720)) <= 0.000001.
Proof.
  intro H. pose proof PI_bounds as PB. apply Rabs_le_iff in H. pose proof (cos_bound x 1 ltac:(lra) ltac:(lra)) as [A B].
  unfold cos_approx in *. cbn [sum_f_R0 Nat.mul Nat.add] in *. unfold cos_term in *. cbn [Nat.mul Nat.add] in *.
  rewrite F8 in *. rewrite F6 in *. rewrite F4 in *. rewrite F2 in *. rewrite F0 in *. cbn [pow] in *.
  assert (Q2 : 0 <= x * x <= 0.65 * 0.65) by (split; [pose proof (Rle_0_sqr x) as Z; exact Z|]; apply Rsq_abs, Rabs_le_iff; lra).
  assert (Q4 : 0 <= (x * x) * (x * x) <= 0.65 * 0.65 * (0.65 * 0.65)) by (split; [apply Rmult_le_pos|apply Rmult_le_compat]; lra).
  assert (Q8 : 0 <= (x * x) * (x * x) * ((x * x) * (x * x)) <= 0.65 * 0.65 * (0.65 * 0.65) * (0.65 * 0.65 * (0.65 * 0.65))) by (split; [apply Rmult_le_pos|apply Rmult_le_compat]; lra).
  apply Rabs_le_iff. lra.
Qed.
Definition bsin (b : ball) : ball :=
  if bsmall b then
    let s := bmul b b in let c := bmul b s in
    bwide (badd (bsub b (bdivz c 6)) (bdivz (bmul c s) 120)) (bq 1 100000)
  else (0, SZ)%Z.
Definition bcos (b : ball) : ball :=
  if bsmall b then
    let s := bmul b b in let f := bmul s s in
    bwide (bsub (badd (bsub (bq 1 1) (bdivz s 2)) (bdivz f 24)) (bdivz (bmul f s) 720)) (bq 1 1000000)
  else (0, SZ)%Z.
Lemma unit_in x : Rabs x <= 1 -> inb x (0, SZ)%Z.
Proof. intro H. unfold inb. cbn [fst snd]. rewrite Rminus_0_r, Rabs_mult. pose proof SZ_pos. rewrite (Rabs_right (IZR SZ)) by lra. rewrite <- (Rmult_1_l (IZR SZ)) at 2. apply Rmult_le_compat_r; lra. Qed.
Lemma bsin_in x b : inb x b -> inb (sin x) (bsin b).
Proof.
  intro H. unfold bsin. destruct (bsmall b) eqn:S; [|apply unit_in, sin_1]. cbv zeta.
  assert (X3 : inb (x * x * x) (bmul b (bmul b b))) by (eapply inb_eq; [exact (bmul_in _ _ _ _ H (bmul_in _ _ _ _ H H))|ring]).
  eapply bwide_in; [exact (badd_in _ _ _ _ (bsub_in _ _ _ _ H (bdivz_in _ _ 6 X3)) (bdivz_in _ _ 120 (bmul_in _ _ _ _ X3 (bmul_in _ _ _ _ H H))))|exact (bq_in 1 100000)|].
  rewrite (Rabs_right (1 / 100000)) by lra. eapply Rle_trans; [apply sin_poly, (bsmall_R _ _ H S)|lra].
Qed.
Lemma bcos_in x b : inb x b -> inb (cos x) (bcos b).
Proof.
  intro H. unfold bcos. destruct (bsmall b) eqn:S; [|apply unit_in, cos_1]. cbv zeta. pose proof (bmul_in _ _ _ _ H H) as X2. pose proof (bmul_in _ _ _ _ X2 X2) as X4.
  eapply bwide_in; [exact (bsub_in _ _ _ _ (badd_in _ _ _ _ (bsub_in _ _ _ _ (bq_in 1 1) (bdivz_in _ _ 2 X2)) (bdivz_in _ _ 24 X4)) (bdivz_in _ _ 720 (bmul_in _ _ _ _ X4 X2)))|exact (bq_in 1 1000000)|].
  pose proof (cos_poly _ (bsmall_R _ _ H S)) as P. replace (1 / 1) with 1 by field. rewrite (Rabs_right (1 / 1000000)) by lra. lra.
Qed.
Lemma atan_near x : Rabs (atan x - x) <= Rabs x * (x * x).
Proof.
  destruct (MVT_abs (fun t => atan t - t) (fun t => / (1 + t ^ 2) - 1) 0 x) as (c & E & C).
  - intros c _. apply (derivable_pt_lim_minus atan (fun t => t) c (/ (1 + c ^ 2)) 1); [|apply derivable_pt_lim_id].
    assert (E : / (1 + c ^ 2) = derive_pt atan c (derivable_pt_atan c)) by (rewrite derive_pt_atan; unfold Rsqr; field; nra).
    rewrite E. apply (derive_pt_eq_1 atan c _ (derivable_pt_atan c)). reflexivity.
  - rewrite atan_0, !Rminus_0_r in E. rewrite E. rewrite Rmult_comm. apply Rmult_le_compat_l; [apply Rabs_pos|].
    assert (K : / (1 + c ^ 2) - 1 = - (c * c) / (1 + c * c)) by (field; nra). rewrite K.
    assert (D : 0 <= c * c <= x * x).
    { split; [pose proof (Rle_0_sqr c) as Z; exact Z|]. destruct (Rle_dec 0 x) as [P|P].
      - rewrite Rmin_left, Rmax_right in C by lra. nra.
      - rewrite Rmin_right, Rmax_left in C by lra. nra. }
    unfold Rdiv. rewrite Rabs_mult, Rabs_Ropp, (Rabs_right (c * c)), (Rabs_right (/ (1 + c * c))) by (try (left; apply Rinv_0_lt_compat); lra).
    assert (I : / (1 + c * c) <= 1) by (rewrite <- Rinv_1; apply Rinv_le_contravar; lra).
    assert (c * c * / (1 + c * c) <= x * x * 1); [|lra]. apply Rmult_le_compat; [lra|left; apply Rinv_0_lt_compat; lra|lra|exact I].
Qed.
Definition batan (b : ball) : ball := bwide b (bmul b (bmul b b)).
Lemma batan_in x b : inb x b -> inb (atan x) (batan b).
Proof.
  intro H. eapply bwide_in; [exact H|exact (bmul_in _ _ _ _ H (bmul_in _ _ _ _ H H))|]. eapply Rle_trans; [apply atan_near|].
  rewrite (Rabs_mult x). apply Rmult_le_compat_l; [apply Rabs_pos|apply Rle_abs].
Qed.
(** a small angle from its sine *)
Lemma angle_near x s : Rabs x <= 0.5 -> sin x = s -> Rabs s <= 0.099 -> Rabs (x - (s + s * s * s / 6)) <= 0.000005.
Proof.
  intros HX E HS. pose proof (sin_poly x ltac:(lra)) as P. assert (X : Rabs x <= 0.1).
  { destruct (Rle_dec (Rabs x) 0.1) as [|N]; [assumption|]. exfalso.
    assert (K : forall y, 0.1 < y <= 0.5 -> 0.099 < y - y * y * y / 6).
    { intros y H. assert (y * y <= 0.5 * 0.5) by (apply Rmult_le_compat; lra). assert (y * (y * y) <= y * (0.5 * 0.5)) by (apply Rmult_le_compat_l; lra).
      destruct (Rle_dec y 0.12); [|lra]. assert (y * y <= 0.12 * 0.12) by (apply Rmult_le_compat; lra). assert (y * (y * y) <= y * (0.12 * 0.12)) by (apply Rmult_le_compat_l; lra). lra. }
    assert (Z : 0 <= Rabs x) by apply Rabs_pos.
    assert (S : Rabs (sin x) >= Rabs x - Rabs x * Rabs x * Rabs x / 6).
    { pose proof PI_bounds. destruct (Rle_dec 0 x) as [G|G].
      - rewrite (Rabs_right x) in * by lra. pose proof (sin_taylor x ltac:(lra)) as [A _]. cbn [pow] in A. rewrite !Rmult_1_r in A.
        assert (0 <= x * x <= 0.5 * 0.5) by (split; [apply Rmult_le_pos|apply Rmult_le_compat]; lra).
        assert (0 <= x * (x * x)) by (apply Rmult_le_pos; lra). assert (0 <= x * (x * x) * (x * x)) by (apply Rmult_le_pos; lra).
        assert (x * (x * x) * (x * x) * (x * x) <= x * (x * x) * (x * x) * 1) by (apply Rmult_le_compat_l; lra).
        apply Rle_ge. eapply Rle_trans; [|apply Rle_abs]. lra.
      - rewrite (Rabs_left x) in * by lra. rewrite <- (Rabs_Ropp (sin x)), <- sin_neg. set (y := - x) in *. pose proof (sin_taylor y ltac:(lra)) as [A _]. cbn [pow] in A. rewrite !Rmult_1_r in A.
        assert (0 <= y * y <= 0.5 * 0.5) by (split; [apply Rmult_le_pos|apply Rmult_le_compat]; lra).
        assert (0 <= y * (y * y)) by (apply Rmult_le_pos; lra). assert (0 <= y * (y * y) * (y * y)) by (apply Rmult_le_pos; lra).
        assert (y * (y * y) * (y * y) * (y * y) <= y * (y * y) * (y * y) * 1) by (apply Rmult_le_compat_l; lra).
        apply Rle_ge. eapply Rle_trans; [|apply Rle_abs]. lra. }
    specialize (K (Rabs x) ltac:(lra)). rewrite E in S. lra. }
  assert (P' : forall x, 0 <= x <= 0.1 -> Rabs (x - (sin x + sin x * sin x * sin x / 6)) <= 0.000005).
  { clear. intros x H. pose proof PI_bounds. pose proof (sin_taylor x ltac:(lra)) as [A B]. cbn [pow] in A, B. rewrite !Rmult_1_r in A, B.
    assert (Q2 : 0 <= x * x <= 0.1 * 0.1) by (split; [apply Rmult_le_pos|apply Rmult_le_compat]; lra).
    assert (Q3 : 0 <= x * (x * x) <= 0.1 * (0.1 * 0.1)) by (split; [apply Rmult_le_pos|apply Rmult_le_compat]; lra).
    assert (Q5 : 0 <= x * (x * x) * (x * x) <= 0.1 * (0.1 * 0.1) * (0.1 * 0.1)) by (split; [apply Rmult_le_pos|apply Rmult_le_compat]; lra).
    assert (Q7 : 0 <= x * (x * x) * (x * x) * (x * x) <= 0.1 * (0.1 * 0.1) * (0.1 * 0.1) * (0.1 * 0.1)) by (split; [apply Rmult_le_pos|apply Rmult_le_compat]; lra).
    assert (Q5' : x * (x * x) * (x * x) <= x * (x * x) * 0.01) by (apply Rmult_le_compat_l; lra).
    assert (S0 : 0 <= sin x) by (apply sin_ge_0; lra). set (s := sin x) in *. assert (S1 : 0 <= s <= x) by lra. assert (S2 : 0 <= x - s <= 0.00017) by lra.
    assert (T2 : 0 <= s * s <= x * x) by (split; [apply Rmult_le_pos|apply Rmult_le_compat]; lra).
    assert (T3 : s * (s * s) <= x * (x * x)) by (apply Rmult_le_compat; lra).
    assert (D : x * (x * x) - s * (s * s) = (x - s) * (x * x + x * s + s * s)) by ring.
    assert (xs : 0 <= x * s <= 0.1 * 0.1) by (split; [apply Rmult_le_pos|apply Rmult_le_compat]; lra).
    assert (D2 : (x - s) * (x * x + x * s + s * s) <= 0.00017 * 0.03) by (apply Rmult_le_compat; lra).
    apply Rabs_le_iff. lra. }
  apply Rabs_le_iff in X. destruct (Rle_dec 0 x) as [G|G]; [rewrite <- E; apply P'; lra|].
  specialize (P' (- x) ltac:(lra)). rewrite sin_neg, E in P'. rewrite <- Rabs_Ropp. replace (- (x - (s + s * s * s / 6))) with (- x - (- s + - s * - s * - s / 6)) by field. exact P'.
Qed.
(** ** degrees *)
Definition bradk : ball := (19190098069, 1000)%Z.
Lemma bradk_in : inb (PI / 180) bradk.
Proof. unfold inb, bradk, SZ. cbn [fst snd]. pose proof PI_bounds. apply Rabs_le_iff. lra. Qed.
Definition bdegk : ball := (62997375797124, 11600000)%Z.
Lemma bdegk_in : inb (180 / PI) bdegk.
Proof. unfold inb, bdegk, SZ. cbn [fst snd]. pose proof deg_k. apply Rabs_le_iff. lra. Qed.
Definition brad (b : ball) : ball := bmul b bradk.
Lemma brad_in x b : inb x b -> inb (rad x) (brad b).
Proof. intro H. exact (bmul_in _ _ _ _ H bradk_in). Qed.
Definition bdeg (b : ball) : ball := bmul b bdegk.
Lemma bdeg_in x b : inb x b -> inb (deg x) (bdeg b).
Proof. intro H. exact (bmul_in _ _ _ _ H bdegk_in). Qed.
