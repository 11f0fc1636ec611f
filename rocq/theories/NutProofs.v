(** NutProofs.v -- the principal terms of the nutation (proof support for C96). *)
From Coq Require Import ZArith QArith Qabs Qreals Lqa Reals Lra Lia List Bool.
From Verif Require Import Base Flt QUtil BaseModel BaseProofs AstroModel SpecAstro SpecSun SpecNut AstroReal AstroReal2 AstroFlt AstroApx AstroSun AstroNut.
Import ListNotations.
Local Open Scope R_scope.

(** moon's argument of latitude and elongation from the sun *)
Definition Fb : list Q := [9327191 # 100000; 483202017538 # 1000000; (-36825) # 10000000; 1 # 327270]%Q.
Definition Db : list Q := [29785036 # 100000; 44526711148 # 100000; (-19142) # 10000000; 1 # 189474]%Q.
Definition Fr (t : R) : R := 93.27191 + 483202.017538 * t - 0.0036825 * (t * t) + t * t * t / 327270.
Definition Dr (t : R) : R := 297.85036 + 445267.11148 * t - 0.0019142 * (t * t) + t * t * t / 189474.
Lemma Fb_R t : Q2R (pe t Fb) = Fr (Q2R t).
Proof. unfold Fb. rewrite !pe_cons. unfold pe. cbn [poly]. rewrite !Q2R_plus, !Q2R_mult, !Q2R_plus, !Q2R_mult, !Q2R_plus, !Q2R_mult, !Q2R_plus, ?Q2R_mult, !Q2R_lit. unfold Fr. lra. Qed.
Lemma Db_R t : Q2R (pe t Db) = Dr (Q2R t).
Proof. unfold Db. rewrite !pe_cons. unfold pe. cbn [poly]. rewrite !Q2R_plus, !Q2R_mult, !Q2R_plus, !Q2R_mult, !Q2R_plus, !Q2R_mult, !Q2R_plus, ?Q2R_mult, !Q2R_lit. unfold Dr. lra. Qed.
Lemma Ob_R t : Q2R (pe t Ob) = moon_node (Q2R t).
Proof. unfold Ob. rewrite !pe_cons. unfold pe. cbn [poly]. rewrite !Q2R_plus, !Q2R_mult, !Q2R_plus, !Q2R_mult, !Q2R_plus, !Q2R_mult, !Q2R_plus, ?Q2R_mult, !Q2R_lit. unfold moon_node. lra. Qed.

Section Nut.
Variable rnd : Q -> Q.
Hypothesis N : Nearest rnd.
Variable lm : libm.
Hypothesis A : accurate lm.

Ltac coeffs := repeat (apply Forall2_cons; [first [apply close_refl | apply (close_rnd rnd N); reflexivity]|]); apply Forall2_nil.
Ltac angle H Rl bl :=
  match goal with |- context [poly rnd ?t ?l] =>
    let F := fresh in assert (F : Forall2 close l bl) by (unfold lit, fdiv; coeffs);
    let P := fresh "P" in pose proof (apx_poly rnd N t TX _ _ (1 # 1000000) H F ltac:(vm_compute; discriminate)) as P; rewrite Rl, Q2R_lit in P;
    let k := fresh "k" in let B := fresh in let C := fresh in
    destruct (apx_cot rnd N _ _ _ _ P) as [k [B C]]; exists k; eapply apx_weaken; [exact B|lra|lra] end.
Lemma F_R t : (Qabs t <= TX)%Q -> exists k, apx (moon_latitude rnd t) (Fr (Q2R t) + 360 * IZR k) 361.1 (2 / 1000000).
Proof. intro H. unfold moon_latitude. angle H Fb_R Fb. Qed.
Lemma D_R t : (Qabs t <= TX)%Q -> exists k, apx (mean_moon_elongation rnd t) (Dr (Q2R t) + 360 * IZR k) 361.1 (2 / 1000000).
Proof. intro H. unfold mean_moon_elongation. angle H Db_R Db. Qed.
Lemma O_R t : (Qabs t <= TX)%Q -> exists k, apx (moon_ascending_node_longitude rnd t) (moon_node (Q2R t) + 360 * IZR k) 361.1 (2 / 1000000).
Proof. intro H. unfold moon_ascending_node_longitude. angle H Ob_R Ob. Qed.

(** what the rows after the first four add *)
Section InQ.
Local Open Scope Q_scope.
Fixpoint rest (f : row -> Q) (l : list row) : Q := match l with [] => 0 | r :: l' => f r + (1 # 1000000000) + rest f l' end.
Lemma rowb_pos x y : 0 <= rowb x y.
Proof. unfold rowb, TX. pose proof (Qabs_nonneg (inject_Z x)). pose proof (Qabs_nonneg (y # 10)). Lqa.lra. Qed.
Lemma f1_pos r : 0 <= f1 r.
Proof. destruct r as [[[[[[[[? ?] ?] ?] ?] ?] ?] ?] ?]. apply rowb_pos. Qed.
Lemma f2_pos r : 0 <= f2 r.
Proof. destruct r as [[[[[[[[? ?] ?] ?] ?] ?] ?] ?] ?]. apply rowb_pos. Qed.
Lemma rest_pos f l : (forall r, 0 <= f r) -> 0 <= rest f l.
Proof. intro P. induction l as [|r l IH]; cbn [rest]; [Lqa.lra|]. specialize (P r). Lqa.lra. Qed.
Lemma step_near s t T : Qabs s + T <= 500000 -> Qabs t <= T -> Qabs (fadd rnd s t - s) <= T + (1 # 1000000000).
Proof.
  intros S H. unfold fadd. setoid_replace (rnd (s + t) - s) with (t + (rnd (s + t) - (s + t))) by ring.
  apply add_le; [exact H|]. eapply Qle_trans; [apply (flq rnd N)|]. pose proof (Qabs_triangle s t) as B. unfold uq. Lqa.lra.
Qed.
Lemma moved s s' T Rs : Qabs (s' - s) <= T -> Qabs s + (T + Rs) <= 500000 -> Qabs s' + Rs <= 500000.
Proof. intros H B. pose proof (Qabs_triangle s (s' - s)) as X. setoid_replace (s + (s' - s)) with s' in X by ring. Lqa.lra. Qed.
Lemma rest_le tc a b c d e l : Qabs tc <= TX -> forall s, Qabs (fst s) + rest f1 l <= 500000 -> Qabs (snd s) + rest f2 l <= 500000 ->
  Qabs (fst (fold_left (nut_step rnd lm tc a b c d e) l s) - fst s) <= rest f1 l /\
  Qabs (snd (fold_left (nut_step rnd lm tc a b c d e) l s) - snd s) <= rest f2 l.
Proof.
  intro T. induction l as [|r l IH]; intros s H1 H2; cbn [fold_left rest] in *; [split; [setoid_replace (fst s - fst s) with 0 by ring|setoid_replace (snd s - snd s) with 0 by ring]; discriminate|].
  pose proof (rest_pos f1 l f1_pos) as P1. pose proof (rest_pos f2 l f2_pos) as P2.
  set (s' := nut_step rnd lm tc a b c d e s r).
  assert (D1 : Qabs (fst s' - fst s) <= f1 r + (1 # 1000000000)).
  { destruct r as [[[[[[[[? ?] ?] ?] ?] psi] psit] eps] epst]. cbn [nut_step fst snd f1 f2] in *. apply step_near; [Lqa.lra|]. apply term_le; [exact N|exact T|apply (sin_deg_1 rnd lm A)]. }
  assert (D2 : Qabs (snd s' - snd s) <= f2 r + (1 # 1000000000)).
  { destruct r as [[[[[[[[? ?] ?] ?] ?] psi] psit] eps] epst]. cbn [nut_step fst snd f1 f2] in *. apply step_near; [Lqa.lra|]. apply term_le; [exact N|exact T|apply (cos_deg_1 rnd lm A)]. }
  destruct (IH s' (moved _ _ _ _ D1 H1) (moved _ _ _ _ D2 H2)) as [I1 I2].
  set (F := fold_left (nut_step rnd lm tc a b c d e) l s') in *. split.
  - setoid_replace (fst F - fst s) with ((fst s' - fst s) + (fst F - fst s')) by ring. apply add_le; assumption.
  - setoid_replace (snd F - snd s) with ((snd s' - snd s) + (snd F - snd s')) by ring. apply add_le; assumption.
Qed.
End InQ.

(** one of the principal terms: [w] is near the angle [g] up to whole turns *)
Lemma row_R t w g X (p pt : Z) e : (Qabs t <= TX)%Q -> (exists k, apx w (g + 360 * IZR k) X e) -> X <= 2166.6 -> e <= 0.00002 -> Rabs (IZR p) <= 172000 -> Rabs (IZR pt) <= 1800 ->
  let v := fadd rnd (inject_Z p) (fmul rnd (lit rnd pt 10) t) in
  Rabs (Q2R (fmul rnd v (sin_deg rnd lm w)) - (IZR p + IZR pt / 10 * Q2R t) * sin (rad g)) <= 1 /\
  Rabs (Q2R (fmul rnd v (cos_deg rnd lm w)) - (IZR p + IZR pt / 10 * Q2R t) * cos (rad g)) <= 1.
Proof.
  intros H [k W] HX HE HP HT v. pose proof (t_R t H) as T.
  assert (V : apx v (IZR p + IZR pt / 10 * Q2R t) 175726.1 0.0001).
  { unfold v. pose proof (apx_exact (inject_Z p) 172000) as P. rewrite Q2R_Z in P. specialize (P HP).
    assert (L : apx (lit rnd pt 10) (IZR pt / 10) 180 (180 * u)) by (apply (apx_lit rnd N); unfold Rdiv; rewrite Rabs_mult, (Rabs_right (/ 10)) by lra; lra).
    eapply apx_weaken; [apply (apx_add rnd N); [exact P|apply (apx_mul rnd N); [exact L|exact T]]| |]; unfold u; lra. }
  pose proof (apx_sin rnd N lm A _ _ _ _ W) as S. pose proof (apx_cos rnd N lm A _ _ _ _ W) as C. rewrite sin_turn_d in S. rewrite cos_turn_d in C.
  destruct (apx_pos _ _ _ _ W) as [X0 E0].
  split; [pose proof (apx_mul rnd N _ _ _ _ _ _ _ _ V S) as [M _]|pose proof (apx_mul rnd N _ _ _ _ _ _ _ _ V C) as [M _]]; eapply Rle_trans; try exact M; unfold u; lra.
Qed.
Lemma w_R a b c d e (l1 l2 l3 l4 l5 : Z) x c' d' e' : Rabs (Q2R a) <= 362 -> Rabs (Q2R b) <= 362 -> l1 = 0%Z -> l2 = 0%Z ->
  Rabs (IZR l3) <= 2 -> Rabs (IZR l4) <= 2 -> Rabs (IZR l5) <= 2 ->
  apx c c' 361.1 (2 / 1000000) -> apx d d' 361.1 (2 / 1000000) -> apx e e' 361.1 (2 / 1000000) ->
  IZR l3 * c' + IZR l4 * d' + IZR l5 * e' = x ->
  apx (nut_w rnd a b c d e l1 l2 l3 l4 l5) x 2166.6 0.00002.
Proof.
  intros Ha Hb -> -> H3 H4 H5 C D E <-. unfold nut_w.
  assert (I : forall z, Rabs (IZR z) <= 2 -> apx (inject_Z z) (IZR z) 2 0) by (intros z Hz; pose proof (apx_exact (inject_Z z) 2) as P; rewrite Q2R_Z in P; auto).
  assert (Z0 : forall q, Rabs (Q2R q) <= 362 -> apx (fmul rnd (inject_Z 0) q) 0 0 0).
  { intros q Hq. pose proof (fmul_R rnd N (inject_Z 0) q 0) as F. rewrite Q2R_Z, Rmult_0_l, Rabs_R0 in F. specialize (F ltac:(lra)). rewrite Rmult_0_l in F. split; [exact F|rewrite Rabs_R0; lra]. }
  eapply apx_eq; [eapply apx_weaken; [apply (apx_add rnd N); [apply (apx_add rnd N); [apply (apx_add rnd N); [apply (apx_add rnd N); [apply Z0, Ha|apply Z0, Hb]|apply (apx_mul rnd N); [apply I, H3|exact C]]|apply (apx_mul rnd N); [apply I, H4|exact D]]|apply (apx_mul rnd N); [apply I, H5|exact E]]|lra|unfold u; lra]|lra].
Qed.

Definition g2 (t : R) : R := 2 * Fr t - 2 * Dr t + 2 * moon_node t.
Definition g3 (t : R) : R := 2 * Fr t + 2 * moon_node t.
Definition psi4 (t : R) : R :=
  (-171996 + -1742 / 10 * t) * sin (rad (moon_node t)) + (-13187 + -16 / 10 * t) * sin (rad (g2 t)) +
  (-2274 + -2 / 10 * t) * sin (rad (g3 t)) + (2062 + 2 / 10 * t) * sin (rad (2 * moon_node t)).
Definition eps4 (t : R) : R :=
  (92025 + 89 / 10 * t) * cos (rad (moon_node t)) + (5736 + -31 / 10 * t) * cos (rad (g2 t)) +
  (977 + -5 / 10 * t) * cos (rad (g3 t)) + (-895 + 5 / 10 * t) * cos (rad (2 * moon_node t)).
Lemma add4 (a b c d : Q) : Rabs (Q2R a) <= 180000 -> Rabs (Q2R b) <= 180000 -> Rabs (Q2R c) <= 180000 -> Rabs (Q2R d) <= 180000 ->
  Rabs (Q2R (fadd rnd (fadd rnd (fadd rnd (fadd rnd 0 a) b) c) d) - (Q2R a + Q2R b + Q2R c + Q2R d)) <= 0.00001.
Proof.
  intros HA HB HC HD. pose proof (apx_exact _ _ HA) as A1. pose proof (apx_exact _ _ HB) as B1. pose proof (apx_exact _ _ HC) as C1. pose proof (apx_exact _ _ HD) as D1.
  assert (Z0 : apx 0 0 0 0) by (split; rewrite ?RMicromega.Q2R_0, ?Rminus_0_r, Rabs_R0; lra).
  pose proof (apx_add rnd N _ _ _ _ _ _ _ _ (apx_add rnd N _ _ _ _ _ _ _ _ (apx_add rnd N _ _ _ _ _ _ _ _ (apx_add rnd N _ _ _ _ _ _ _ _ Z0 A1) B1) C1) D1) as [E _].
  rewrite Rplus_0_l in E. eapply Rle_trans; [exact E|]. unfold u. lra.
Qed.
Lemma bound_mul x s K : Rabs x <= K -> Rabs s <= 1 -> Rabs (x * s) <= K.
Proof. intros. rewrite Rabs_mult. pose proof (Rabs_pos x). pose proof (Rabs_pos s). nra. Qed.
Lemma coef_abs p q t K : Rabs t <= 20.7 -> Rabs p + Rabs q * 20.7 <= K -> Rabs (p + q * t) <= K.
Proof.
  intros H B. eapply Rle_trans; [apply Rabs_triang|]. rewrite Rabs_mult. pose proof (Rabs_pos q). pose proof (Rabs_pos t). nra.
Qed.
Lemma nutation_main t : (Qabs t <= TX)%Q ->
  Rabs (3600 * Q2R (nutation_longitude rnd lm t) - psi4 (Q2R t) / 10000) <= 0.4982 /\
  Rabs (3600 * Q2R (nutation_obliquity rnd lm t) - eps4 (Q2R t) / 10000) <= 0.1158.
Proof.
  intro H. unfold nutation_longitude, nutation_obliquity, nutation_obliquity_longitude. cbv zeta. cbn [fst snd].
  destruct (F_R t H) as [kf F]. destruct (D_R t H) as [kd D]. destruct (O_R t H) as [ko O].
  assert (MA : Rabs (Q2R (moon_mean_anomaly rnd t)) <= 362) by (unfold moon_mean_anomaly; match goal with |- context [poly rnd t ?l] => destruct (coterminal_R rnd N (poly rnd t l)) as [k [_ C]] end; apply Rabs_le_iff; lra).
  assert (MB : Rabs (Q2R (sun_earth_mean_anomaly rnd t)) <= 362) by (unfold sun_earth_mean_anomaly; match goal with |- context [poly rnd t ?l] => destruct (coterminal_R rnd N (poly rnd t l)) as [k [_ C]] end; apply Rabs_le_iff; lra).
  assert (TB : Rabs (Q2R t) <= 20.7) by (apply Qabs_R in H; unfold TX in H; rewrite Q2R_lit in H; lra).
  generalize dependent (moon_mean_anomaly rnd t). intros a MA. generalize dependent (sun_earth_mean_anomaly rnd t). intros b MB.
  generalize dependent (moon_latitude rnd t). intros c F. generalize dependent (mean_moon_elongation rnd t). intros d D. generalize dependent (moon_ascending_node_longitude rnd t). intros e O.
  change NUT with (firstn 4 NUT ++ skipn 4 NUT). rewrite fold_left_app.
  set (s4 := fold_left (nut_step rnd lm t a b c d e) (firstn 4 NUT) (0%Q, 0%Q)).
  assert (Q1 : (rest f1 (skipn 4 NUT) <= 4976)%Q) by (vm_compute; discriminate). assert (Q2 : (rest f2 (skipn 4 NUT) <= 1152)%Q) by (vm_compute; discriminate).
  assert (I2 : forall z, (-2 <= z <= 2)%Z -> Rabs (IZR z) <= 2) by (intros z [Z1 Z2]; apply IZR_le in Z1; apply IZR_le in Z2; apply Rabs_le_iff; lra).
  assert (W1 : exists k, apx (nut_w rnd a b c d e 0 0 0 0 1) (moon_node (Q2R t) + 360 * IZR k) 2166.6 0.00002)
    by (exists ko; apply (w_R a b c d e 0 0 0 0 1 _ _ _ _ MA MB eq_refl eq_refl (I2 0%Z ltac:(lia)) (I2 0%Z ltac:(lia)) (I2 1%Z ltac:(lia)) F D O); lra).
  assert (W2 : exists k, apx (nut_w rnd a b c d e 0 0 2 (-2) 2) (g2 (Q2R t) + 360 * IZR k) 2166.6 0.00002)
    by (exists (2 * kf - 2 * kd + 2 * ko)%Z; apply (w_R a b c d e 0 0 2 (-2) 2 _ _ _ _ MA MB eq_refl eq_refl (I2 2%Z ltac:(lia)) (I2 (-2)%Z ltac:(lia)) (I2 2%Z ltac:(lia)) F D O); rewrite plus_IZR, minus_IZR, !mult_IZR; unfold g2; lra).
  assert (W3 : exists k, apx (nut_w rnd a b c d e 0 0 2 0 2) (g3 (Q2R t) + 360 * IZR k) 2166.6 0.00002)
    by (exists (2 * kf + 2 * ko)%Z; apply (w_R a b c d e 0 0 2 0 2 _ _ _ _ MA MB eq_refl eq_refl (I2 2%Z ltac:(lia)) (I2 0%Z ltac:(lia)) (I2 2%Z ltac:(lia)) F D O); rewrite plus_IZR, !mult_IZR; unfold g3; lra).
  assert (W4 : exists k, apx (nut_w rnd a b c d e 0 0 0 0 2) (2 * moon_node (Q2R t) + 360 * IZR k) 2166.6 0.00002)
    by (exists (2 * ko)%Z; apply (w_R a b c d e 0 0 0 0 2 _ _ _ _ MA MB eq_refl eq_refl (I2 0%Z ltac:(lia)) (I2 0%Z ltac:(lia)) (I2 2%Z ltac:(lia)) F D O); rewrite !mult_IZR; lra).
  assert (IB : forall z K, (- K <= z <= K)%Z -> Rabs (IZR z) <= IZR K) by (intros z K [Z1 Z2]; apply IZR_le in Z1; apply IZR_le in Z2; rewrite opp_IZR in Z1; apply Rabs_le_iff; lra).
  destruct (row_R t _ _ _ (-171996) (-1742) _ H W1 ltac:(lra) ltac:(lra) (IB (-171996)%Z 172000%Z ltac:(lia)) (IB (-1742)%Z 1800%Z ltac:(lia))) as [S1 _].
  destruct (row_R t _ _ _ (-13187) (-16) _ H W2 ltac:(lra) ltac:(lra) (IB (-13187)%Z 172000%Z ltac:(lia)) (IB (-16)%Z 1800%Z ltac:(lia))) as [S2 _].
  destruct (row_R t _ _ _ (-2274) (-2) _ H W3 ltac:(lra) ltac:(lra) (IB (-2274)%Z 172000%Z ltac:(lia)) (IB (-2)%Z 1800%Z ltac:(lia))) as [S3 _].
  destruct (row_R t _ _ _ 2062 2 _ H W4 ltac:(lra) ltac:(lra) (IB 2062%Z 172000%Z ltac:(lia)) (IB 2%Z 1800%Z ltac:(lia))) as [S4 _].
  destruct (row_R t _ _ _ 92025 89 _ H W1 ltac:(lra) ltac:(lra) (IB 92025%Z 172000%Z ltac:(lia)) (IB 89%Z 1800%Z ltac:(lia))) as [_ E1].
  destruct (row_R t _ _ _ 5736 (-31) _ H W2 ltac:(lra) ltac:(lra) (IB 5736%Z 172000%Z ltac:(lia)) (IB (-31)%Z 1800%Z ltac:(lia))) as [_ E2].
  destruct (row_R t _ _ _ 977 (-5) _ H W3 ltac:(lra) ltac:(lra) (IB 977%Z 172000%Z ltac:(lia)) (IB (-5)%Z 1800%Z ltac:(lia))) as [_ E3].
  destruct (row_R t _ _ _ (-895) 5 _ H W4 ltac:(lra) ltac:(lra) (IB (-895)%Z 172000%Z ltac:(lia)) (IB 5%Z 1800%Z ltac:(lia))) as [_ E4].
  assert (SZ : forall q x y s K, Rabs (Q2R q - (IZR x + IZR y / 10 * Q2R t) * s) <= 1 -> Rabs s <= 1 -> Rabs (IZR x) + Rabs (IZR y / 10) * 20.7 <= K -> Rabs (Q2R q) <= K + 1).
  { intros q x y s K V Sb Kb. pose proof (bound_mul _ s _ (coef_abs _ _ _ _ TB Kb) Sb) as M. apply Rabs_le_iff in V. apply Rabs_le_iff in M. apply Rabs_le_iff. lra. }
  assert (P1 : Rabs (Q2R (fst s4) - psi4 (Q2R t)) <= 4.1).
  { unfold s4, psi4. cbn [firstn NUT fold_left nut_step fst snd].
    match goal with |- Rabs (Q2R (fadd rnd (fadd rnd (fadd rnd (fadd rnd 0 ?x1) ?x2) ?x3) ?x4) - _) <= _ =>
      pose proof (add4 x1 x2 x3 x4) as AD;
      specialize (AD ltac:(eapply Rle_trans; [apply (SZ _ _ _ _ 176000 S1 (sin_1 _)); rewrite !Rabs_left1 by lra; lra|lra]) ltac:(eapply Rle_trans; [apply (SZ _ _ _ _ 176000 S2 (sin_1 _)); rewrite !Rabs_left1 by lra; lra|lra])
        ltac:(eapply Rle_trans; [apply (SZ _ _ _ _ 176000 S3 (sin_1 _)); rewrite !Rabs_left1 by lra; lra|lra]) ltac:(eapply Rle_trans; [apply (SZ _ _ _ _ 176000 S4 (sin_1 _)); rewrite !Rabs_right by lra; lra|lra])) end.
    apply Rabs_le_iff in AD. apply Rabs_le_iff in S1. apply Rabs_le_iff in S2. apply Rabs_le_iff in S3. apply Rabs_le_iff in S4. apply Rabs_le_iff. cbv zeta in *. lra. }
  assert (P2 : Rabs (Q2R (snd s4) - eps4 (Q2R t)) <= 4.1).
  { unfold s4, eps4. cbn [firstn NUT fold_left nut_step fst snd].
    assert (MX : forall x y, (-93000 <= x <= 93000)%Z -> (-100 <= y <= 100)%Z -> Rabs (IZR x) + Rabs (IZR y / 10) * 20.7 <= 176000).
    { intros x y [X1 X2] [Y1 Y2]. apply IZR_le in X1. apply IZR_le in X2. apply IZR_le in Y1. apply IZR_le in Y2. assert (Rabs (IZR x) <= 93000) by (apply Rabs_le_iff; lra). assert (Rabs (IZR y / 10) <= 10) by (apply Rabs_le_iff; lra). lra. }
    match goal with |- Rabs (Q2R (fadd rnd (fadd rnd (fadd rnd (fadd rnd 0 ?x1) ?x2) ?x3) ?x4) - _) <= _ =>
      pose proof (add4 x1 x2 x3 x4) as AD;
      specialize (AD ltac:(eapply Rle_trans; [apply (SZ _ _ _ _ 176000 E1 (cos_1 _)), MX; lia|lra]) ltac:(eapply Rle_trans; [apply (SZ _ _ _ _ 176000 E2 (cos_1 _)), MX; lia|lra])
        ltac:(eapply Rle_trans; [apply (SZ _ _ _ _ 176000 E3 (cos_1 _)), MX; lia|lra]) ltac:(eapply Rle_trans; [apply (SZ _ _ _ _ 176000 E4 (cos_1 _)), MX; lia|lra])) end.
    apply Rabs_le_iff in AD. apply Rabs_le_iff in E1. apply Rabs_le_iff in E2. apply Rabs_le_iff in E3. apply Rabs_le_iff in E4. apply Rabs_le_iff. cbv zeta in *. lra. }
  assert (B1 : Rabs (psi4 (Q2R t)) <= 194000).
  { unfold psi4. pose proof (bound_mul _ (sin (rad (moon_node (Q2R t)))) _ (coef_abs (-171996) (-1742 / 10) _ 176000 TB ltac:(rewrite !Rabs_left1 by lra; lra)) (sin_1 _)).
    pose proof (bound_mul _ (sin (rad (g2 (Q2R t)))) _ (coef_abs (-13187) (-16 / 10) _ 13300 TB ltac:(rewrite !Rabs_left1 by lra; lra)) (sin_1 _)).
    pose proof (bound_mul _ (sin (rad (g3 (Q2R t)))) _ (coef_abs (-2274) (-2 / 10) _ 2300 TB ltac:(rewrite !Rabs_left1 by lra; lra)) (sin_1 _)).
    pose proof (bound_mul _ (sin (rad (2 * moon_node (Q2R t)))) _ (coef_abs 2062 (2 / 10) _ 2100 TB ltac:(rewrite !Rabs_right by lra; lra)) (sin_1 _)).
    repeat match goal with Hx : Rabs _ <= _ |- _ => apply Rabs_le_iff in Hx end. apply Rabs_le_iff. lra. }
  assert (B2 : Rabs (eps4 (Q2R t)) <= 194000).
  { unfold eps4. pose proof (bound_mul _ (cos (rad (moon_node (Q2R t)))) _ (coef_abs 92025 (89 / 10) _ 93000 TB ltac:(rewrite !Rabs_right by lra; lra)) (cos_1 _)).
    pose proof (bound_mul _ (cos (rad (g2 (Q2R t)))) _ (coef_abs 5736 (-31 / 10) _ 5900 TB ltac:(rewrite (Rabs_right 5736), Rabs_left1 by lra; lra)) (cos_1 _)).
    pose proof (bound_mul _ (cos (rad (g3 (Q2R t)))) _ (coef_abs 977 (-5 / 10) _ 1000 TB ltac:(rewrite (Rabs_right 977), Rabs_left1 by lra; lra)) (cos_1 _)).
    pose proof (bound_mul _ (cos (rad (2 * moon_node (Q2R t)))) _ (coef_abs (-895) (5 / 10) _ 1000 TB ltac:(rewrite (Rabs_left1 (-895)), Rabs_right by lra; lra)) (cos_1 _)).
    repeat match goal with Hx : Rabs _ <= _ |- _ => apply Rabs_le_iff in Hx end. apply Rabs_le_iff. lra. }
  assert (C1 : Rabs (Q2R (fst s4)) <= 195000) by (apply Rabs_le_iff in P1; apply Rabs_le_iff in B1; apply Rabs_le_iff; lra).
  assert (C2 : Rabs (Q2R (snd s4)) <= 195000) by (apply Rabs_le_iff in P2; apply Rabs_le_iff in B2; apply Rabs_le_iff; lra).
  assert (G1 : (Qabs (fst s4) <= 195000)%Q) by (apply R_Qabs; rewrite Q2R_lit; lra). assert (G2 : (Qabs (snd s4) <= 195000)%Q) by (apply R_Qabs; rewrite Q2R_lit; lra).
  clearbody s4. destruct (rest_le t a b c d e (skipn 4 NUT) H s4 ltac:(Lqa.lra) ltac:(Lqa.lra)) as [R1 R2].
  pose proof (Qle_trans _ _ _ R1 Q1) as R1'. pose proof (Qle_trans _ _ _ R2 Q2) as R2'. apply Qabs_R in R1'. apply Qabs_R in R2'. rewrite Q2R_minus, Q2R_lit in R1', R2'.
  clear R1 R2. generalize dependent (fold_left (nut_step rnd lm t a b c d e) (skipn 4 NUT) s4). intros s R1' R2'.
  assert (DV : forall q p r, Rabs (Q2R q - Q2R p) <= r -> Rabs (Q2R p) <= 195000 -> r <= 5000 -> Rabs (Q2R (fdiv rnd q 36000000) * 36000000 - Q2R q) <= 0.00001).
  { intros q p r V Pb Rb. apply Rabs_le_iff in V. apply Rabs_le_iff in Pb.
    pose proof (fdiv_R rnd N q 36000000 1 ltac:(discriminate)) as X. rewrite Q2R_lit in X. specialize (X ltac:(apply Rabs_le_iff; lra)). unfold u in X. apply Rabs_le_iff in X. apply Rabs_le_iff. lra. }
  pose proof (DV _ _ _ R1' C1 ltac:(lra)) as D1. pose proof (DV _ _ _ R2' C2 ltac:(lra)) as D2.
  repeat match goal with Hx : Rabs (_ - _) <= _ |- _ => apply Rabs_le_iff in Hx end. split; apply Rabs_le_iff; lra.
Qed.
End Nut.
