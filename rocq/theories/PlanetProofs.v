(** PlanetProofs.v -- the series of the planetary theory in floats (proof support). *)
From Coq Require Import ZArith QArith Qabs Qreals Lqa Reals Lra Lia List Bool.
From Verif Require Import Base Flt QUtil BaseModel BaseProofs AstroModel SpecAstro SpecSeason AstroReal AstroReal2 AstroFlt AstroApx AstroSun SunProofs PlanetModel SpecPlanet.
Import ListNotations.
Local Open Scope R_scope.

Lemma tables_L : [TL0; TL1; TL2; TL3; TL4; TL5] = [earth_L0; earth_L1; earth_L2; earth_L3; earth_L4; earth_L5]. Proof. vm_compute. reflexivity. Qed.
Lemma tables_B : [TB0; TB1] = [earth_B0; earth_B1]. Proof. vm_compute. reflexivity. Qed.
Lemma tables_R : [TR0; TR1; TR2; TR3; TR4] = [earth_R0; earth_R1; earth_R2; earth_R3; earth_R4]. Proof. vm_compute. reflexivity. Qed.
Lemma tables_A : ABER_A = motion_A /\ ABER_B = motion_B /\ ABER_C = motion_C. Proof. vm_compute. repeat split; reflexivity. Qed.

(** pi to fourteen places *)
Lemma PI_tight : Rabs (PI - Q2R pi64) <= 1 / 100000000000000.
Proof.
  pose proof (PI_2_3_7_ineq 7) as [A B]. cbn [sum_f_R0 Nat.mul Nat.add] in A, B. unfold tg_alt, PI_2_3_7_tg, Ratan_seq in A, B. cbn [pow Nat.add Nat.mul] in A, B.
  rewrite !INR_IZR_INZ in A. rewrite !INR_IZR_INZ in B. cbn [Z.of_nat Pos.of_succ_nat Pos.succ] in A, B. unfold pi64. rewrite Q2R_lit. apply Rabs_le_iff. split; lra.
Qed.

(** ** one series *)
Definition qsize (T : list (Z * Q * Q)) : Z := fold_right (fun '(a, _, _) s => a + s)%Z 0%Z T.
Definition qerr (T : list (Z * Q * Q)) : Q :=
  fold_right (fun '(a, b, c) s => inject_Z a * ((1003 # 1000000000000) + c * (9 # 1000000000000000)) + s)%Q 0%Q T.
Definition row_ok (r : Z * Q * Q) : bool := let '(a, b, c) := r in ((0 <=? a)%Z && Qle_bool 0 b && Qle_bool b 7 && Qle_bool 0 c && Qle_bool c 170000).

Section Planet.
Variable rnd : Q -> Q.
Hypothesis N : Nearest rnd.
Variable lm : libm.
Hypothesis A : accurate lm.
Variable total : list Q -> Q.
Hypothesis TOT : sum_ok total.
Variable tm : Q.
Hypothesis TM : Rabs (Q2R tm) <= 2.07.

Lemma apx_cosr a x X e : apx a x X e -> apx (l_cos lm a) (cos x) 1 (1 / 1000000000 + e).
Proof.
  intros [E _]. pose proof (acc_cos lm A a) as S. unfold near, tol in S. pose proof (cos_lip x (Q2R a)) as L. split; [|apply cos_1].
  replace (Q2R (l_cos lm a) - cos x) with ((Q2R (l_cos lm a) - cos (Q2R a)) + (cos (Q2R a) - cos x)) by ring. eapply Rle_trans; [apply Rabs_triang|]. lra.
Qed.
Lemma apx_sinr a x X e : apx a x X e -> apx (l_sin lm a) (sin x) 1 (1 / 1000000000 + e).
Proof.
  intros [E _]. pose proof (acc_sin lm A a) as S. unfold near, tol in S. pose proof (sin_lip x (Q2R a)) as L. split; [|apply sin_1].
  replace (Q2R (l_sin lm a) - sin x) with ((Q2R (l_sin lm a) - sin (Q2R a)) + (sin (Q2R a) - sin x)) by ring. eapply Rle_trans; [apply Rabs_triang|]. lra.
Qed.
Lemma apx_q q X : Rabs (Q2R q) <= X -> apx (rnd q) (Q2R q) X (X * u).
Proof. intro H. eapply apx_weaken; [apply (apx_rnd rnd N), apx_exact, H| |]; lra. Qed.
Lemma Qle_bool_R a b : Qle_bool a b = true -> Q2R a <= Q2R b.
Proof. intro H. apply Qle_Rle, Qle_bool_iff, H. Qed.

Lemma term_apx a b c : row_ok (a, b, c) = true ->
  apx (planet_term rnd lm tm (a, b, c)) (wave (Q2R tm) (a, b, c)) (IZR a) (Q2R (inject_Z a * ((1003 # 1000000000000) + c * (9 # 1000000000000000)))).
Proof.
  unfold row_ok. intro G. apply andb_prop in G. destruct G as [G G5]. apply andb_prop in G. destruct G as [G G4]. apply andb_prop in G. destruct G as [G G3]. apply andb_prop in G. destruct G as [G1 G2].
  apply Z.leb_le, IZR_le in G1. apply Qle_bool_R in G2, G3, G4, G5. rewrite RMicromega.Q2R_0 in G2, G4. rewrite Q2R_lit in G3, G5.
  unfold planet_term, wave.
  assert (B : apx (rnd b) (Q2R b) 7 (7 * u)) by (apply apx_q; apply Rabs_le_iff; lra).
  assert (C : apx (rnd c) (Q2R c) (Q2R c) (Q2R c * u)) by (apply apx_q; rewrite Rabs_right; lra).
  assert (T : apx tm (Q2R tm) 2.07 0) by (apply apx_exact, TM).
  pose proof (apx_add rnd N _ _ _ _ _ _ _ _ B (apx_mul rnd N _ _ _ _ _ _ _ _ C T)) as I.
  pose proof (apx_cosr _ _ _ _ I) as K. set (e := 1 / 1000000000 + _) in K.
  assert (E : e <= 0.001002 / 1000000 + Q2R c * (8.9 / 1000000000000000)) by (unfold e, u; nra).
  assert (AZ : apx (inject_Z a) (IZR a) (IZR a) 0) by (rewrite <- (Q2R_Z a); apply apx_exact; rewrite Q2R_Z, Rabs_right; lra).
  pose proof (apx_mul rnd N _ _ _ _ _ _ _ _ AZ K) as M. eapply apx_weaken; [exact M|lra|].
  rewrite Q2R_mult, Q2R_plus, Q2R_mult, Q2R_Z, !Q2R_lit.
  assert (e0 : 0 <= e) by (apply apx_pos in K; lra).
  assert (e1 : e <= 1) by nra.
  set (ra := IZR a) in *. replace (ra * e + (1 + e) * 0 + (ra * 1 + (ra * e + (1 + e) * 0)) * u) with (ra * (e + (1 + e) * u)) by ring.
  apply Rmult_le_compat_l; [exact G1|]. unfold u. lra.
Qed.
Lemma sigma_apx T : forallb row_ok T = true -> (length T <= 100)%nat ->
  apx (sigma3 rnd lm total tm T) (waves (Q2R tm) T) (IZR (qsize T)) (Q2R (qerr T) * (1 + 1 / 1000000000) + IZR (qsize T) / 1000000000000).
Proof.
  intros OK L. unfold sigma3. pose proof (TOT (map (planet_term rnd lm tm) T) ltac:(rewrite map_length; exact L)) as S. clear L.
  assert (X : Rabs (Q2R (exact_sum (map (planet_term rnd lm tm) T)) - waves (Q2R tm) T) <= Q2R (qerr T) /\ Rabs (waves (Q2R tm) T) <= IZR (qsize T) /\
    Q2R (exact_sum (map Qabs (map (planet_term rnd lm tm) T))) <= IZR (qsize T) + Q2R (qerr T)).
  { clear S. induction T as [|[[a b] c] T IH]; cbn [map exact_sum waves qsize qerr fold_right].
    - rewrite !RMicromega.Q2R_0, Rminus_eq_0, !Rabs_R0. lra.
    - cbn [forallb] in OK. apply andb_prop in OK. destruct OK as [O1 O2]. destruct (IH O2) as [I1 [I2 I3]]. clear IH.
      pose proof (term_apx a b c O1) as P. pose proof (apx_size _ _ _ _ P) as P3. destruct P as [P1 P2].
      fold (waves (Q2R tm) T). fold (qsize T). fold (qerr T). rewrite plus_IZR, !Q2R_plus, Q2R_abs.
      set (p := planet_term rnd lm tm (a, b, c)) in *. set (w := wave (Q2R tm) (a, b, c)) in *.
      split; [|split]; [|eapply Rle_trans; [apply Rabs_triang|]; lra|rewrite Q2R_mult, Q2R_plus in *; lra].
      match goal with |- Rabs ?x <= _ => replace x with ((Q2R p - w) + (Q2R (exact_sum (map (planet_term rnd lm tm) T)) - waves (Q2R tm) T)) by ring end.
      eapply Rle_trans; [apply Rabs_triang|]. lra. }
  destruct X as [X1 [X2 X3]]. split; [|exact X2]. apply Qle_Rle in S. rewrite Q2R_abs, Q2R_minus, Q2R_mult, Q2R_lit in S.
  match goal with |- Rabs (?t - ?w) <= _ => match type of X1 with Rabs (?x - _) <= _ => replace (t - w) with ((t - x) + (x - w)) by ring end end.
  eapply Rle_trans; [apply Rabs_triang|]. 
  assert (0 <= Q2R (qerr T)) by (eapply Rle_trans; [apply Rabs_pos|exact X1]). lra.
Qed.
Lemma sigma_num T s e : forallb row_ok T = true -> (length T <=? 100)%nat = true -> qsize T = s -> Qle_bool (qerr T * (100000001 # 100000000) + (inject_Z s * (1 # 1000000000000))) e = true ->
  apx (sigma3 rnd lm total tm T) (waves (Q2R tm) T) (IZR s) (Q2R e).
Proof.
  intros O L Z E. eapply apx_weaken; [apply (sigma_apx T O), Nat.leb_le, L|rewrite Z; lra|]. rewrite Z. apply Qle_bool_R in E. rewrite Q2R_plus, !Q2R_mult, Q2R_Z, !Q2R_lit in E.
  assert (0 <= Q2R (qerr T)).
  { clear L Z E. induction T as [|[[a b] c] T IH]; cbn [qerr fold_right]; [rewrite RMicromega.Q2R_0; lra|].
    cbn [forallb] in O. apply andb_prop in O. destruct O as [O1 O2]. specialize (IH O2). fold (qerr T). rewrite Q2R_plus. pose proof (term_apx a b c O1) as P. apply apx_pos in P. lra. }
  lra.
Qed.
Ltac sig := apply sigma_num; vm_compute; reflexivity.
Lemma tm_apx : apx tm (Q2R tm) 2.07 0. Proof. apply apx_exact, TM. Qed.
Lemma zero_apx : apx 0 0 0 0. Proof. split; rewrite ?RMicromega.Q2R_0, ?Rminus_0_r, Rabs_R0; lra. Qed.

Lemma hstep a x X e p y Y f X' e' : apx a x X e -> apx p y Y f ->
  X + 2.07 * Y <= X' -> e + 2.07 * f + (X + e + 2.07 * (Y + f)) * (3 * u) <= e' -> apx (fadd rnd a (fmul rnd tm p)) (x + Q2R tm * y) X' e'.
Proof.
  intros HA HP B1 B2. pose proof (apx_pos _ _ _ _ HA) as P1. pose proof (apx_pos _ _ _ _ HP) as P2.
  eapply apx_weaken; [apply (apx_add rnd N); [exact HA|apply (apx_mul rnd N); [exact tm_apx|exact HP]]|exact B1|]. eapply Rle_trans; [|exact B2].
  set (w := 2.07 * (Y + f)). replace (2.07 * f + (Y + f) * 0 + (2.07 * Y + (2.07 * f + (Y + f) * 0)) * u) with (2.07 * f + w * u) by (unfold w; ring).
  replace (X + 2.07 * Y + (e + (2.07 * f + w * u))) with (X + e + w + w * u) by (unfold w; ring).
  assert (W : 0 <= w) by (unfold w; lra). unfold u. lra.
Qed.
Ltac hs H S P X e := pose proof (hstep _ _ _ _ _ _ _ _ X e S P ltac:(lra) ltac:(unfold u; rewrite ?Q2R_lit; lra)) as H.
Ltac hend P := eapply apx_weaken; [eapply (apx_divc rnd N); exact P|lra|unfold u; lra].

Lemma distance_apx : apx (planet_sum rnd lm total tm [TR0; TR1; TR2; TR3; TR4]) (earth_distance (Q2R tm)) 1.1 (1 / 100000000).
Proof.
  rewrite tables_R. unfold planet_sum, earth_distance. cbn [map poly]. pose proof zero_apx as Z0.
  assert (S0 : apx (sigma3 rnd lm total tm earth_R0) (waves (Q2R tm) earth_R0) 101709876 (Q2R (2 # 10))) by sig.
  assert (S1 : apx (sigma3 rnd lm total tm earth_R1) (waves (Q2R tm) earth_R1) 105576 (Q2R (1 # 1000))) by sig.
  assert (S2 : apx (sigma3 rnd lm total tm earth_R2) (waves (Q2R tm) earth_R2) 4513 (Q2R (1 # 1000))) by sig.
  assert (S3 : apx (sigma3 rnd lm total tm earth_R3) (waves (Q2R tm) earth_R3) 150 (Q2R (1 # 1000))) by sig.
  assert (S4 : apx (sigma3 rnd lm total tm earth_R4) (waves (Q2R tm) earth_R4) 4 (Q2R (1 # 1000))) by sig.
  hs P4 S4 Z0 4 0.0011. hs P3 S3 P4 160 0.01. hs P2 S2 P3 5000 0.1. hs P1 S1 P2 120000 0.3. hs P0 S0 P1 102000000 0.9.
  eapply apx_eq; [hend P0|]. field.
Qed.
Lemma latitude_apx : apx (planet_sum rnd lm total tm [TB0; TB1]) (earth_latitude (Q2R tm)) 0.0000057 (1 / 10000000000).
Proof.
  rewrite tables_B. unfold planet_sum, earth_latitude. cbn [map poly]. pose proof zero_apx as Z0.
  assert (S0 : apx (sigma3 rnd lm total tm earth_B0) (waves (Q2R tm) earth_B0) 538 (Q2R (1 # 1000))) by sig.
  assert (S1 : apx (sigma3 rnd lm total tm earth_B1) (waves (Q2R tm) earth_B1) 15 (Q2R (1 # 1000))) by sig.
  hs P1 S1 Z0 15 0.0011. hs P0 S0 P1 569.1 0.009. eapply apx_eq; [hend P0|]. field.
Qed.
Lemma longitude_apx : apx (planet_sum rnd lm total tm [TL0; TL1; TL2; TL3; TL4; TL5]) (earth_longitude (Q2R tm)) 13010 (14 / 1000000).
Proof.
  rewrite tables_L. unfold planet_sum, earth_longitude. cbn [map poly]. pose proof zero_apx as Z0.
  assert (S0 : apx (sigma3 rnd lm total tm earth_L0) (waves (Q2R tm) earth_L0) 178752448 (Q2R (1 # 1))) by sig.
  assert (S1 : apx (sigma3 rnd lm total tm earth_L1) (waves (Q2R tm) earth_L1) 628332178527 (Q2R (631 # 1))) by sig.
  assert (S2 : apx (sigma3 rnd lm total tm earth_L2) (waves (Q2R tm) earth_L2) 62068 (Q2R (1 # 1000))) by sig.
  assert (S3 : apx (sigma3 rnd lm total tm earth_L3) (waves (Q2R tm) earth_L3) 347 (Q2R (1 # 1000))) by sig.
  assert (S4 : apx (sigma3 rnd lm total tm earth_L4) (waves (Q2R tm) earth_L4) 123 (Q2R (1 # 1000))) by sig.
  assert (S5 : apx (sigma3 rnd lm total tm earth_L5) (waves (Q2R tm) earth_L5) 1 (Q2R (1 # 1000))) by sig.
  hs P5 S5 Z0 1 0.0011. hs P4 S4 P5 130 0.01. hs P3 S3 P4 700 0.1. hs P2 S2 P3 64000 0.3. hs P1 S1 P2 628332400000 632. hs P0 S0 P1 1300830000000 1320.
  eapply apx_eq; [hend P0|]. field.
Qed.

(** ** rounding, degrees and radians *)
Lemma apx_round12 a x X e : apx a x X e -> apx (round12 rnd a) x X (e + 6 / 10000000000000 + (X + e) * u).
Proof.
  clear TM. intro H. pose proof (apx_size _ _ _ _ H) as S. destruct H as [E B]. split; [|exact B]. unfold round12, fround.
  pose proof (qround12_err a) as Q. apply Qabs_R in Q. rewrite Q2R_minus, Q2R_lit in Q.
  assert (K : Rabs (Q2R (qround 12 a)) <= X + e + 1).
  { replace (Q2R (qround 12 a)) with ((Q2R (qround 12 a) - Q2R a) + Q2R a) by ring. eapply Rle_trans; [apply Rabs_triang|]. lra. }
  pose proof (fl_K rnd N _ _ K) as F.
  replace (Q2R (rnd (qround 12 a)) - x) with ((Q2R (rnd (qround 12 a)) - Q2R (qround 12 a)) + ((Q2R (qround 12 a) - Q2R a) + (Q2R a - x))) by ring.
  eapply Rle_trans; [apply Rabs_triang|]. eapply Rle_trans; [apply Rplus_le_compat_l, Rabs_triang|]. unfold u in *. lra.
Qed.
Lemma turn_apx : apx (fdiv rnd 180 pi64) (180 / PI) 57.3 (3 / 10000000000000).
Proof.
  clear TM. pose proof PI_bounds as P. pose proof PI_tight as T. assert (H := fdiv_R rnd N 180 pi64 60). unfold pi64 in *. rewrite !Q2R_lit in *.
  set (p := 884279719003555 / 281474976710656) in *. assert (P4 : 3.14159265 <= p <= 3.14159266) by (unfold p; lra).
  assert (I : 57.29 <= 180 / PI <= 57.3).
  { split; apply (Rmult_le_reg_r PI); try lra; unfold Rdiv; rewrite Rmult_assoc, Rinv_l by lra; lra. }
  assert (J : 57.29 <= 180 / p <= 57.3).
  { split; apply (Rmult_le_reg_r p); try lra; unfold Rdiv; rewrite Rmult_assoc, Rinv_l by lra; lra. }
  replace (180 / 1 / p) with (180 / p) in H by (field; lra).
  specialize (H ltac:(discriminate) ltac:(apply Rabs_le_iff; lra)). unfold u in H.
  assert (D : Rabs (180 / p - 180 / PI) <= 2 / 10000000000000).
  { replace (180 / p - 180 / PI) with ((PI - p) * (180 / p * / PI)) by (field; lra). rewrite Rabs_mult, (Rabs_right (180 / p * / PI)).
    - assert (V : 180 / p * / PI <= 57.3 * 0.34).
      { apply Rmult_le_compat; [lra|left; apply Rinv_0_lt_compat; lra|lra|]. apply (Rmult_le_reg_r PI); [lra|]. rewrite Rinv_l by lra. lra. }
      assert (V0 : 0 <= 180 / p * / PI) by (apply Rmult_le_pos; [lra|left; apply Rinv_0_lt_compat; lra]).
      apply (Rle_trans _ (1 / 100000000000000 * (57.3 * 0.34))); [apply Rmult_le_compat; try assumption; apply Rabs_pos|lra].
    - apply Rle_ge, Rmult_le_pos; [lra|left; apply Rinv_0_lt_compat; lra]. }
  apply Rabs_le_iff in H. apply Rabs_le_iff in D. split; apply Rabs_le_iff; lra.
Qed.
Lemma apx_deg a x X e : apx a x X e -> X <= 13100 -> e <= 1 -> apx (degrees rnd a) (in_deg x) (57.3 * X) (57.4 * e + 0.00000001).
Proof.
  clear TM. intros H B1 B2. pose proof (apx_pos _ _ _ _ H). eapply apx_weaken; [apply (apx_mul rnd N); [exact H|exact turn_apx]|lra|]. unfold u. nra.
Qed.
Lemma apx_in_degrees a x X e : apx a x X e -> X <= 13100 -> e <= 1 -> exists k : Z,
  apx (in_degrees rnd true a) (in_deg x + 360 * IZR k) (370 + 58 * e) (57.4 * e + 0.00000002) /\ 0 <= Q2R (in_degrees rnd true a) <= 360.0001.
Proof.
  clear TM. intros H B1 B2. pose proof (apx_pos _ _ _ _ H). destruct (apx_cot rnd N _ _ _ _ (apx_deg a x X e H B1 B2)) as [k [K1 K2]].
  exists k. split; [|exact K2]. eapply apx_weaken; [exact K1|lra|lra].
Qed.
Lemma apx_rad a : Rabs a <= 400 -> forall q, Q2R q = a -> apx (radians rnd (rnd q)) (rad a) (0.017454 * Rabs a) (2.1 / 1000000000 * Rabs a).
Proof.
  clear TM. intros B q <-. pose proof (Rabs_pos (Q2R q)) as P0. pose proof (fl rnd N q) as F. set (K := Rabs (Q2R q)) in *.
  assert (S : Rabs (Q2R (rnd q)) <= K * (1 + u)).
  { replace (Q2R (rnd q)) with ((Q2R (rnd q) - Q2R q) + Q2R q) by ring. eapply Rle_trans; [apply Rabs_triang|]. fold K. lra. }
  pose proof (radians_R rnd N _ _ S) as D. pose proof (rad_abs _ _ F) as G. rewrite rad_minus in G. split.
  - replace (Q2R (radians rnd (rnd q)) - rad (Q2R q)) with ((Q2R (radians rnd (rnd q)) - rad (Q2R (rnd q))) + (rad (Q2R (rnd q)) - rad (Q2R q))) by ring.
    eapply Rle_trans; [apply Rabs_triang|]. unfold u in *. lra.
  - eapply Rle_trans; [apply (rad_abs _ K); unfold K; lra|]. lra.
Qed.

(** ** aberration *)
Definition aok (F : Q) (r : Q * Q * Q) : bool := let '(a, b, c) := r in
  Qle_bool 0 a && Qle_bool (F * a) 119 && Qle_bool 0 b && Qle_bool b 360 && Qle_bool 0 c && Qle_bool c 10000000 && Qle_bool (F * a * (362 + (21 # 10) * c)) 91000000.
Lemma sine_apx b c : 0 <= Q2R b <= 360 -> 0 <= Q2R c <= 10000000 ->
  apx (sin_deg rnd lm (fadd rnd (rnd b) (fmul rnd (rnd c) tm))) (sin (rad (Q2R b + Q2R c * Q2R tm))) 1 ((362 + 2.1 * Q2R c) * (2.1 / 1000000000)).
Proof.
  intros HB HC. assert (B : apx (rnd b) (Q2R b) 360 (360 * u)) by (apply apx_q; apply Rabs_le_iff; lra).
  assert (C : apx (rnd c) (Q2R c) (Q2R c) (Q2R c * u)) by (apply apx_q; rewrite Rabs_right; lra).
  pose proof (apx_add rnd N _ _ _ _ _ _ _ _ B (apx_mul rnd N _ _ _ _ _ _ _ _ C tm_apx)) as I.
  assert (J : apx (fadd rnd (rnd b) (fmul rnd (rnd c) tm)) (Q2R b + Q2R c * Q2R tm) (360 + Q2R c * 2.07) (Q2R c / 100000000000000 + 1 / 100000000000)).
  { eapply apx_weaken; [exact I|lra|]. unfold u. nra. }
  eapply apx_weaken; [apply (apx_sin rnd N lm A _ _ _ _ J)|lra|lra].
Qed.
Lemma aber_term F f g (square : bool) a b c : aok F (a, b, c) = true -> (if square then apx f g (Q2R F) (1 / 10000000000000) /\ 1 <= Q2R F <= 5 else g = 1 /\ Q2R F = 1) ->
  apx (fmul rnd (if square then fmul rnd (radians rnd (rnd a)) f else radians rnd (rnd a)) (sin_deg rnd lm (fadd rnd (rnd b) (fmul rnd (rnd c) tm))))
      (g * (PI / 180 * Q2R a * sin ((Q2R b + Q2R c * Q2R tm) * (PI / 180)))) 2.1 0.0035.
Proof.
  unfold aok. intros G HF. repeat (apply andb_prop in G; let x := fresh "G" in destruct G as [G x]). apply Qle_bool_R in G, G0, G1, G2, G3, G4, G5.
  rewrite RMicromega.Q2R_0 in *. rewrite ?Q2R_mult, ?Q2R_plus, ?Q2R_mult, ?Q2R_lit in *.
  assert (AF : Q2R a <= 119) by (destruct square; [destruct HF as [_ HF]|destruct HF as [_ HF]]; nra).
  pose proof (apx_rad (Q2R a) ltac:(rewrite Rabs_right; lra) a eq_refl) as RA. rewrite Rabs_right in RA by lra.
  pose proof (sine_apx b c ltac:(lra) ltac:(lra)) as S. set (es := (362 + 2.1 * Q2R c) * (2.1 / 1000000000)) in *.
  assert (ES : 0 <= es <= 0.045) by (unfold es; split; nra).
  set (z := Q2R F * Q2R a) in *. assert (Z : z * es <= 91000000 * (2.1 / 1000000000)).
  { unfold es. replace (z * ((362 + 2.1 * Q2R c) * (2.1 / 1000000000))) with (z * (362 / 1 + 21 / 10 * Q2R c) * (2.1 / 1000000000)) by (unfold Rdiv; lra). apply Rmult_le_compat_r; lra. }
  assert (M : apx (if square then fmul rnd (radians rnd (rnd a)) f else radians rnd (rnd a)) (rad (Q2R a) * g) (0.017454 * z) (4 / 1000000000 * z)).
  { destruct square.
    - destruct HF as [HF F1]. eapply apx_weaken; [apply (apx_mul rnd N); [exact RA|exact HF]|unfold z; lra|]. unfold z, u.
      set (aa := Q2R a) in *. set (FF := Q2R F) in *. assert (0 <= FF * aa) by nra. assert (aa <= FF * aa) by nra. nra.
    - destruct HF as [-> HF]. rewrite Rmult_1_r. eapply apx_weaken; [exact RA| |]; unfold z; rewrite HF; lra. }
  assert (Z0 : 0 <= z) by (destruct square; [destruct HF as [_ HF]|destruct HF as [_ HF]]; unfold z; nra).
  eapply apx_eq; [eapply apx_weaken; [apply (apx_mul rnd N); [exact M|exact S]| |]|unfold rad; ring].
  - nra.
  - assert (ZE : 0 <= z * es) by nra. unfold u.
    replace (0.017454 * z * es + (1 + es) * (4 / 1000000000 * z) + (0.017454 * z * 1 + (0.017454 * z * es + (1 + es) * (4 / 1000000000 * z))) * (1 / 1000000000000000))
      with (0.017454 * (z * es) + 4 / 1000000000 * z + 4 / 1000000000 * (z * es) + (0.017454 * z + 0.017454 * (z * es) + 4 / 1000000000 * z + 4 / 1000000000 * (z * es)) * (1 / 1000000000000000)) by ring.
    lra.
Qed.
Lemma aber_fold F f g (square : bool) T : forallb (aok F) T = true -> (if square then apx f g (Q2R F) (1 / 10000000000000) /\ 1 <= Q2R F <= 5 else g = 1 /\ Q2R F = 1) ->
  forall s x X e, apx s x X e -> X + 2.1 * INR (length T) <= 3600 -> e + 0.0036 * INR (length T) <= 1 ->
  apx (fold_left (aber_step rnd lm tm f square) T s) (x + g * turns (PI / 180) (Q2R tm) T) (X + 2.1 * INR (length T)) (e + 0.0036 * INR (length T)).
Proof.
  intros O HF. induction T as [|[[a b] c] T IH]; intros s x X e S B1 B2.
  - cbn [fold_left turns fold_right length]. cbn [length INR] in *. eapply apx_eq; [eapply apx_weaken; [exact S| |]|]; lra.
  - cbn [forallb] in O. apply andb_prop in O. destruct O as [O1 O2]. cbn [length] in *. rewrite S_INR in *.
    pose proof (aber_term F f g square a b c O1 HF) as P. pose proof (apx_add rnd N _ _ _ _ _ _ _ _ S P) as Q. pose proof (pos_INR (length T)) as NN.
    pose proof (apx_pos _ _ _ _ S) as S0.
    assert (Q' : apx (aber_step rnd lm tm f square s (a, b, c)) (x + g * (PI / 180 * Q2R a * sin ((Q2R b + Q2R c * Q2R tm) * (PI / 180)))) (X + 2.1) (e + 0.0036)).
    { unfold aber_step. eapply apx_weaken; [exact Q|lra|]. unfold u. lra. }
    cbn [fold_left]. eapply apx_eq; [eapply apx_weaken; [apply (IH O2 _ _ _ _ Q')| |]|]; [lra|lra|lra|lra|].
    cbn [turns fold_right]. fold (turns (PI / 180) (Q2R tm) T). ring.
Qed.
Lemma motion_apx (fixed : bool) : apx
  (fold_left (aber_step rnd lm tm (sq rnd tm) true) ABER_C (fold_left (aber_step rnd lm tm tm true) ABER_B (fold_left (aber_step rnd lm tm 0 false) ABER_A (if fixed then lit rnd 3548193 1000 else lit rnd 354833 100))))
  (daily_motion fixed (PI / 180) (Q2R tm)) 3600 0.08.
Proof.
  destruct tables_A as [-> [-> ->]].
  assert (S : apx (if fixed then lit rnd 3548193 1000 else lit rnd 354833 100) (if fixed then 3548.193 else 3548.330) 3549 0.00001).
  { destruct fixed; (eapply apx_eq; [eapply apx_weaken; [apply (apx_litc rnd _ _ N)| |]|]; [cbn [Z.abs]; lra|cbn [Z.abs]; unfold u; lra|lra]). }
  assert (T2 : apx (sq rnd tm) (Q2R tm * Q2R tm) 4.2849 (1 / 10000000000000)) by (eapply apx_weaken; [apply (apx_sq rnd N), tm_apx|lra|unfold u; lra]).
  pose proof (aber_fold 1 0%Q 1 false motion_A ltac:(vm_compute; reflexivity) ltac:(split; [reflexivity|rewrite Q2R_lit; lra]) _ _ _ _ S) as P1.
  pose proof (aber_fold (207 # 100) tm (Q2R tm) true motion_B ltac:(vm_compute; reflexivity) ltac:(split; [eapply apx_weaken; [exact tm_apx|rewrite Q2R_lit; lra|lra]|rewrite Q2R_lit; lra])) as P2.
  pose proof (aber_fold (42849 # 10000) (sq rnd tm) (Q2R tm * Q2R tm) true motion_C ltac:(vm_compute; reflexivity) ltac:(split; [eapply apx_weaken; [exact T2|rewrite Q2R_lit; lra|lra]|rewrite Q2R_lit; lra])) as P3.
  cbn [length motion_A motion_B motion_C INR] in P1, P2, P3.
  specialize (P1 ltac:(lra) ltac:(lra)). specialize (P2 _ _ _ _ P1 ltac:(lra) ltac:(lra)). specialize (P3 _ _ _ _ P2 ltac:(lra) ltac:(lra)).
  eapply apx_eq; [eapply apx_weaken; [exact P3|lra|lra]|]. unfold daily_motion. ring.
Qed.
Lemma radius_apx : apx (radius_vector rnd lm total tm false) (earth_distance (Q2R tm)) 1.1 (1.1 / 100000000).
Proof. unfold radius_vector, in_degrees. eapply apx_weaken; [apply apx_round12, distance_apx|lra|unfold u; lra]. Qed.
Lemma aberration_apx (fixed : bool) : apx (aberration rnd lm total tm fixed) (code_aberration fixed (Q2R tm)) 0.0064 0.0000002.
Proof.
  unfold aberration. pose proof (motion_apx fixed) as M. 
  assert (K : apx (fmul rnd (lit rnd (-5775518) 1000000000) (radius_vector rnd lm total tm false)) (- 0.005775518 * earth_distance (Q2R tm)) 0.00636 0.0000000001).
  { eapply apx_eq; [eapply apx_weaken; [apply (apx_mul rnd N); [apply (apx_litc rnd _ _ N)|exact radius_apx]| |]|]; [cbn [Z.abs]; lra|cbn [Z.abs]; unfold u; lra|lra]. }
  cbv zeta. eapply apx_eq; [eapply apx_weaken; [apply apx_round12, (apx_divc rnd N), (apx_mul rnd N); [exact K|exact M]| |]|]; [lra|unfold u; lra|].
  unfold code_aberration, aberration_deg. lra.
Qed.
End Planet.
