(** AstroRise4.v -- the corrections of the sunrise/sunset computation and their result (proof support). *)
From Coq Require Import ZArith QArith Qround Qabs Qreals Lqa Reals Lra Lia List Bool.
From Verif Require Import Base Flt QUtil BaseModel BaseProofs AstroModel SpecAstro AstroReal AstroReal2 AstroFlt AstroApx AstroSun AstroNut AstroRA AstroMove AstroStep AstroDt AstroRise AstroRise2 AstroRise3.
Import ListNotations.
Local Open Scope R_scope.

Section Rise.
Variable rnd : Q -> Q.
Hypothesis N : Nearest rnd.
Variable lm : libm.
Hypothesis A : accurate lm.
Notation ra := (sun_apparent_right_ascension rnd lm).
Notation dec := (sun_apparent_declination rnd lm).
Notation day := (AstroRise2.day rnd).

Section Day.
Variables tc ast dt lat lon e0 e1 e2 : Q.
Variables m0 be sg h0 : R.
Variable k0 : Z.
Hypothesis E0 : dec (fsub rnd tc day) = Ok e0.
Hypothesis E1 : dec tc = Ok e1.
Hypothesis E2 : dec (fadd rnd tc day) = Ok e2.
Let p := Q2R lat.
Let a := Q2R (nd rnd true (ra (fsub rnd tc day)) (ra tc)).
Let b := Q2R (nd rnd true (ra tc) (ra (fadd rnd tc day))).
Let da := Q2R (nd rnd false e0 e1).
Let db := Q2R (nd rnd false e1 e2).
Let d1 := Q2R e1.
Hypothesis HP : -52 <= p <= 52.
Hypothesis HAB : 0.8277 <= a <= 1.143 /\ 0.8277 <= b <= 1.143.
Hypothesis HD : Rabs da <= 0.468 /\ Rabs db <= 0.468 /\ Rabs d1 <= 23.75.
Hypothesis HM : Rabs (m0 - 0.5) <= 0.0145.
Hypothesis HB : Rabs be <= 0.413.
Hypothesis HS : sg = 1 \/ sg = -1.
Hypothesis HH : 57.29 <= h0 <= 126.31 /\ Rabs (cos (rad h0)) <= 0.5916.
Hypothesis HR : 0 <= Q2R (ra tc) <= 360.0001.
Hypothesis HT : 0 <= Q2R ast <= 360.0001.
Hypothesis HL : Rabs (Q2R lon) <= 180.
Hypothesis HDT : Rabs (Q2R dt) <= 0.35.
Hypothesis HK : Rabs (Q2R ast + Q2R lon - (Q2R (ra tc) + be - 360 * m0 + 360 * IZR k0)) <= 0.0000002.

Definition nn (m : Q) : Q := fadd rnd m (fdiv rnd dt 86400).
Lemma nn_R m : Rabs (Q2R m) <= 1 -> Rabs (Q2R (nn m) - Q2R m) <= 0.00001.
Proof.
  intro H. destruct (apx_add rnd N _ _ _ _ _ _ _ _ (apx_exact _ _ H) (apx_divc rnd N _ _ _ _ 86400 (apx_exact _ _ HDT))) as [E _].
  change (Z.pos 86400 # 1) with 86400%Q in E. fold (nn m) in E. pose proof HDT as D. apply Rabs_le_iff in D. apply Rabs_le_iff in E. unfold u in E. apply Rabs_le_iff. lra.
Qed.
Notation okm m r := (ok m0 sg h0 (Q2R m) (Q2R (nn m)) r).
Notation FM m := (FF p (de da db d1 (Q2R (nn m))) (hh a b m0 be (Q2R m) (Q2R (nn m))) + sin (rad OO)).

Lemma m_range m n r : ok m0 sg h0 m n r -> r <= 0.0071 -> 0.1268 <= m <= 0.8732.
Proof. intros [K _] R. pose proof (m1_range m0 sg h0 HM HS HH) as M. apply Rabs_le_iff in K. lra. Qed.

Lemma step m r G r' : okm m r -> r <= 0.0071 -> Rabs (FM m) <= G -> G <= 0.0169 -> r + 0.3727 * G + 0.000007 <= r' -> r' <= 0.0071 ->
  exists dm, rise_set_correction rnd lm tc ast dt lat lon m (SUN_OFFSET rnd) = Ok dm /\
    let m' := fadd rnd m dm in okm m' r' /\ Rabs (Q2R dm) <= 0.3727 * G + 0.000006 /\ forall D, Rabs (Q2R dm) <= D -> D <= 0.0065 -> Rabs (FM m') <= left_over G D.
Proof.
  intros K R HG G0 RR RR'. unfold rise_set_correction. cbv zeta. fold day. rewrite E0, E1, E2. cbn [bind]. fold (nn m).
  assert (K' : ok m0 sg h0 (Q2R m) (Q2R (nn m)) 0.0071) by (destruct K; split; lra).
  pose proof (n_range m0 sg h0 HM HS HH _ _ K') as NR. pose proof (m_range _ _ _ K R) as MR.
  assert (AN : Rabs (Q2R (nn m)) <= 1) by (apply Rabs_le_iff; lra). assert (AM : Rabs (Q2R m) <= 1) by (apply Rabs_le_iff; lra).
  assert (D1b : Rabs (Q2R e1) <= 361) by (destruct HD as [_ [_ D]]; fold d1; lra).
  assert (Rb : Rabs (Q2R (ra tc)) <= 361) by (apply Rabs_le_iff; lra).
  assert (A1 : Rabs a <= 2) by (apply Rabs_le_iff; lra). assert (A2 : Rabs b <= 2) by (apply Rabs_le_iff; lra).
  pose proof (interp_R rnd N (ra (fsub rnd tc day)) (ra tc) (ra (fadd rnd tc day)) (nn m) true Rb AN A1 A2) as IA. cbv zeta in IA. fold a b in IA.
  pose proof (interp_R rnd N e0 e1 e2 (nn m) false D1b AN ltac:(fold da; lra) ltac:(fold db; lra)) as ID. cbv zeta in ID. fold da db d1 in ID.
  set (alpha := interpolation_from_three rnd (ra (fsub rnd tc day)) _ _ _ true) in *. set (delta := interpolation_from_three rnd e0 e1 e2 (nn m) false) in *.
  fold (de da db d1 (Q2R (nn m))) in ID. set (D := de da db d1 (Q2R (nn m))) in *.
  assert (LU : Q2R (ra tc) + Q2R (nn m) / 2 * (a + b + Q2R (nn m) * (b - a)) = Q2R (ra tc) + al a b (Q2R (nn m))) by reflexivity. rewrite LU in IA. clear LU.
  pose proof (al_range a b HAB (Q2R (nn m)) ltac:(lra)) as AR. pose proof (de_range da db d1 HD (Q2R (nn m)) ltac:(lra)) as DR. fold D in DR.
  pose proof (sin_hh a b m0 be sg h0 HAB HM HB HS HH _ _ K') as SH. set (X := hh a b m0 be (Q2R m) (Q2R (nn m))) in *.
  set (L := al a b (Q2R (nn m))) in *.
  (* sidereal time *)
  assert (TU : apx (TURN rnd) 360.98564736629 361 (1 / 1000000000000)).
  { eapply apx_eq; [eapply apx_weaken; [apply (apx_litc rnd 36098564736629 100000000000 N)| |]|]; cbn [Z.abs]; unfold u; lra. }
  destruct (apx_add rnd N _ _ _ _ _ _ _ _ (apx_exact (ast) 361 ltac:(apply Rabs_le_iff; lra)) (apx_mul rnd N _ _ _ _ _ _ _ _ TU (apx_exact _ _ AM))) as [ES _].
  set (srt := fadd rnd ast (fmul rnd (TURN rnd) m)) in *.
  assert (ES' : Rabs (Q2R srt - (Q2R ast + 360.98564736629 * Q2R m)) <= 0.000000001) by (eapply Rle_trans; [exact ES|unfold u; lra]). clear ES.
  apply Rabs_le_iff in ES'. apply Rabs_le_iff in IA. pose proof HK as HK'. apply Rabs_le_iff in HK'. pose proof HL as HL'. apply Rabs_le_iff in HL'.
  assert (XE : X = 360 * (Q2R m - m0) + 0.98564736629 * Q2R m + be - L) by reflexivity.
  destruct (hour_angle_R rnd N srt lon alpha (X + 360 * IZR k0)) as [k [K1 K2]].
  { apply Rabs_le_iff. lra. } { apply Rabs_le_iff. lra. } { exact HL. } { apply Rabs_le_iff. lra. }
  set (h := local_hour_angle rnd srt lon alpha) in *.
  assert (K3 : Rabs (Q2R h - (X + 360 * IZR (k0 + k))) <= 0.000001) by (rewrite plus_IZR; replace (X + 360 * (IZR k0 + IZR k)) with (X + 360 * IZR k0 + 360 * IZR k) by ring; exact K1).
  clear K1. set (kk := (k0 + k)%Z) in *.
  assert (DL : Rabs (Q2R delta - D) <= 0.000001) by lra.
  pose proof (FF_near p D (Q2R delta) (X + 360 * IZR kk) (Q2R h) DL K3) as FN. rewrite FF_turn in FN.
  apply Rabs_le_iff in FN. pose proof HG as HG'. apply Rabs_le_iff in HG'. pose proof sinO as SO. apply Rabs_le_iff in DR. apply Rabs_le_iff in DL.
  assert (FB : Rabs (FF p (Q2R delta) (Q2R h)) <= 0.0328) by (apply Rabs_le_iff; lra).
  assert (HLp : Rabs (Q2R lat) <= 52) by (apply Rabs_le_iff; exact HP).
  destruct (altitude_R rnd N lm A delta lat h HLp ltac:(apply Rabs_le_iff; lra) K2 FB) as [alt [EA [EB EC]]]. rewrite EA. cbn [bind].
  assert (EB' : Rabs (sin (rad (Q2R alt)) - FF p D X) <= 0.000005) by (apply Rabs_le_iff in EB; fold p in EB; apply Rabs_le_iff; lra).
  (* the denominator *)
  assert (XD : apx delta D 25 0.0000000001) by (split; [exact ID|apply Rabs_le_iff; lra]).
  assert (XH : apx h (X + 360 * IZR kk) 362 0.000001) by (split; [exact K3|apply Rabs_le_iff in K3; apply Rabs_le_iff in K2; apply Rabs_le_iff; lra]).
  pose proof (apx_cos rnd N lm A _ _ _ _ XD) as CD. pose proof (apx_cos rnd N lm A _ _ _ _ (apx_exact _ _ HLp)) as CL. pose proof (apx_sin rnd N lm A _ _ _ _ XH) as SX. rewrite sin_turn_d in SX.
  assert (C360 : apx 360 (360 / 1) 360 0) by (apply (apx_const 360 1); rewrite Rabs_right; lra).
  destruct (apx_mul rnd N _ _ _ _ _ _ _ _ (apx_mul rnd N _ _ _ _ _ _ _ _ (apx_mul rnd N _ _ _ _ _ _ _ _ C360 CD) CL) SX) as [EQ _].
  set (q := fmul rnd (fmul rnd (fmul rnd 360 (cos_deg rnd lm delta)) (cos_deg rnd lm lat)) (sin_deg rnd lm h)) in *.
  assert (EQ' : Rabs (Q2R q - 360 * cos (rad D) * cos (rad p) * sin (rad X)) <= 0.001).
  { replace (360 * cos (rad D) * cos (rad p) * sin (rad X)) with (360 / 1 * cos (rad D) * cos (rad p) * sin (rad X)) by (unfold Rdiv; rewrite Rinv_1; ring).
    eapply Rle_trans; [exact EQ|unfold u; lra]. } clear EQ.
  set (QR := 360 * cos (rad D) * cos (rad p) * sin (rad X)) in *.
  assert (QB : 153.9 <= Rabs QR).
  { unfold QR. pose proof (B_range p D HP ltac:(apply Rabs_le_iff; lra)) as B. replace (360 * cos (rad D) * cos (rad p) * sin (rad X)) with (360 * (cos (rad p) * cos (rad D)) * sin (rad X)) by ring.
    rewrite !Rabs_mult, <- Rabs_mult. rewrite (Rabs_right 360), (Rabs_right (cos (rad p) * cos (rad D))) by lra.
    assert (0.5614 * 0.762 <= (cos (rad p) * cos (rad D)) * Rabs (sin (rad X))) by (apply Rmult_le_compat; lra). lra. }
  assert (QH : 153.8 <= Rabs (Q2R q)).
  { replace QR with (Q2R q - (Q2R q - QR)) in QB by ring. pose proof (Rabs_triang (Q2R q) (- (Q2R q - QR))) as T. rewrite Rabs_Ropp in T. unfold Rminus at 1 in QB. lra. }
  assert (QN : Q2R q <> 0) by (intro Z; rewrite Z, Rabs_R0 in QH; lra).
  assert (QN' : ~ (q == 0)%Q) by (intro Z; apply Qeq_eqR in Z; rewrite RMicromega.Q2R_0 in Z; contradiction).
  unfold fdiv_e. assert (QF : Qeqb q 0 = false) by (destruct (Qeqb q 0) eqn:Z; [apply Qeqb_eq in Z; contradiction|reflexivity]). rewrite QF.
  eexists. split; [reflexivity|]. cbv zeta.
  assert (XO : apx (SUN_OFFSET rnd) OO 1 0.00000000001) by (split; [exact (offset_R rnd N)|unfold OO; apply Rabs_le_iff; lra]).
  destruct (apx_add rnd N _ _ _ _ _ _ _ _ (apx_exact _ _ EC) XO) as [EN _]. set (nu := fadd rnd alt (SUN_OFFSET rnd)) in *.
  assert (EN' : Rabs (Q2R nu - (Q2R alt + OO)) <= 0.000000001) by (eapply Rle_trans; [exact EN|unfold u; lra]). clear EN.
  apply Rabs_le_iff in EN'. pose proof EC as EC'. apply Rabs_le_iff in EC'.
  set (w := Q2R nu / Q2R q). assert (WE : w * Q2R q = Q2R nu) by (unfold w; field; exact QN).
  assert (W1 : Rabs w <= 0.019).
  { assert (NB : Rabs (Q2R nu) <= 2.9) by (unfold OO in EN'; apply Rabs_le_iff; lra). rewrite <- WE, Rabs_mult in NB.
    destruct (Rle_dec (Rabs w) 0.019) as [|NN]; [assumption|]. assert (0.019 * 153.8 <= Rabs w * Rabs (Q2R q)) by (apply Rmult_le_compat; lra). lra. }
  pose proof (fdiv_R rnd N nu q _ QN' W1) as FD. fold w in FD. set (dm := fdiv rnd nu q) in *. unfold u in FD. apply Rabs_le_iff in FD. pose proof W1 as W1'. apply Rabs_le_iff in W1'.
  assert (HDM : Rabs (Q2R dm * QR - (Q2R alt + OO)) <= 0.0005).
  { replace (Q2R dm * QR - (Q2R alt + OO)) with ((Q2R dm - w) * QR + (w * (QR - Q2R q) + (Q2R nu - (Q2R alt + OO)))) by (rewrite <- WE; ring).
    assert (T1 : Rabs ((Q2R dm - w) * QR) <= 0.0000001 * 361).
    { rewrite Rabs_mult. apply Rmult_le_compat; try apply Rabs_pos; [apply Rabs_le_iff; lra|]. unfold QR. rewrite !Rabs_mult.
      pose proof (COS_bound (rad D)) as B1. pose proof (COS_bound (rad p)) as B2. pose proof (SIN_bound (rad X)) as B3. rewrite (Rabs_right 360) by lra.
      apply Rabs_le_iff in B1. apply Rabs_le_iff in B2. apply Rabs_le_iff in B3.
      pose proof (Rabs_pos (cos (rad D))). pose proof (Rabs_pos (cos (rad p))). pose proof (Rabs_pos (sin (rad X))).
      assert (0 <= Rabs (cos (rad D)) * Rabs (cos (rad p)) <= 1 * 1) by (split; [apply Rmult_le_pos; lra|apply Rmult_le_compat; lra]).
      assert (Rabs (cos (rad D)) * Rabs (cos (rad p)) * Rabs (sin (rad X)) <= 1 * 1) by (apply Rmult_le_compat; lra). lra. }
    assert (T2 : Rabs (w * (QR - Q2R q)) <= 0.019 * 0.001) by (rewrite Rabs_mult; apply Rmult_le_compat; try apply Rabs_pos; [exact W1|rewrite Rabs_minus_sym; exact EQ']).
    apply Rabs_le_iff in T1. apply Rabs_le_iff in T2. apply Rabs_le_iff. lra. }
  assert (FA : Rabs (Q2R (fadd rnd m dm) - (Q2R m + Q2R dm)) <= 1 * u) by (apply fadd_R; [exact N|apply Rabs_le_iff; lra]).
  assert (FA' : Rabs (Q2R (fadd rnd m dm) - (Q2R m + Q2R dm)) <= 0.000000001) by (eapply Rle_trans; [exact FA|unfold u; lra]).
  assert (AM' : Rabs (Q2R (fadd rnd m dm)) <= 1) by (apply Rabs_le_iff in FA'; apply Rabs_le_iff; lra).
  exact (correction p a b da db d1 m0 be sg h0 HP HAB HD HM HB HS HH _ _ _ (Q2R alt) G r r' _ _ K R HG G0 EB' EC HDM FA' (nn_R _ AM') RR RR').
Qed.

Lemma stopped dm : Qltb (Qabs dm) (lit rnd 1 10000) = true -> Rabs (Q2R dm) <= 0.00010001.
Proof.
  intro H. apply Qltb_lt in H. apply Qlt_Rlt in H. rewrite Q2R_abs in H. destruct (apx_litc rnd 1 10000 N) as [E _]. apply Rabs_le_iff in E. cbn [Z.abs] in E. unfold u in E. lra.
Qed.
Lemma loop m : okm m 0.000001 -> Rabs (FF p d1 h0 + sin (rad OO)) <= 0.00002 ->
  exists m', corrections rnd lm 3 tc ast dt lat lon m (SUN_OFFSET rnd) = Ok m' /\ okm m' 0.0071 /\ Rabs (FM m') <= 0.00004.
Proof.
  intros K H0. pose proof (start p a b da db d1 m0 be sg h0 HAB HD HM HB HS HH H0 _ _ K) as G.
  assert (W : forall x r, r <= 0.0071 -> okm x r -> okm x 0.0071) by (intros x r R [Q1 Q2]; split; lra).
  cbn [corrections].
  destruct (step m 0.000001 0.0169 0.00631 K ltac:(lra) G ltac:(lra) ltac:(lra) ltac:(lra)) as [x1 [S1 [K1 [B1 G1]]]]. rewrite S1. cbn [bind].
  destruct (Qltb (Qabs x1) _) eqn:T1.
  { eexists; split; [reflexivity|split; [eapply W; [|exact K1]; lra|]]. eapply Rle_trans; [apply (G1 0.00010001 (stopped _ T1)); lra|unfold left_over; lra]. }
  specialize (G1 0.00631 ltac:(lra) ltac:(lra)). assert (G1' : Rabs (FF p (de da db d1 (Q2R (nn (fadd rnd m x1)))) (hh a b m0 be (Q2R (fadd rnd m x1)) (Q2R (nn (fadd rnd m x1)))) + sin (rad OO)) <= 0.00174) by (eapply Rle_trans; [exact G1|unfold left_over; lra]).
  clear G1. set (y1 := fadd rnd m x1) in *.
  destruct (step y1 0.00631 0.00174 0.00697 K1 ltac:(lra) G1' ltac:(lra) ltac:(lra) ltac:(lra)) as [x2 [S2 [K2 [B2 G2]]]]. rewrite S2. cbn [bind].
  set (y2 := fadd rnd y1 x2) in *.
  destruct (Qltb (Qabs x2) _) eqn:T2.
  { eexists; split; [reflexivity|split; [eapply W; [|exact K2]; lra|]]. eapply Rle_trans; [apply (G2 0.00010001 (stopped _ T2)); lra|unfold left_over; lra]. }
  specialize (G2 0.000656 ltac:(lra) ltac:(lra)).
  assert (G2' : Rabs (FF p (de da db d1 (Q2R (nn y2))) (hh a b m0 be (Q2R y2) (Q2R (nn y2))) + sin (rad OO)) <= 0.000052) by (eapply Rle_trans; [exact G2|unfold left_over; lra]).
  destruct (step y2 0.00697 0.000052 0.007 K2 ltac:(lra) G2' ltac:(lra) ltac:(lra) ltac:(lra)) as [x3 [S3 [K3 [B3 G3]]]]. rewrite S3. cbn [bind].
  specialize (G3 0.000026 ltac:(lra) ltac:(lra)).
  assert (G3' : left_over 0.000052 0.000026 <= 0.00004) by (unfold left_over; lra).
  destruct (Qltb (Qabs x3) _); (eexists; split; [reflexivity|split; [eapply W; [|exact K3]; lra|lra]]).
Qed.
End Day.
End Rise.
