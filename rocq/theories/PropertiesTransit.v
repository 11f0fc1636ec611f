(** PropertiesTransit.v -- C104: the transit of the sun. *)
From Coq Require Import ZArith QArith Qround Qabs Qreals Lqa Reals Lra Lia List Bool.
From Verif Require Import Base Flt QUtil BaseModel BaseProofs AstroModel SpecAstro SpecTransit AstroReal AstroReal2 AstroFlt AstroApx AstroSun AstroNut AstroRA AstroMove AstroStep AstroDt AstroRise AstroRise2 AstroRise3 AstroRise4 AstroRise5 PropertiesAstro.
Import ListNotations.
Local Open Scope R_scope.

Section T.
Variable rnd : Q -> Q.
Hypothesis N : Nearest rnd.
Variable lm : libm.
Hypothesis A : accurate lm.
Notation ra := (sun_apparent_right_ascension rnd lm).
Notation day := (AstroRise2.day rnd).

Lemma interp_R' y1 y2 y3 n norm : Rabs (Q2R y2) <= 361 -> Rabs (Q2R n) <= 1.1 -> Rabs (Q2R (nd rnd norm y1 y2)) <= 2 -> Rabs (Q2R (nd rnd norm y2 y3)) <= 2 ->
  let a := Q2R (nd rnd norm y1 y2) in let b := Q2R (nd rnd norm y2 y3) in
  Rabs (Q2R (interpolation_from_three rnd y1 y2 y3 n norm) - (Q2R y2 + Q2R n / 2 * (a + b + Q2R n * (b - a)))) <= 0.0000000001.
Proof.
  intros HY HN HA HB a b. rewrite interp_eq.
  pose proof (apx_exact _ _ HY) as Y. pose proof (apx_exact _ _ HN) as X. pose proof (apx_exact _ _ HA) as XA. pose proof (apx_exact _ _ HB) as XB.
  fold a in XA. fold b in XB.
  pose proof (apx_add rnd N _ _ _ _ _ _ _ _ Y (apx_mul rnd N _ _ _ _ _ _ _ _ (apx_divc rnd N _ _ _ _ 2 X)
    (apx_add rnd N _ _ _ _ _ _ _ _ (apx_add rnd N _ _ _ _ _ _ _ _ XA XB) (apx_mul rnd N _ _ _ _ _ _ _ _ X (apx_sub rnd N _ _ _ _ _ _ _ _ XB XA))))) as Z.
  destruct Z as [Z _]. change (Z.pos 2 # 1) with 2%Q in Z. eapply Rle_trans; [exact Z|]. unfold u. lra.
Qed.

(** an hour angle near a whole number of turns is answered near zero *)
Lemma hour_angle_small srt lon alpha x (k : Z) : Rabs (Q2R srt + Q2R lon - Q2R alpha - (x + 360 * IZR k)) <= 0.0000005 -> Rabs x <= 1 ->
  Rabs (Q2R srt) <= 800 -> Rabs (Q2R lon) <= 180 -> Rabs (Q2R alpha) <= 400 -> Rabs (Q2R (local_hour_angle rnd srt lon alpha) - x) <= 0.000001.
Proof.
  intros HX HX1 HS HL HA. destruct (hour_angle_R rnd N srt lon alpha _ HX HS HL HA) as [k' [K _]]. set (h := local_hour_angle rnd srt lon alpha) in *.
  assert (B : -180.001 <= Q2R h <= 180).
  { unfold h, local_hour_angle. destruct (coterminal_R rnd N (fsub rnd (fadd rnd srt lon) alpha)) as [_ [_ R]]. set (c := coterminal_angle rnd _) in *.
    destruct (Qltb 180 c) eqn:E.
    - apply Qltb_lt, Qlt_Rlt in E. rewrite Q2R_lit in E.
      assert (G : Rabs (Q2R (fsub rnd c 360) - (Q2R c - Q2R 360)) <= 361 * u) by (apply fsub_R; [exact N|]; rewrite Q2R_lit; apply Rabs_le_iff; lra).
      rewrite Q2R_lit in G. unfold u in G. apply Rabs_le_iff in G. lra.
    - apply Qltb_ge, Qle_Rle in E. rewrite Q2R_lit in E. lra. }
  apply Rabs_le_iff in K. apply Rabs_le_iff in HX1.
  assert (Z : (k + k' = 0)%Z).
  { assert (Z1 : IZR (k + k') < 1) by (rewrite plus_IZR; lra). assert (Z2 : -1 < IZR (k + k')) by (rewrite plus_IZR; lra).
    apply lt_IZR in Z1. apply lt_IZR in Z2. lia. }
  assert (ZR : IZR k + IZR k' = 0) by (rewrite <- plus_IZR, Z; reflexivity). apply Rabs_le_iff. lra.
Qed.

(** the right ascension gained in the fraction [n] of a day *)
Lemma al_small a b n : 0.8277 <= a <= 1.143 -> 0.8277 <= b <= 1.143 -> -0.51 <= n <= 1 -> Rabs (al a b n - 0.98564736629 * n) <= 0.158.
Proof.
  intros HA HB HN. unfold al. replace (n / 2 * (a + b + n * (b - a)) - 0.98564736629 * n) with ((n * (1 - n) / 2) * (a - 0.98564736629) + (n * (1 + n) / 2) * (b - 0.98564736629)) by lra.
  assert (P : 0 <= n \/ n <= 0) by lra. apply Rabs_le_iff. destruct P as [P|P].
  - assert (C1 : 0 <= n * (1 - n) / 2) by nra. assert (C2 : 0 <= n * (1 + n) / 2) by nra. assert (S : n * (1 - n) / 2 + n * (1 + n) / 2 = n) by lra.
    set (c1 := n * (1 - n) / 2) in *. set (c2 := n * (1 + n) / 2) in *. clearbody c1 c2. split; nra.
  - assert (C1 : 0 <= - (n * (1 - n) / 2)) by nra. assert (C2 : 0 <= - (n * (1 + n) / 2)) by nra. assert (S : n * (1 - n) / 2 + n * (1 + n) / 2 = n) by lra.
    set (c1 := n * (1 - n) / 2) in *. set (c2 := n * (1 + n) / 2) in *. clearbody c1 c2. split; nra.
Qed.
Lemma al_step a b n d : 0.8277 <= a <= 1.143 -> 0.8277 <= b <= 1.143 -> -0.51 <= n <= 1.001 -> Rabs d <= 0.0016 -> Rabs (al a b (n + d) - al a b n - 0.98564736629 * d) <= 0.51 * Rabs d.
Proof.
  intros HA HB HN HD. unfold al. pose proof HD as HD'. apply Rabs_le_iff in HD'.
  replace ((n + d) / 2 * (a + b + (n + d) * (b - a)) - n / 2 * (a + b + n * (b - a)) - 0.98564736629 * d) with (((a + b) / 2 - 0.98564736629 + (n + d / 2) * (b - a)) * d) by lra.
  rewrite Rabs_mult. apply Rmult_le_compat_r; [apply Rabs_pos|]. apply Rabs_le_iff. set (t := n + d / 2). assert (T : -0.511 <= t <= 1.002) by (unfold t; lra). clearbody t. clear HN HD HD' d n. split; nra.
Qed.

Lemma weights z : -0.52 <= z <= 1.01 -> -0.4 <= z * (1 - z) / 2 <= 0.4 /\ -0.4 <= z * (1 + z) / 2 <= 1.1.
Proof.
  intro Z. assert (S : 0 <= (z + 0.52) * (1.01 - z)) by (apply Rmult_le_pos; lra). assert (S2 : 0 <= (z - 0.5) * (z - 0.5)) by apply Rle_0_sqr. assert (S3 : 0 <= (z + 0.5) * (z + 0.5)) by apply Rle_0_sqr. lra.
Qed.

Lemma transit_R jd lon : 1700001 <= Q2R jd <= 2899999 -> Rabs (Q2R lon) <= 180 ->
  let v := sun_transit rnd lm jd lon in -0.51 <= Q2R v <= 1.01 /\ on_meridian rnd lm (julian_centuries rnd jd) lon v /\
  forall H : Z, Rabs (Q2R jd - (IZR H - 1 / 2 - Q2R lon / 360)) <= 0.0000001 -> Q2R lon <= 174 -> Rabs (Q2R v - 0.5) <= 0.0162.
Proof.
  intros J HLo v. assert (J' : 1700000 <= Q2R jd <= 2900000) by lra. pose proof HLo as HLo'. apply Rabs_le_iff in HLo'.
  destruct (centuries_R rnd N jd J') as [T1 T2]. unfold v, sun_transit. cbv zeta. set (tc := julian_centuries rnd jd) in *.
  assert (DTq : (Qabs (delta_t rnd jd false) <= 35 # 100)%Q).
  { apply delta_t_le; [exact N|]. split; apply Rle_Qle; rewrite Q2R_lit; lra. }
  set (dt := delta_t rnd jd false) in *. assert (DT : Rabs (Q2R dt) <= 0.35). { apply Qle_Rle in DTq. rewrite Q2R_abs in DTq. eapply Rle_trans; [exact DTq|]. unfold Q2R. cbn. lra. }
  set (td := fadd rnd (fdiv rnd dt 36525) tc).
  assert (TD : Rabs (Q2R td - Q2R tc) <= 0.35001 / 36525).
  { destruct (apx_add rnd N _ _ _ _ _ _ _ _ (apx_divc rnd N _ _ _ _ 36525 (apx_exact _ _ DT)) (apx_exact _ _ T2)) as [E _].
    change (Z.pos 36525 # 1) with 36525%Q in E. fold td in E. apply Rabs_le_iff in E. unfold u in E. apply Rabs_le_iff in DT. apply Rabs_le_iff. lra. }
  assert (TA : Rabs (Q2R tc) <= 20.6) by lra.
  assert (Tc : (Qabs tc <= TX)%Q) by (apply TXr'; lra).
  assert (Td : (Qabs td <= TX)%Q). { apply TXr'. apply Rabs_le_iff in TD. apply Rabs_le_iff in T2. apply Rabs_le_iff. lra. }
  destruct (sidereal_R rnd N lm A tc Tc) as [_ [_ AST]]. set (ast := apparent_sidereal_time_greenwich rnd lm tc) in *.
  destruct (time_shift rnd N lm A tc td Tc Td TD) as [be [k' [B1 B2]]].
  pose proof (day_R rnd N) as DY. pose proof DY as DY'. apply Rabs_le_iff in DY'.
  destruct (shift_R rnd N tc day TA ltac:(apply Rabs_le_iff; lra)) as [SA SS]. apply Rabs_le_iff in SA. apply Rabs_le_iff in SS.
  pose proof T2 as T2'. apply Rabs_le_iff in T2'.
  assert (Ta : (Qabs (fadd rnd tc day) <= TX)%Q) by (apply TXr', Rabs_le_iff; lra).
  assert (Ts : (Qabs (fsub rnd tc day) <= TX)%Q) by (apply TXr', Rabs_le_iff; lra).
  destruct (one_day rnd N lm A (fsub rnd tc day) tc Ts Tc ltac:(apply Rabs_le_iff; lra)) as [x [kx [e0 [e1 [X1 [X2 [R0 [R1 _]]]]]]]].
  destruct (one_day rnd N lm A tc (fadd rnd tc day) Tc Ta ltac:(apply Rabs_le_iff; lra)) as [y [ky [e1' [e2 [Y1 [Y2 [_ [R2 _]]]]]]]].
  pose proof (norm_diff rnd N _ _ x kx R0 R1 ltac:(lra) X2) as NA. pose proof (norm_diff rnd N _ _ y ky R1 R2 ltac:(lra) Y2) as NB. cbv zeta in NA, NB.
  change (Rabs (Q2R (nd rnd true (ra (fsub rnd tc day)) (ra tc)) - x) <= 0.0011) in NA. change (Rabs (Q2R (nd rnd true (ra tc) (ra (fadd rnd tc day))) - y) <= 0.0011) in NB.
  apply Rabs_le_iff in NA. apply Rabs_le_iff in NB.
  destruct (nd_true rnd N _ _ R0 R1) as [k0 K0]. destruct (nd_true rnd N _ _ R1 R2) as [k1 K1].
  set (a := Q2R (nd rnd true (ra (fsub rnd tc day)) (ra tc))) in *. set (b := Q2R (nd rnd true (ra tc) (ra (fadd rnd tc day)))) in *.
  assert (HA : 0.8277 <= a <= 1.143) by lra. assert (HB : 0.8277 <= b <= 1.143) by lra.
  (* the first guess *)
  assert (RD : 0 <= Q2R (ra td) <= 360.0001) by (destruct (ra_R rnd N lm A td Td) as [_ [_ [[_ [_ R]] _]]]; exact R).
  assert (X : apx (fdiv rnd (fsub rnd (fsub rnd (ra td) lon) ast) 360) ((Q2R (ra td) - Q2R lon - Q2R ast) / 360) 3 (1 / 100000000000)).
  { eapply apx_weaken; [apply (apx_divc rnd N), (apx_sub rnd N); [apply (apx_sub rnd N); apply apx_exact|apply apx_exact]| |].
    - instantiate (1 := 361). apply Rabs_le_iff. lra.
    - instantiate (1 := 180). apply Rabs_le_iff. lra.
    - instantiate (1 := 361). apply Rabs_le_iff. lra.
    - lra.
    - unfold u. lra. }
  destruct X as [X _]. set (g := fdiv rnd (fsub rnd (fsub rnd (ra td) lon) ast) 360) in *. apply Rabs_le_iff in X.
  set (m := if Qleb g 0 then fadd rnd g 1 else if Qleb 1 g then fsub rnd g 1 else g).
  assert (M : exists j : Z, Rabs (Q2R m - (Q2R g + IZR j)) <= 0.0000000001 /\ -0.501 <= Q2R m <= 1 /\ (-0.9999 <= Q2R g -> -0.00001 <= Q2R m)).
  { unfold m. destruct (Qleb g 0) eqn:G0; [|destruct (Qleb 1 g) eqn:G1].
    - apply Qleb_le, Qle_Rle in G0. rewrite Q2R_lit in G0. exists 1%Z.
      assert (F : Rabs (Q2R (fadd rnd g 1) - (Q2R g + Q2R 1)) <= 2 * u) by (apply fadd_R; [exact N|]; rewrite Q2R_lit; apply Rabs_le_iff; lra).
      rewrite Q2R_lit in F. unfold u in F. apply Rabs_le_iff in F. split; [apply Rabs_le_iff; lra|]. split; [|lra]. split; [lra|].
      assert (QL : (g + 1 <= inject_Z 1)%Q). { apply Rle_Qle in G0 || idtac. apply Rle_Qle. rewrite Q2R_plus, Q2R_Z, Q2R_lit. lra. }
      pose proof (near_le_Z rnd _ 1 N ltac:(vm_compute; discriminate) QL) as Z. apply Qle_Rle in Z. rewrite Q2R_Z in Z. exact Z.
    - apply Qleb_le, Qle_Rle in G1. rewrite Q2R_lit in G1. exists (-1)%Z.
      assert (F : Rabs (Q2R (fsub rnd g 1) - (Q2R g - Q2R 1)) <= 2 * u) by (apply fsub_R; [exact N|]; rewrite Q2R_lit; apply Rabs_le_iff; lra).
      rewrite Q2R_lit in F. unfold u in F. apply Rabs_le_iff in F. split; [apply Rabs_le_iff; lra|]. split; lra.
    - apply Qleb_gt, Qlt_Rlt in G0. apply Qleb_gt, Qlt_Rlt in G1. rewrite Q2R_lit in G0, G1. exists 0%Z. split; [rewrite Rplus_0_r, Rminus_eq_0, Rabs_R0; lra|]. lra. }
  destruct M as [j [MJ [MR MG]]]. apply Rabs_le_iff in MJ. clearbody m.
  (* the correction *)
  unfold transit_correction. cbv zeta. fold day.
  assert (AM : Rabs (Q2R m) <= 1) by (apply Rabs_le_iff; lra). set (n := fadd rnd m (fdiv rnd dt 86400)).
  pose proof (nn_R rnd N dt DT m AM) as NN. change (nn rnd dt m) with n in NN. pose proof NN as NN'. apply Rabs_le_iff in NN'.
  assert (Rb : Rabs (Q2R (ra tc)) <= 361) by (apply Rabs_le_iff; lra).
  assert (A1 : Rabs a <= 2) by (apply Rabs_le_iff; lra). assert (A2 : Rabs b <= 2) by (apply Rabs_le_iff; lra).
  pose proof (interp_R' (ra (fsub rnd tc day)) (ra tc) (ra (fadd rnd tc day)) n true Rb ltac:(apply Rabs_le_iff; lra) A1 A2) as IA. cbv zeta in IA. fold a b in IA.
  set (alpha := interpolation_from_three rnd (ra (fsub rnd tc day)) _ _ _ true) in *.
  change (Q2R n / 2 * (a + b + Q2R n * (b - a))) with (al a b (Q2R n)) in IA. set (L := al a b (Q2R n)) in *.
  assert (LB : Rabs (L - 0.98564736629 * Q2R m) <= 0.15805).
  { destruct (Rle_dec (Q2R n) 1) as [N1|N1].
    - pose proof (al_small a b (Q2R n) HA HB ltac:(lra)) as S. fold L in S. apply Rabs_le_iff in S. apply Rabs_le_iff. lra.
    - pose proof (al_small a b 1 HA HB ltac:(lra)) as S. pose proof (al_step a b 1 (Q2R n - 1) HA HB ltac:(lra) ltac:(apply Rabs_le_iff; lra)) as S'.
      replace (1 + (Q2R n - 1)) with (Q2R n) in S' by ring. fold L in S'. rewrite (Rabs_right (Q2R n - 1)) in S' by lra. apply Rabs_le_iff in S. apply Rabs_le_iff in S'. apply Rabs_le_iff. lra. }
  apply Rabs_le_iff in LB. apply Rabs_le_iff in IA.
  assert (TU : apx (TURN rnd) 360.98564736629 361 (1 / 1000000000000)).
  { eapply apx_eq; [eapply apx_weaken; [apply (apx_litc rnd 36098564736629 100000000000 N)| |]|]; cbn [Z.abs]; unfold u; lra. }
  destruct (apx_add rnd N _ _ _ _ _ _ _ _ (apx_exact (ast) 361 ltac:(apply Rabs_le_iff; lra)) (apx_mul rnd N _ _ _ _ _ _ _ _ TU (apx_exact _ _ AM))) as [ES _].
  set (srt := fadd rnd ast (fmul rnd (TURN rnd) m)) in *.
  assert (ES' : Rabs (Q2R srt - (Q2R ast + 360.98564736629 * Q2R m)) <= 0.000000001) by (eapply Rle_trans; [exact ES|unfold u; lra]). clear ES.
  apply Rabs_le_iff in ES'. apply Rabs_le_iff in B1.
  set (XX := be + 0.98564736629 * Q2R m - L).
  assert (XB : Rabs XX <= 0.5711) by (unfold XX; apply Rabs_le_iff; lra). pose proof XB as XB'. apply Rabs_le_iff in XB'.
  assert (HS : Rabs (Q2R ast + 360.98564736629 * Q2R m + Q2R lon - Q2R (ra tc) - L - (XX + 360 * IZR (k' + j))) <= 0.0000001).
  { rewrite plus_IZR. unfold XX. apply Rabs_le_iff. lra. }
  pose proof HS as HS'. apply Rabs_le_iff in HS'.
  pose proof (hour_angle_small srt lon alpha XX (k' + j)) as HH.
  assert (HH' : Rabs (Q2R (local_hour_angle rnd srt lon alpha) - XX) <= 0.000001).
  { apply HH; try (apply Rabs_le_iff; lra). }
  clear HH. set (h := local_hour_angle rnd srt lon alpha) in *. pose proof HH' as HH. apply Rabs_le_iff in HH.
  assert (HB1 : Rabs (Q2R h) <= 1) by (apply Rabs_le_iff; lra).
  destruct (apx_add rnd N _ _ _ _ _ _ _ _ (apx_exact _ _ AM) (apx_divc rnd N _ _ _ _ 360 (apx_opp _ _ _ _ (apx_exact _ _ HB1)))) as [EV _].
  change (Z.pos 360 # 1) with 360%Q in EV. fold n. set (w := fadd rnd m (fdiv rnd (- h) 360)) in *.
  assert (EV' : Rabs (Q2R w - (Q2R m - Q2R h / 360)) <= 0.000000001). { unfold u in EV. apply Rabs_le_iff in EV. apply Rabs_le_iff. lra. }
  apply Rabs_le_iff in EV'. clear EV. split; [lra|]. split.
  - set (d := Q2R w - Q2R m). assert (DB : Rabs d <= 0.0016) by (unfold d; apply Rabs_le_iff; lra).
    pose proof (al_step a b (Q2R n) d HA HB ltac:(lra) DB) as ST. fold L in ST.
    set (a' := Q2R (ra tc) - Q2R (ra (fsub rnd tc day)) + 360 * IZR k0) in *. set (b' := Q2R (ra (fadd rnd tc day)) - Q2R (ra tc) + 360 * IZR k1) in *.
    apply Rabs_le_iff in K0. apply Rabs_le_iff in K1.
    eexists. exists (k' + j)%Z. split.
    + exists a', b', (Q2R n + d), k0, k1. fold day ast. split; [reflexivity|]. split; [lra|]. split; [reflexivity|]. split; [lra|]. split; [unfold d; apply Rabs_le_iff; lra|reflexivity].
    + assert (BT : Rabs (between3 (Q2R (ra tc)) a' b' (Q2R n + d) - (Q2R (ra tc) + al a b (Q2R n + d))) <= 0.000000001).
      { unfold between3, al. set (z := Q2R n + d). assert (Z : -0.52 <= z <= 1.01) by (unfold z; apply Rabs_le_iff in DB; lra). clearbody z.
        replace (Q2R (ra tc) + z / 2 * (a' + b' + z * (b' - a')) - (Q2R (ra tc) + z / 2 * (a + b + z * (b - a)))) with (z * (1 - z) / 2 * (a' - a) + z * (1 + z) / 2 * (b' - b)) by lra.
        destruct (weights z Z) as [C1 C2].
        set (c1 := z * (1 - z) / 2) in *. set (c2 := z * (1 + z) / 2) in *. clearbody c1 c2. assert (Da : Rabs (a' - a) <= 0.0000000001) by (apply Rabs_le_iff; lra). assert (Db : Rabs (b' - b) <= 0.0000000001) by (apply Rabs_le_iff; lra).
        eapply Rle_trans; [apply Rabs_triang|]. rewrite !Rabs_mult.
        assert (P1 : Rabs c1 * Rabs (a' - a) <= 1 * 0.0000000001) by (apply Rmult_le_compat; try apply Rabs_pos; [apply Rabs_le_iff; lra|exact Da]).
        assert (P2 : Rabs c2 * Rabs (b' - b) <= 2 * 0.0000000001) by (apply Rmult_le_compat; try apply Rabs_pos; [apply Rabs_le_iff; lra|exact Db]). lra. }
      apply Rabs_le_iff in BT. apply Rabs_le_iff in ST. rewrite plus_IZR in *. assert (DD : d = Q2R w - Q2R m) by reflexivity. fold ast.
      assert (RB : 0.51 * Rabs d <= 0.51 * 0.0016) by lra. clearbody d. unfold XX in *. apply Rabs_le_iff. lra.
  - intros H HJ HE. destruct (transit_guess rnd N lm A jd tc td lon H Tc Td TD HJ T1 HLo) as [M0 [k K]]. fold ast g in M0, K.
    set (m0 := fmod1 rnd g) in *. apply Rabs_le_iff in M0. apply Rabs_le_iff in K. clear HJ.
    (* g and m differ from m0 by whole numbers *)
    assert (G : Rabs (Q2R g - (Q2R m0 - IZR k)) <= 0.000000001) by (apply Rabs_le_iff; lra). apply Rabs_le_iff in G.
    assert (GL : -1.49 <= Q2R g) by lra.
    assert (KL : (k <= 1)%Z). { assert (Z : IZR k < 2) by lra. apply lt_IZR in Z. lia. }
    assert (GG : -0.9999 <= Q2R g). { apply IZR_le in KL. lra. }
    specialize (MG GG).
    assert (JK : (j = k)%Z).
    { assert (Z1 : IZR (j - k) < 1) by (rewrite minus_IZR; lra). assert (Z2 : -1 < IZR (j - k)) by (rewrite minus_IZR; lra). apply lt_IZR in Z1. apply lt_IZR in Z2. lia. }
    subst j. apply Rabs_le_iff. lra.
Qed.
End T.

(** Whatever the moment and the place, at the fraction of a day answered the sun is on the meridian. *)
Theorem C104_on_meridian : forall rnd lm jd lon, Nearest rnd -> accurate lm -> 1700001 <= Q2R jd <= 2899999 -> -180 <= Q2R lon <= 180 ->
  let v := sun_transit rnd lm jd lon in -0.51 <= Q2R v <= 1.01 /\ on_meridian rnd lm (julian_centuries rnd jd) lon v.
Proof.
  intros rnd lm jd lon N A J L v. destruct (transit_R rnd N lm A jd lon J ltac:(apply Rabs_le_iff; lra)) as (R & M & _). split; [exact R|exact M].
Qed.
Print Assumptions C104_on_meridian.

(** From the local midnight the transit is within 24 minutes of noon (the equation of time and the tolerance of the
    theory), at every longitude up to 174 degrees east. *)
Theorem C104_noon : forall rnd lm jd lon (H : Z), Nearest rnd -> accurate lm -> 1700001 <= Q2R jd <= 2899999 -> -180 <= Q2R lon <= 174 ->
  Rabs (Q2R jd - midnight H (Q2R lon)) <= 0.0000001 -> Rabs (Q2R (sun_transit rnd lm jd lon) - 0.5) <= 0.0162.
Proof.
  intros rnd lm jd lon H N A J L M. destruct (transit_R rnd N lm A jd lon J ltac:(apply Rabs_le_iff; lra)) as (_ & _ & T). apply (T H); [exact M|lra].
Qed.
Print Assumptions C104_noon.

(** The eccentricity of the earth's orbit is the polynomial of Meeus (25.4), and the orbit a flat ellipse. *)
Theorem C104_eccentricity : forall rnd tc, Nearest rnd -> Rabs (Q2R tc) <= 20.7 ->
  let e := Q2R (eccentricity_earth_orbit rnd tc) in
  Rabs (e - (0.016708634 - 0.000042037 * Q2R tc - 0.0000001267 * (Q2R tc * Q2R tc))) <= 0.000000000001 /\ 0.0157 <= e <= 0.0176.
Proof.
  intros rnd tc N T. cbv zeta. unfold eccentricity_earth_orbit. cbn [poly].
  assert (Z0 : apx 0 0 0 0) by (split; rewrite ?RMicromega.Q2R_0, ?Rminus_0_r, Rabs_R0; lra).
  pose proof (apx_add rnd N _ _ _ _ _ _ _ _ (apx_litc rnd (-1267) 10000000000 N) (apx_mul rnd N _ _ _ _ _ _ _ _ (apx_exact _ _ T) Z0)) as P2.
  eapply apx_weaken in P2; [|instantiate (1 := 0.0000002); cbn [Z.abs]; unfold u; lra|instantiate (1 := 1 / 100000000000000000); cbn [Z.abs]; unfold u; lra].
  pose proof (apx_add rnd N _ _ _ _ _ _ _ _ (apx_litc rnd (-42037) 1000000000 N) (apx_mul rnd N _ _ _ _ _ _ _ _ (apx_exact _ _ T) P2)) as P1. clear P2.
  eapply apx_weaken in P1; [|instantiate (1 := 0.0001); cbn [Z.abs]; unfold u; lra|instantiate (1 := 3 / 10000000000000000); cbn [Z.abs]; unfold u; lra].
  pose proof (apx_add rnd N _ _ _ _ _ _ _ _ (apx_litc rnd 16708634 1000000000 N) (apx_mul rnd N _ _ _ _ _ _ _ _ (apx_exact _ _ T) P1)) as P0. clear P1.
  eapply apx_weaken in P0; [|instantiate (1 := 1); cbn [Z.abs]; unfold u; lra|instantiate (1 := 0.000000000001); cbn [Z.abs]; unfold u; lra].
  destruct P0 as [P0 _].
  set (e := Q2R (fadd rnd _ _)) in *. clearbody e. apply Rabs_le_iff in T. set (t := Q2R tc) in *. clearbody t. clear N Z0.
  match type of P0 with Rabs (e - ?x) <= _ => assert (X : x = 0.016708634 - 0.000042037 * t - 0.0000001267 * (t * t)) by lra; rewrite X in P0; clear X end.
  split; [exact P0|]. assert (S : 0 <= (t + 20.7) * (20.7 - t)) by (apply Rmult_le_pos; lra). assert (S2 : 0 <= t * t) by apply Rle_0_sqr. apply Rabs_le_iff in P0.
  assert (Q : t * t <= 428.49) by lra. set (w := t * t) in *. clearbody w. clear S. lra.
Qed.
Print Assumptions C104_eccentricity.

Example C104_case : Nearest b64 /\ accurate real_libm /\ 1700001 <= Q2R (24599996 # 10) <= 2899999 /\ -180 <= Q2R (-36) <= 174 /\
  Rabs (Q2R (24599996 # 10) - midnight 2460000 (Q2R (-36))) <= 0.0000001 /\ Rabs (Q2R (sun_transit b64 real_libm (24599996 # 10) (-36)) - 0.5) <= 0.0162.
Proof.
  assert (J : 1700001 <= Q2R (24599996 # 10) <= 2899999) by (unfold Q2R; cbn [Qnum Qden]; lra).
  assert (L : -180 <= Q2R (-36) <= 174) by (unfold Q2R; cbn [Qnum Qden Qopp]; lra).
  assert (M : Rabs (Q2R (24599996 # 10) - midnight 2460000 (Q2R (-36))) <= 0.0000001) by (unfold midnight, Q2R; cbn [Qnum Qden Qopp]; apply Rabs_le_iff; lra).
  split; [exact b64_nearest|]. split; [exact real_libm_accurate|]. split; [exact J|]. split; [exact L|]. split; [exact M|].
  exact (C104_noon b64 real_libm _ _ 2460000 b64_nearest real_libm_accurate J L M).
Qed.
