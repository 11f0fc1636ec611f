(** AstroRise3.v -- altitude, first hour angle and one correction as computed (proof support). *)
From Coq Require Import ZArith QArith Qround Qabs Qreals Lqa Reals Lra Lia List Bool.
From Verif Require Import Base Flt QUtil BaseModel BaseProofs AstroModel SpecAstro AstroReal AstroReal2 AstroFlt AstroApx AstroSun AstroNut AstroRA AstroMove AstroStep AstroDt AstroRise AstroRise2.
Import ListNotations.
Local Open Scope R_scope.

Lemma sin_19 : 0.0331 <= sin (rad 1.9) <= 0.0333. Proof. apply sin_value; [lra|value]. Qed.
Lemma small_angle th : - (PI / 2) <= th <= PI / 2 -> Rabs (sin th) <= 0.033 -> Rabs th <= rad 1.9.
Proof.
  intros H S. apply Rabs_le_iff in S. pose proof sin_19 as V. pose proof PI_bounds as P.
  assert (R1 : 0 <= rad 1.9) by (rewrite <- rad_0; apply rad_mono; lra).
  assert (R2 : rad 1.9 <= PI / 2) by (rewrite <- rad_90; apply rad_mono; lra).
  apply Rabs_le_iff. split.
  - destruct (Rle_dec (- rad 1.9) th) as [|C]; [assumption|]. assert (sin th < sin (- rad 1.9)) by (apply sin_increasing_1; lra). rewrite sin_neg in *. lra.
  - destruct (Rle_dec th (rad 1.9)) as [|C]; [assumption|]. assert (sin (rad 1.9) < sin th) by (apply sin_increasing_1; lra). lra.
Qed.
Lemma deg_mono a b : a <= b -> deg a <= deg b.
Proof. intro H. pose proof deg_k. unfold deg. apply Rmult_le_compat_r; lra. Qed.

Section Rise.
Variable rnd : Q -> Q.
Hypothesis N : Nearest rnd.
Variable lm : libm.
Hypothesis A : accurate lm.

Definition nd (norm : bool) (y1 y2 : Q) : Q :=
  let a := fsub rnd y2 y1 in if norm then fadd rnd a (if Qltb a 0 then 360 else 0) else a.
Lemma interp_eq y1 y2 y3 n norm : interpolation_from_three rnd y1 y2 y3 n norm =
  fadd rnd y2 (fmul rnd (fdiv rnd n 2) (fadd rnd (fadd rnd (nd norm y1 y2) (nd norm y2 y3)) (fmul rnd n (fsub rnd (nd norm y2 y3) (nd norm y1 y2))))).
Proof. reflexivity. Qed.
Lemma interp_R y1 y2 y3 n norm : Rabs (Q2R y2) <= 361 -> Rabs (Q2R n) <= 1 -> Rabs (Q2R (nd norm y1 y2)) <= 2 -> Rabs (Q2R (nd norm y2 y3)) <= 2 ->
  let a := Q2R (nd norm y1 y2) in let b := Q2R (nd norm y2 y3) in
  Rabs (Q2R (interpolation_from_three rnd y1 y2 y3 n norm) - (Q2R y2 + Q2R n / 2 * (a + b + Q2R n * (b - a)))) <= 0.0000000001.
Proof.
  intros HY HN HA HB a b. rewrite interp_eq.
  pose proof (apx_exact _ _ HY) as Y. pose proof (apx_exact _ _ HN) as X. pose proof (apx_exact _ _ HA) as XA. pose proof (apx_exact _ _ HB) as XB.
  fold a in XA. fold b in XB.
  pose proof (apx_add rnd N _ _ _ _ _ _ _ _ Y (apx_mul rnd N _ _ _ _ _ _ _ _ (apx_divc rnd N _ _ _ _ 2 X)
    (apx_add rnd N _ _ _ _ _ _ _ _ (apx_add rnd N _ _ _ _ _ _ _ _ XA XB) (apx_mul rnd N _ _ _ _ _ _ _ _ X (apx_sub rnd N _ _ _ _ _ _ _ _ XB XA))))) as Z.
  destruct Z as [Z _]. change (Z.pos 2 # 1) with 2%Q in Z. eapply Rle_trans; [exact Z|]. unfold u. lra.
Qed.

Lemma hour_angle_R srt lon alpha x : Rabs (Q2R srt + Q2R lon - Q2R alpha - x) <= 0.0000005 -> Rabs (Q2R srt) <= 800 -> Rabs (Q2R lon) <= 180 -> Rabs (Q2R alpha) <= 400 ->
  exists k : Z, Rabs (Q2R (local_hour_angle rnd srt lon alpha) - (x + 360 * IZR k)) <= 0.000001 /\ Rabs (Q2R (local_hour_angle rnd srt lon alpha)) <= 361.
Proof.
  intros HX HS HL HA. unfold local_hour_angle. cbv zeta.
  destruct (apx_sub rnd N _ _ _ _ _ _ _ _ (apx_add rnd N _ _ _ _ _ _ _ _ (apx_exact _ _ HS) (apx_exact _ _ HL)) (apx_exact _ _ HA)) as [F _].
  set (y := fsub rnd (fadd rnd srt lon) alpha) in *. assert (F' : Rabs (Q2R y - (Q2R srt + Q2R lon - Q2R alpha)) <= 0.0000000001) by (eapply Rle_trans; [exact F|unfold u; lra]).
  destruct (coterminal_R rnd N y) as [k [K R]]. set (h := coterminal_angle rnd y) in *. apply Rabs_le_iff in K. apply Rabs_le_iff in F'. apply Rabs_le_iff in HX.
  destruct (Qltb 180 h).
  - assert (G : Rabs (Q2R (fsub rnd h 360) - (Q2R h - Q2R 360)) <= 361 * u) by (apply fsub_R; [exact N|]; rewrite Q2R_lit; apply Rabs_le_iff; lra).
    rewrite Q2R_lit in G. unfold u in G. apply Rabs_le_iff in G. exists (k - 1)%Z. rewrite minus_IZR. split; apply Rabs_le_iff; lra.
  - exists k. split; apply Rabs_le_iff; lra.
Qed.

Lemma FF_turn p d h k : FF p d (h + 360 * IZR k) = FF p d h.
Proof. unfold FF. rewrite cos_turn_d. reflexivity. Qed.
Lemma FF_near p d d' h h' : Rabs (d' - d) <= 0.000001 -> Rabs (h' - h) <= 0.000001 -> Rabs (FF p d' h' - FF p d h) <= 0.0000001.
Proof.
  intros H1 H2. pose proof (FF_lip_d p d d' h') as F1. pose proof (FF_lip_h p d h h') as F2. rewrite <- rad_minus in F1, F2.
  pose proof (rad_abs _ _ H1). pose proof (rad_abs _ _ H2).
  replace (FF p d' h' - FF p d h) with ((FF p d' h' - FF p d h') + (FF p d h' - FF p d h)) by ring. eapply Rle_trans; [apply Rabs_triang|]. lra.
Qed.

Lemma altitude_R delta lat h : Rabs (Q2R lat) <= 52 -> Rabs (Q2R delta) <= 30 -> Rabs (Q2R h) <= 361 -> Rabs (FF (Q2R lat) (Q2R delta) (Q2R h)) <= 0.0328 ->
  exists alt, altitude rnd lm delta lat h = Ok alt /\ Rabs (sin (rad (Q2R alt)) - FF (Q2R lat) (Q2R delta) (Q2R h)) <= 0.000004 /\ Rabs (Q2R alt) <= 2.
Proof.
  intros HL HD HH HF. unfold altitude, asin_e.
  pose proof (apx_sin rnd N lm A _ _ _ _ (apx_exact _ _ HL)) as SL. pose proof (apx_cos rnd N lm A _ _ _ _ (apx_exact _ _ HL)) as CL.
  pose proof (apx_sin rnd N lm A _ _ _ _ (apx_exact _ _ HD)) as SD. pose proof (apx_cos rnd N lm A _ _ _ _ (apx_exact _ _ HD)) as CD.
  pose proof (apx_cos rnd N lm A _ _ _ _ (apx_exact _ _ HH)) as CH.
  destruct (apx_add rnd N _ _ _ _ _ _ _ _ (apx_mul rnd N _ _ _ _ _ _ _ _ SL SD) (apx_mul rnd N _ _ _ _ _ _ _ _ (apx_mul rnd N _ _ _ _ _ _ _ _ CL CD) CH)) as [E _].
  match type of E with Rabs (Q2R ?x - _) <= _ => set (f := x) in * end. fold (FF (Q2R lat) (Q2R delta) (Q2R h)) in E.
  assert (E' : Rabs (Q2R f - FF (Q2R lat) (Q2R delta) (Q2R h)) <= 0.000002) by (eapply Rle_trans; [exact E|unfold u; lra]). clear E.
  set (F := FF (Q2R lat) (Q2R delta) (Q2R h)) in *. apply Rabs_le_iff in E'. apply Rabs_le_iff in HF.
  assert (B : (Qleb (-1) f && Qleb f 1)%bool = true) by (apply andb_true_intro; split; apply Qleb_le, Rle_Qle; rewrite Q2R_lit; lra).
  rewrite B. cbn [bind]. eexists. split; [reflexivity|].
  assert (SA : sin (asin (Q2R f)) = Q2R f) by (apply sin_asin; lra). pose proof (asin_bound (Q2R f)) as AB.
  pose proof (acc_asin lm A f (asin (Q2R f)) (eq_sym SA) ltac:(lra)) as T. unfold SpecAstro.near, tol in T.
  pose proof (small_angle (asin (Q2R f)) ltac:(lra) ltac:(rewrite SA; apply Rabs_le_iff; lra)) as TH.
  set (th := asin (Q2R f)) in *. pose proof PI_bounds as PB. assert (R1 : rad 1.9 <= PI / 2) by (rewrite <- rad_90; apply rad_mono; lra).
  apply Rabs_le_iff in T. apply Rabs_le_iff in TH.
  destruct (degrees_R rnd N (l_asin lm f) ltac:(apply Rabs_le_iff; lra)) as [D1 _]. apply Rabs_le_iff in D1.
  set (d := Q2R (degrees rnd (l_asin lm f))) in *. assert (Z : Rabs (rad d - th) <= 0.000001) by (apply Rabs_le_iff; lra). split.
  - pose proof (sin_lip th (rad d)) as SLp. assert (W : Rabs (sin (rad d) - sin th) <= 0.000001) by lra.
    rewrite SA in W. apply Rabs_le_iff in W. apply Rabs_le_iff. lra.
  - apply deg_abs in Z. rewrite deg_minus, deg_rad in Z. assert (Z2 : deg (- rad 1.9) <= deg th <= deg (rad 1.9)) by (split; apply deg_mono; lra).
    rewrite <- rad_opp, !deg_rad in Z2. apply Rabs_le_iff in Z. apply Rabs_le_iff. lra.
Qed.

Lemma offset_R : Rabs (Q2R (SUN_OFFSET rnd) - OO) <= 0.00000000001.
Proof.
  destruct (apx_litc rnd 8333 10000 N) as [E _]. unfold SUN_OFFSET. eapply Rle_trans; [|eapply Rle_trans; [exact E|cbn [Z.abs]; unfold u; lra]].
  right. reflexivity.
Qed.
Lemma sinO : 0.0145 <= sin (rad OO) <= 0.01455. Proof. exact sin_08333. Qed.

(** the first hour angle *)
Lemma cos_2375b x : Rabs x <= 23.75 -> 0.9152 <= cos (rad x).
Proof. pose proof sin_2375. apply (cos_ge 23.75 0.4028); lra. Qed.
Lemma cosine_range p d : -45 <= p <= 45 -> Rabs d <= 23.75 -> 
  -0.4628 * (cos (rad p) * cos (rad d)) <= - sin (rad OO) - sin (rad p) * sin (rad d) <= 0.4188 * (cos (rad p) * cos (rad d)).
Proof.
  intros HP HD. destruct (lat_range p HP) as [L1 L2]. pose proof (cos_2375b d HD) as C. pose proof (sin_abs_le d 23.75 HD ltac:(lra)) as S. pose proof sin_2375 as S2. pose proof sinO as O.
  pose proof (COS_bound (rad d)) as C1. assert (SD : Rabs (sin (rad d)) <= 0.4028) by lra.
  set (sp := Rabs (sin (rad p))) in *. set (cp := cos (rad p)) in *.
  assert (P1 : Rabs (sin (rad p) * sin (rad d)) <= sp * 0.4028) by (rewrite Rabs_mult; apply Rmult_le_compat_l; [apply Rabs_pos|exact SD]).
  assert (P2 : cp * 0.9152 <= cp * cos (rad d)) by (apply Rmult_le_compat_l; lra).
  assert (SP : sp <= 0.7072).
  { pose proof (cos_sq (rad p)) as E. assert (sp * sp = sin (rad p) * sin (rad p)) by (unfold sp; rewrite <- Rabs_mult; apply Rabs_right; apply Rle_ge, Rle_0_sqr). 
    assert (0 <= sp) by apply Rabs_pos. fold cp in E. destruct (Rle_dec sp 0.7072) as [|NN]; [assumption|].
    assert (0.7072 * 0.7072 <= sp * sp) by (apply Rmult_le_compat; lra). assert (sp * sp <= cp * cp) by (apply Rmult_le_compat; lra). lra. }
  apply Rabs_le_iff in P1. split; lra.
Qed.
Lemma cosine_range52 p d : -52 <= p <= 52 -> Rabs d <= 23.75 -> 
  -0.5905 * (cos (rad p) * cos (rad d)) <= - sin (rad OO) - sin (rad p) * sin (rad d) <= 0.5390 * (cos (rad p) * cos (rad d)).
Proof.
  intros HP HD. destruct (lat_range52 p HP) as [SP [L2 L1]]. pose proof (cos_2375b d HD) as C. pose proof (sin_abs_le d 23.75 HD ltac:(lra)) as S. pose proof sin_2375 as S2. pose proof sinO as O.
  pose proof (COS_bound (rad d)) as C1. assert (SD : Rabs (sin (rad d)) <= 0.4028) by lra.
  set (sp := Rabs (sin (rad p))) in *. set (cp := cos (rad p)) in *.
  assert (P1 : Rabs (sin (rad p) * sin (rad d)) <= sp * 0.4028) by (rewrite Rabs_mult; apply Rmult_le_compat_l; [apply Rabs_pos|exact SD]).
  assert (P2 : cp * 0.9152 <= cp * cos (rad d)) by (apply Rmult_le_compat_l; lra).
  apply Rabs_le_iff in P1. split; lra.
Qed.
Lemma first_hour_angle tc lat d : Rabs (Q2R lat) <= 52 -> sun_apparent_declination rnd lm tc = Ok d -> Rabs (Q2R d) <= 23.75 ->
  exists h, approx_local_hour_angle rnd lm tc lat (SUN_OFFSET rnd) = Ok h /\ 57.29 <= Q2R h <= 126.31 /\ Rabs (cos (rad (Q2R h))) <= 0.5916 /\ (Rabs (Q2R lat) <= 45 -> 65.19 <= Q2R h <= 117.61) /\
    Rabs (FF (Q2R lat) (Q2R d) (Q2R h) + sin (rad OO)) <= 0.00002.
Proof.
  intros HL ED HD. unfold approx_local_hour_angle. rewrite ED. cbn [bind].
  pose proof (apx_sin rnd N lm A _ _ _ _ (apx_exact _ _ HL)) as SL. pose proof (apx_cos rnd N lm A _ _ _ _ (apx_exact _ _ HL)) as CL.
  pose proof (apx_sin rnd N lm A _ _ _ _ (apx_exact _ _ HD)) as SD. pose proof (apx_cos rnd N lm A _ _ _ _ (apx_exact _ _ HD)) as CD.
  pose proof offset_R as OF.
  assert (XO : apx (- SUN_OFFSET rnd) (- OO) 1 0.00000000001) by (apply apx_opp; split; [exact OF|unfold OO; apply Rabs_le_iff; lra]).
  pose proof (apx_sin rnd N lm A _ _ _ _ XO) as SO. rewrite rad_opp, sin_neg in SO.
  destruct (apx_sub rnd N _ _ _ _ _ _ _ _ SO (apx_mul rnd N _ _ _ _ _ _ _ _ SL SD)) as [EN _].
  destruct (apx_mul rnd N _ _ _ _ _ _ _ _ CL CD) as [EQ _].
  set (nu := fsub rnd (sin_deg rnd lm (- SUN_OFFSET rnd)) _) in *. set (q := fmul rnd (cos_deg rnd lm lat) (cos_deg rnd lm d)) in *.
  apply Rabs_le_iff in HL. pose proof (cosine_range52 (Q2R lat) (Q2R d) ltac:(lra) HD) as CR.
  pose proof (B_range (Q2R lat) (Q2R d) ltac:(lra) ltac:(lra)) as BR. set (y := cos (rad (Q2R lat)) * cos (rad (Q2R d))) in *.
  set (x := - sin (rad OO) - sin (rad (Q2R lat)) * sin (rad (Q2R d))) in *.
  assert (EN' : Rabs (Q2R nu - x) <= 0.000001) by (eapply Rle_trans; [exact EN|unfold u; lra]). clear EN.
  assert (EQ' : Rabs (Q2R q - y) <= 0.000001) by (eapply Rle_trans; [exact EQ|unfold u; lra]). clear EQ.
  apply Rabs_le_iff in EN'. apply Rabs_le_iff in EQ'.
  assert (QN : ~ (q == 0)%Q). { intro Z. apply Qeq_eqR in Z. rewrite RMicromega.Q2R_0 in Z. lra. }
  unfold fdiv_e. assert (QB : Qeqb q 0 = false) by (destruct (Qeqb q 0) eqn:G; [apply Qeqb_eq in G; contradiction|reflexivity]). rewrite QB. cbn [bind].
  set (w := Q2R nu / Q2R q). assert (WE : w * Q2R q = Q2R nu) by (unfold w; field; lra).
  assert (W1 : Rabs w <= 1).
  { apply Rabs_le_iff. split.
    - apply (Rmult_le_reg_r (Q2R q)); [lra|]. rewrite WE. lra.
    - apply (Rmult_le_reg_r (Q2R q)); [lra|]. rewrite WE. lra. }
  pose proof (fdiv_R rnd N nu q 1 QN W1) as FD. fold w in FD. set (c := fdiv rnd nu q) in *. unfold u in FD. apply Rabs_le_iff in FD.
  assert (WY : Rabs (w * y - x) <= 0.000002).
  { replace (w * y - x) with (w * (y - Q2R q) + (Q2R nu - x)) by (rewrite <- WE; ring). eapply Rle_trans; [apply Rabs_triang|]. rewrite Rabs_mult.
    assert (Rabs w * Rabs (y - Q2R q) <= 1 * 0.000001) by (apply Rmult_le_compat; auto using Rabs_pos; apply Rabs_le_iff; lra).
    assert (Rabs (Q2R nu - x) <= 0.000001) by (apply Rabs_le_iff; lra). lra. }
  apply Rabs_le_iff in WY.
  assert (WR : -0.5906 <= w <= 0.5391).
  { split; apply (Rmult_le_reg_r y); try lra. }
  assert (G : (Qltb c (-1) || Qltb 1 c)%bool = false).
  { apply orb_false_intro; apply Qltb_ge, Rle_Qle; rewrite Q2R_lit; lra. }
  rewrite G. unfold acos_e. assert (G2 : (Qleb (-1) c && Qleb c 1)%bool = true) by (apply andb_true_intro; split; apply Qleb_le, Rle_Qle; rewrite Q2R_lit; lra).
  rewrite G2. cbn [bind]. eexists. split; [reflexivity|].
  assert (CA : cos (acos (Q2R c)) = Q2R c) by (apply cos_acos; lra). pose proof (acos_bound (Q2R c)) as AB.
  pose proof (acc_acos lm A c (acos (Q2R c)) (eq_sym CA) AB) as T. unfold SpecAstro.near, tol in T. 
  pose proof (hour_range52 (acos (Q2R c)) AB ltac:(rewrite CA; lra)) as HR.
  assert (HR45 : Rabs (Q2R lat) <= 45 -> rad 65.2 <= acos (Q2R c) <= rad 117.6).
  { intro L45. apply Rabs_le_iff in L45. pose proof (cosine_range (Q2R lat) (Q2R d) L45 HD) as CR'. fold x y in CR'.
    assert (WR' : -0.46285 <= w <= 0.41885) by (split; apply (Rmult_le_reg_r y); lra). apply hour_range; [exact AB|]. rewrite CA. lra. }
  set (th := acos (Q2R c)) in *. pose proof PI_bounds as PB. apply Rabs_le_iff in T.
  destruct (degrees_R rnd N (l_acos lm c) ltac:(apply Rabs_le_iff; lra)) as [D1 _]. apply Rabs_le_iff in D1.
  set (h := Q2R (degrees rnd (l_acos lm c))) in *. assert (Z : Rabs (rad h - th) <= 0.0000003) by (apply Rabs_le_iff; lra).
  pose proof (cos_lip th (rad h)) as CLp. assert (W : Rabs (cos (rad h) - cos th) <= 0.0000003) by lra. rewrite CA in W. apply Rabs_le_iff in W.
  apply deg_abs in Z. rewrite deg_minus, deg_rad in Z. apply Rabs_le_iff in Z.
  assert (Z2 : deg (rad 57.3) <= deg th <= deg (rad 126.3)) by (split; apply deg_mono; lra). rewrite !deg_rad in Z2.
  assert (Z3 : Rabs (Q2R lat) <= 45 -> 65.19 <= h <= 117.61).
  { intro L45. specialize (HR45 L45). assert (Z2' : deg (rad 65.2) <= deg th <= deg (rad 117.6)) by (split; apply deg_mono; lra). rewrite !deg_rad in Z2'. lra. }
  split; [lra|]. split; [apply Rabs_le_iff; lra|]. split; [exact Z3|].
  unfold FF. fold y. replace (sin (rad (Q2R lat)) * sin (rad (Q2R d)) + y * cos (rad h) + sin (rad OO)) with ((w * y - x) + y * (cos (rad h) - w)) by (unfold x; ring).
  assert (Rabs (y * (cos (rad h) - w)) <= 1 * 0.000001). { rewrite Rabs_mult. apply Rmult_le_compat; try apply Rabs_pos; apply Rabs_le_iff; lra. }
  apply Rabs_le_iff in H. apply Rabs_le_iff. lra.
Qed.
End Rise.
