(** PropertiesPlanet.v -- C101: the place of the sun by the planetary theory. *)
From Coq Require Import ZArith QArith Qabs Qreals Lqa Reals Lra Lia List Bool.
From Verif Require Import Base Flt QUtil BaseModel BaseProofs AstroModel SpecAstro SpecSun SpecNut SpecSeason AstroReal AstroReal2 AstroFlt AstroApx AstroSun SunProofs
  PropertiesAstro PropertiesNut EquinoxLen PlanetModel SpecPlanet PlanetProofs.
Import ListNotations.
Local Open Scope R_scope.

Lemma wave_le t r : row_ok r = true -> Rabs (wave t r) <= IZR (fst (fst r)).
Proof.
  destruct r as [[a b] c]. unfold row_ok, wave. intro G. repeat (apply andb_prop in G; destruct G as [G _]). apply Z.leb_le, IZR_le in G. cbn [fst].
  rewrite Rabs_mult, (Rabs_right (IZR a)) by lra. pose proof (cos_1 (Q2R b + Q2R c * t)). nra.
Qed.
Lemma waves_le t T : forallb row_ok T = true -> Rabs (waves t T) <= IZR (qsize T).
Proof.
  induction T as [|[[a b] c] T IH]; cbn [forallb waves qsize fold_right]; intro O; [rewrite Rabs_R0; lra|].
  apply andb_prop in O. destruct O as [O1 O2]. fold (waves t T). fold (qsize T). rewrite plus_IZR. pose proof (wave_le t _ O1) as W. cbn [fst] in W.
  eapply Rle_trans; [apply Rabs_triang|]. specialize (IH O2). lra.
Qed.
Lemma waves_num t T s : forallb row_ok T = true -> qsize T = s -> Rabs (waves t T) <= IZR s.
Proof. intros O <-. apply waves_le, O. Qed.
Lemma distance_range t : Rabs t <= 2.07 -> 0.98 <= earth_distance t <= 1.02.
Proof.
  intro H. assert (W0 : waves t earth_R0 = 100013989 + waves t (tl earth_R0)).
  { unfold earth_R0. cbn [waves fold_right tl wave]. fold (waves t). replace (Q2R 0 + Q2R 0 * t) with 0 by (rewrite RMicromega.Q2R_0; ring). rewrite cos_0. ring. }
  pose proof (waves_num t (tl earth_R0) 1695887 ltac:(vm_compute; reflexivity) ltac:(vm_compute; reflexivity)) as B0.
  pose proof (waves_num t earth_R1 105576 ltac:(vm_compute; reflexivity) ltac:(vm_compute; reflexivity)) as B1.
  pose proof (waves_num t earth_R2 4513 ltac:(vm_compute; reflexivity) ltac:(vm_compute; reflexivity)) as B2.
  pose proof (waves_num t earth_R3 150 ltac:(vm_compute; reflexivity) ltac:(vm_compute; reflexivity)) as B3.
  pose proof (waves_num t earth_R4 4 ltac:(vm_compute; reflexivity) ltac:(vm_compute; reflexivity)) as B4.
  assert (M : forall x y K L, Rabs x <= K -> Rabs y <= L -> Rabs (x + t * y) <= K + 2.07 * L).
  { intros x y K L X Y. eapply Rle_trans; [apply Rabs_triang|]. rewrite Rabs_mult. apply Rplus_le_compat; [exact X|]. apply Rmult_le_compat; auto using Rabs_pos. }
  pose proof (M _ _ _ _ B3 B4) as M3. pose proof (M _ _ _ _ B2 M3) as M2. pose proof (M _ _ _ _ B1 M2) as M1. pose proof (M _ _ _ _ B0 M1) as M0.
  unfold earth_distance. rewrite W0. apply Rabs_le_iff in M0. lra.
Qed.

(** ** C101 *)
(** The earth's distance, longitude and latitude are those of the theory. *)
Theorem C101_earth : forall rnd lm total tm, Nearest rnd -> accurate lm -> sum_ok total -> Rabs (Q2R tm) <= 2.07 ->
  Rabs (Q2R (radius_vector rnd lm total tm false) - earth_distance (Q2R tm)) <= 0.00000002 /\ 0.98 <= earth_distance (Q2R tm) <= 1.02 /\
  Rabs (Q2R (helio_longitude rnd lm total tm false) - earth_longitude (Q2R tm)) <= 0.000015 /\
  Rabs (Q2R (helio_latitude rnd lm total tm false) - earth_latitude (Q2R tm)) <= 0.0000000002 /\ Rabs (earth_latitude (Q2R tm)) <= 0.0000057.
Proof.
  intros rnd lm total tm N A TOT H. destruct (radius_apx rnd N lm A total TOT tm H) as [R1 _]. pose proof (distance_range _ H) as R2.
  pose proof (apx_round12 rnd N _ _ _ _ (longitude_apx rnd N lm A total TOT tm H)) as [L1 _]. pose proof (apx_round12 rnd N _ _ _ _ (latitude_apx rnd N lm A total TOT tm H)) as [B1 B2].
  unfold helio_longitude, helio_latitude, in_degrees. unfold u in *.
  split; [lra|]. split; [exact R2|]. split; [eapply Rle_trans; [exact L1|lra]|]. split; [eapply Rle_trans; [exact B1|lra]|exact B2].
Qed.
Print Assumptions C101_earth.

(** In degrees the two angles come out between 0 and 360, also the latitude, which is never further than 0.0004 degrees from 0;
    the distance is made degrees of as if it were an angle. *)
Theorem C101_degrees : forall rnd lm total tm, Nearest rnd -> accurate lm -> sum_ok total -> Rabs (Q2R tm) <= 2.07 ->
  (exists k : Z, Rabs (Q2R (helio_longitude rnd lm total tm true) - (in_deg (earth_longitude (Q2R tm)) + 360 * IZR k)) <= 0.00081) /\
  (exists k : Z, Rabs (Q2R (helio_latitude rnd lm total tm true) - (in_deg (earth_latitude (Q2R tm)) + 360 * IZR k)) <= 0.0000001) /\
  (exists k : Z, Rabs (Q2R (radius_vector rnd lm total tm true) - (in_deg (earth_distance (Q2R tm)) + 360 * IZR k)) <= 0.000001) /\
  -0.000001 <= Q2R (helio_longitude rnd lm total tm true) <= 360.001 /\ -0.000001 <= Q2R (helio_latitude rnd lm total tm true) <= 360.001.
Proof.
  intros rnd lm total tm N A TOT H.
  destruct (apx_in_degrees rnd N _ _ _ _ (longitude_apx rnd N lm A total TOT tm H) ltac:(lra) ltac:(lra)) as [k [K1 K2]].
  destruct (apx_in_degrees rnd N _ _ _ _ (latitude_apx rnd N lm A total TOT tm H) ltac:(lra) ltac:(lra)) as [k' [K3 K4]].
  destruct (apx_in_degrees rnd N _ _ _ _ (distance_apx rnd N lm A total TOT tm H) ltac:(lra) ltac:(lra)) as [k2 [K5 _]].
  assert (X : forall q, 0 <= Q2R q <= 360.0001 -> -0.000001 <= Q2R (round12 rnd q) <= 360.001).
  { intros q Q. pose proof (apx_round12 rnd N _ _ _ _ (apx_exact q 361 ltac:(apply Rabs_le_iff; lra))) as [E _]. unfold u in E. apply Rabs_le_iff in E. lra. }
  destruct (apx_round12 rnd N _ _ _ _ K1) as [D1 _]. destruct (apx_round12 rnd N _ _ _ _ K3) as [D3 _]. destruct (apx_round12 rnd N _ _ _ _ K5) as [D5 _]. unfold u in *. unfold helio_longitude, helio_latitude, radius_vector.
  split; [exists k; eapply Rle_trans; [exact D1|lra]|]. split; [exists k'; eapply Rle_trans; [exact D3|lra]|]. split; [exists k2; eapply Rle_trans; [exact D5|lra]|]. split; apply X; assumption.
Qed.
Print Assumptions C101_degrees.

(** ** aberration *)
Lemma turns_le unit t T : 0 <= unit -> forallb (fun '(a, b, c) => Qle_bool 0 a) T = true -> Rabs (turns unit t T) <= unit * Q2R (fold_right (fun '(a, _, _) s => a + s)%Q 0%Q T).
Proof.
  intro U. induction T as [|[[a b] c] T IH]; cbn [forallb turns fold_right]; intro O; [rewrite RMicromega.Q2R_0, Rabs_R0; lra|].
  apply andb_prop in O. destruct O as [O1 O2]. apply Qle_bool_R in O1. rewrite RMicromega.Q2R_0 in O1. fold (turns unit t T). rewrite Q2R_plus. specialize (IH O2).
  eapply Rle_trans; [apply Rabs_triang|]. rewrite !Rabs_mult, (Rabs_right unit), (Rabs_right (Q2R a)) by lra.
  pose proof (sin_1 ((Q2R b + Q2R c * t) * (PI / 180))) as S. assert (0 <= unit * Q2R a) by (apply Rmult_le_pos; assumption).
  set (x := unit * Q2R a) in *. set (y := Rabs (sin _)) in *. assert (x * y <= x * 1) by (apply Rmult_le_compat_l; assumption). unfold x in *. lra.
Qed.
Lemma turns_num unit t T n : 0 <= unit <= 1 -> forallb (fun '(a, b, c) => Qle_bool 0 a) T = true -> Qle_bool (fold_right (fun '(a, _, _) s => a + s)%Q 0%Q T) n = true -> Rabs (turns unit t T) <= unit * Q2R n.
Proof. intros U O E. eapply Rle_trans; [apply turns_le; [lra|exact O]|]. apply Rmult_le_compat_l; [lra|]. apply Qle_bool_R, E. Qed.
Lemma motion_le unit t : 0 <= unit <= 1 -> Rabs t <= 2.07 ->
  Rabs (turns unit t motion_A + t * turns unit t motion_B + t * t * turns unit t motion_C) <= unit * 142.
Proof.
  intros U H. pose proof (turns_num unit t motion_A (12306 # 100) U ltac:(reflexivity) ltac:(vm_compute; reflexivity)) as BA.
  pose proof (turns_num unit t motion_B (763 # 100) U ltac:(reflexivity) ltac:(vm_compute; reflexivity)) as BB.
  pose proof (turns_num unit t motion_C (534 # 1000) U ltac:(reflexivity) ltac:(vm_compute; reflexivity)) as BC. rewrite Q2R_lit in *.
  assert (T2 : Rabs (t * t) <= 4.2849) by (rewrite Rabs_mult; pose proof (Rabs_pos t); nra).
  eapply Rle_trans; [apply Rabs_triang|]. eapply Rle_trans; [apply Rplus_le_compat_r, Rabs_triang|]. rewrite (Rabs_mult t), (Rabs_mult (t * t)).
  pose proof (Rmult_le_compat _ _ _ _ (Rabs_pos _) (Rabs_pos _) H BB). pose proof (Rmult_le_compat _ _ _ _ (Rabs_pos _) (Rabs_pos _) T2 BC). lra.
Qed.
Lemma code_aberration_range fixed t : Rabs t <= 2.07 -> -0.00582 <= code_aberration fixed t <= -0.00557.
Proof.
  intro H. pose proof PI_bounds as P. pose proof (distance_range t H) as D. pose proof (motion_le (PI / 180) t ltac:(lra) H) as M. apply Rabs_le_iff in M.
  unfold code_aberration, aberration_deg, daily_motion. set (m := turns (PI / 180) t motion_A) in *.
  set (b := t * turns (PI / 180) t motion_B) in *. set (c := t * t * turns (PI / 180) t motion_C) in *. set (d := earth_distance t) in *.
  assert (Q : 3545.7 <= (if fixed then 3548.193 else 3548.330) + m + b + c <= 3550.82) by (destruct fixed; lra).
  set (q := (if fixed then 3548.193 else 3548.330) + m + b + c) in *. split; nra.
Qed.
(** What the code computes: between 20.0 and 21.0 seconds of arc, always. *)
Theorem C101_aberration : forall rnd lm total tm fixed, Nearest rnd -> accurate lm -> sum_ok total -> Rabs (Q2R tm) <= 2.07 ->
  Rabs (Q2R (aberration rnd lm total tm fixed) - code_aberration fixed (Q2R tm)) <= 0.0000002 /\ -0.00582 <= code_aberration fixed (Q2R tm) <= -0.00557.
Proof.
  intros rnd lm total tm fixed N A TOT H. destruct (aberration_apx rnd N lm A total TOT tm H fixed) as [E _]. split; [exact E|]. apply code_aberration_range, H.
Qed.
Print Assumptions C101_aberration.

Lemma motion_0 : 3662 <= daily_motion true 1 0.
Proof.
  unfold daily_motion. rewrite !Rmult_0_l, !Rplus_0_r.
  assert (W : turns 1 0 motion_A = 118.568 * sin (rad 87.5287) + turns 1 0 (tl motion_A)).
  { change (turns 1 0 motion_A) with (1 * Q2R (118568 # 1000) * sin ((Q2R (875287 # 10000) + Q2R (3599937286 # 10000) * 0) * (PI / 180)) + turns 1 0 (tl motion_A)).
    rewrite Rmult_0_r, Rplus_0_r, !Q2R_lit. fold (rad (875287 / 10000)). replace (875287 / 10000) with 87.5287 by lra. lra. }
  pose proof (turns_num 1 0 (tl motion_A) (449 # 100) ltac:(lra) ltac:(reflexivity) ltac:(vm_compute; reflexivity)) as B. rewrite Q2R_lit in B. apply Rabs_le_iff in B.
  assert (S : 0.998 <= sin (rad 87.5287)).
  { rewrite <- cos_shift. rewrite <- rad_90, <- rad_minus. pose proof (cos_near1 (rad (90 - 87.5287))) as [_ C]. pose proof (rad_abs (90 - 87.5287) 2.48 ltac:(rewrite Rabs_right; lra)) as RB. apply Rabs_le_iff in RB. set (r := rad (90 - 87.5287)) in *. nra. }
  rewrite W. lra.
Qed.
(** The coefficients are seconds of arc; the code takes them for degrees and makes radians of them.  At J2000.0 the
    aberration is off by more than 0.6 seconds of arc. *)
Theorem C101_aberration_refuted : forall rnd lm total, Nearest rnd -> accurate lm -> sum_ok total ->
  3600 * (Q2R (aberration rnd lm total 0 true) - book_aberration true 0) >= 0.6.
Proof.
  intros rnd lm total N A TOT. assert (H : Rabs (Q2R 0) <= 2.07) by (rewrite RMicromega.Q2R_0, Rabs_R0; lra).
  destruct (C101_aberration rnd lm total 0 true N A TOT H) as [E _]. rewrite RMicromega.Q2R_0 in *. pose proof (distance_range 0 H) as D. pose proof motion_0 as M.
  pose proof PI_bounds as P. pose proof (motion_le (PI / 180) 0 ltac:(lra) H) as M2. apply Rabs_le_iff in M2. apply Rabs_le_iff in E.
  unfold code_aberration, book_aberration, aberration_deg in *. assert (Q : daily_motion true (PI / 180) 0 <= 3550.7) by (unfold daily_motion; lra).
  set (x := daily_motion true (PI / 180) 0) in *. set (y := daily_motion true 1 0) in *. set (d := earth_distance 0) in *. apply Rle_ge.
  assert (G : 111 <= y - x) by lra. assert (0.98 * 111 <= d * (y - x)) by (apply Rmult_le_compat; lra). lra.
Qed.
Print Assumptions C101_aberration_refuted.

(** ** the apparent longitude *)
Lemma millennia_R rnd jde : Nearest rnd -> Rabs (Q2R jde - 2451545) <= 756000 ->
  Rabs (Q2R (julian_millennia rnd jde) - (Q2R jde - 2451545) / 365250) <= 1 / 100000000000000 /\ Rabs (Q2R (julian_millennia rnd jde)) <= 2.07 /\ Rabs (Q2R (fmul rnd (julian_millennia rnd jde) 10) - 10 * Q2R (julian_millennia rnd jde)) <= 1 / 10000000000000 /\ Rabs (Q2R (fmul rnd (julian_millennia rnd jde) 10)) <= 20.7.
Proof.
  intros N H. assert (J : apx (fsub rnd jde J2000) (Q2R jde - 2451545) 756000 (756000 * u)).
  { split; [|exact H]. replace 2451545 with (Q2R J2000) in * by (unfold J2000; rewrite Q2R_lit; lra). apply (fsub_R rnd N _ _ _ H). }
  pose proof (apx_divc rnd N _ _ _ _ 365250 J) as M. fold (julian_millennia rnd jde) in M. set (tm := julian_millennia rnd jde) in *. pose proof (apx_size _ _ _ _ M) as S. destruct M as [M1 M2]. unfold u in *.
  assert (S' : Rabs (Q2R tm) <= 2.06999) by lra. split; [lra|]. split; [lra|].
  pose proof (fmul_R rnd N tm 10 20.6999) as F. rewrite Q2R_lit in F. assert (G : Rabs (Q2R tm * (10 / 1)) <= 20.6999) by (rewrite Rabs_mult, (Rabs_right (10 / 1)) by lra; lra).
  specialize (F G). unfold u in F. apply Rabs_le_iff in F. apply Rabs_le_iff in S'. split; apply Rabs_le_iff; lra.
Qed.
Lemma nutation_deg rnd lm tc : Nearest rnd -> accurate lm -> Rabs (Q2R tc) <= 20.7 -> Rabs (Q2R (nutation_longitude rnd lm tc)) <= 0.0056 /\ Rabs (3600 * Q2R (nutation_longitude rnd lm tc) - nutation_psi (Q2R tc)) <= 0.89.
Proof.
  intros N A H. destruct (C96_nutation rnd lm tc N A H) as [P _]. split; [|exact P]. destruct (nut_small _ H) as [S _]. apply Rabs_le_iff in P. apply Rabs_le_iff in S. apply Rabs_le_iff. lra.
Qed.
Lemma lon_apx rnd lm total jde : Nearest rnd -> accurate lm -> sum_ok total -> Rabs (Q2R jde - 2451545) <= 756000 ->
  let tm := julian_millennia rnd jde in
  apx (fadd rnd (fadd rnd (fsub rnd (fadd rnd (helio_longitude rnd lm total tm false) pi64) (radians rnd (lit rnd 25091666666666666 1000000000000000000000))) (nutation_longitude rnd lm (fmul rnd tm 10))) (aberration rnd lm total tm true))
    (earth_longitude (Q2R tm) + PI - rad 0.000025091666666666666 + Q2R (nutation_longitude rnd lm (fmul rnd tm 10)) + code_aberration true (Q2R tm)) 13014 0.0000144.
Proof.
  intros N A TOT H tm. destruct (millennia_R rnd jde N H) as [_ [T [_ T10]]]. fold tm in T, T10.
  pose proof (apx_round12 rnd N _ _ _ _ (longitude_apx rnd N lm A total TOT tm T)) as L. fold (in_degrees rnd false (planet_sum rnd lm total tm [TL0; TL1; TL2; TL3; TL4; TL5])) in L. fold (helio_longitude rnd lm total tm false) in L.
  change (round12 rnd (planet_sum rnd lm total tm [TL0; TL1; TL2; TL3; TL4; TL5])) with (helio_longitude rnd lm total tm false) in L.
  assert (PP : apx pi64 PI 3.2 (1 / 100000000000000)).
  { split; [rewrite Rabs_minus_sym; exact PI_tight|]. pose proof PI_bounds. rewrite Rabs_right; lra. }
  assert (RR : apx (radians rnd (lit rnd 25091666666666666 1000000000000000000000)) (rad 0.000025091666666666666) 0.000001 (1 / 10000000000000)).
  { unfold lit. eapply apx_weaken; [apply (apx_rad rnd N 0.000025091666666666666 ltac:(rewrite Rabs_right; lra)); rewrite Q2R_lit; lra| |]; rewrite Rabs_right; lra. }
  destruct (nutation_deg rnd lm _ N A T10) as [NB _]. pose proof (apx_exact _ _ NB) as NN. pose proof (aberration_apx rnd N lm A total TOT tm T true) as AA.
  assert (X1 := apx_add rnd N _ _ _ _ _ _ _ _ L PP). apply (fun h => apx_weaken _ _ _ _ 13013.3 0.00001405 h) in X1; [|lra|unfold u; lra].
  assert (X2 := apx_sub rnd N _ _ _ _ _ _ _ _ X1 RR). apply (fun h => apx_weaken _ _ _ _ 13013.4 0.00001408 h) in X2; [|lra|unfold u; lra].
  assert (X3 := apx_add rnd N _ _ _ _ _ _ _ _ X2 NN). apply (fun h => apx_weaken _ _ _ _ 13013.5 0.0000141 h) in X3; [|lra|unfold u; lra].
  assert (X4 := apx_add rnd N _ _ _ _ _ _ _ _ X3 AA). eapply apx_weaken; [exact X4|lra|unfold u; lra].
Qed.
Lemma lon_main rnd lm total jde : Nearest rnd -> accurate lm -> sum_ok total -> Rabs (Q2R jde - 2451545) <= 756000 ->
  let t := Q2R (julian_millennia rnd jde) in let nu := Q2R (nutation_longitude rnd lm (fmul rnd (julian_millennia rnd jde) 10)) in
  (exists k : Z, Rabs (Q2R (apparent_solar_longitude rnd lm total jde true)
    - (in_deg (earth_longitude t) + 180 - 0.000025091666666666666 + in_deg (nu + code_aberration true t) + 360 * IZR k)) <= 0.00083) /\
  Rabs (Q2R (apparent_solar_longitude rnd lm total jde false) - (earth_longitude t + PI - 0.000025091666666666666 * (PI / 180) + nu + code_aberration true t)) <= 0.000015.
Proof.
  intros N A TOT H t nu. unfold t, nu. pose proof (lon_apx rnd lm total jde N A TOT H) as L. cbv zeta in L.
  set (tm := julian_millennia rnd jde) in *.
  unfold apparent_solar_longitude. fold tm. cbv zeta. split.
  - destruct (apx_in_degrees rnd N _ _ _ _ L ltac:(lra) ltac:(lra)) as [k [K _]]. exists k. destruct (apx_round12 rnd N _ _ _ _ K) as [E _].
    eapply Rle_trans; [right|eapply Rle_trans; [exact E|unfold u; lra]]. f_equal. unfold in_deg, rad. pose proof PI_RGT_0. field. lra.
  - destruct (apx_round12 rnd N _ _ _ _ L) as [E _]. unfold in_degrees. eapply Rle_trans; [right|eapply Rle_trans; [exact E|unfold u; lra]]. f_equal.
Qed.
(** Nutation and aberration come in degrees and are added to a sum of radians, so that they count 57 times. *)
Theorem C101_apparent_longitude : forall rnd lm total jde, Nearest rnd -> accurate lm -> sum_ok total -> Rabs (Q2R jde - 2451545) <= 756000 ->
  exists t tau nu, Rabs (t - (Q2R jde - 2451545) / 365250) <= 1 / 100000000000000 /\ Rabs (tau - 10 * t) <= 1 / 10000000000000 /\ Rabs (3600 * nu - nutation_psi tau) <= 0.89 /\ (exists k : Z, Rabs (Q2R (apparent_solar_longitude rnd lm total jde true)
    - (in_deg (earth_longitude t) + 180 - 0.000025091666666666666 + in_deg (nu + code_aberration true t) + 360 * IZR k)) <= 0.00083) /\ Rabs (Q2R (apparent_solar_longitude rnd lm total jde false) - (earth_longitude t + PI - 0.000025091666666666666 * (PI / 180) + nu + code_aberration true t)) <= 0.000015.
Proof.
  intros rnd lm total jde N A TOT H. destruct (millennia_R rnd jde N H) as [T0 [_ [T1 T10]]]. destruct (nutation_deg rnd lm _ N A T10) as [_ NP].
  eexists _, _, _. split; [exact T0|]. split; [exact T1|]. split; [exact NP|]. exact (lon_main rnd lm total jde N A TOT H).
Qed.
Print Assumptions C101_apparent_longitude.

Lemma millennia_0 rnd : Nearest rnd -> Q2R (julian_millennia rnd 2451545) = 0 /\ Q2R (fmul rnd (julian_millennia rnd 2451545) 10) = 0.
Proof.
  intro N. assert (Z : forall q, (q == 0)%Q -> (rnd q == 0)%Q).
  { intros q Q. rewrite (near_proper rnd N _ _ Q). change 0%Q with (inject_Z 0). apply near_int; [exact N|lia]. }
  assert (J : (julian_millennia rnd 2451545 == 0)%Q).
  { unfold julian_millennia, fdiv. apply Z. unfold fsub. rewrite (Z (2451545 - J2000)%Q ltac:(reflexivity)). reflexivity. }
  assert (K : (fmul rnd (julian_millennia rnd 2451545) 10 == 0)%Q) by (unfold fmul; apply Z; rewrite J; reflexivity).
  apply Qeq_eqR in J, K. rewrite RMicromega.Q2R_0 in J, K. split; assumption.
Qed.
Lemma psi_0 : -18.96 <= nutation_psi 0 <= -12.2.
Proof.
  destruct (nut_small 0 ltac:(rewrite Rabs_R0; lra)) as [S _]. apply Rabs_le_iff in S. split; [lra|]. unfold nutation_psi, sind.
  pose proof (SIN_bound (2 * sun_mean 0 * (PI / 180))). pose proof (SIN_bound (2 * moon_mean 0 * (PI / 180))). pose proof (SIN_bound (2 * moon_node 0 * (PI / 180))).
  assert (M : 0.8128 <= sin (moon_node 0 * (PI / 180))).
  { fold (rad (moon_node 0)). replace (moon_node 0) with 125.04452 by (unfold moon_node; lra). rewrite <- cos_shift, <- rad_90, <- rad_minus.
    pose proof (cos_near1 (rad (90 - 125.04452))) as [_ C]. pose proof (rad_abs (90 - 125.04452) 35.04452 ltac:(rewrite Rabs_left; lra)) as RB. apply Rabs_le_iff in RB.
    set (r := rad (90 - 125.04452)) in *. nra. }
  lra.
Qed.
(** At J2000.0 the apparent longitude of the sun is off by more than 0.4 degrees: the way of the sun in ten hours. *)
Theorem C101_apparent_longitude_refuted : forall rnd lm total, Nearest rnd -> accurate lm -> sum_ok total -> forall k : Z,
  Rabs (Q2R (apparent_solar_longitude rnd lm total 2451545 true)
    - (in_deg (earth_longitude 0) + 180 - 0.000025091666666666666 + nutation_psi 0 / 3600 + book_aberration true 0 + 360 * IZR k)) >= 0.4.
Proof.
  intros rnd lm total N A TOT k. assert (H : Rabs (Q2R 2451545 - 2451545) <= 756000) by (rewrite Q2R_lit; apply Rabs_le_iff; lra).
  destruct (lon_main rnd lm total 2451545 N A TOT H) as [[k0 L] _]. destruct (millennia_0 rnd N) as [T0 T1]. destruct (millennia_R rnd 2451545 N H) as [_ [_ [_ T10]]].
  destruct (nutation_deg rnd lm _ N A T10) as [_ NP]. rewrite T1 in NP. rewrite T0 in L. set (nu := Q2R (nutation_longitude rnd lm _)) in *.
  pose proof psi_0 as PS. assert (Z0 : Rabs 0 <= 2.07) by (rewrite Rabs_R0; lra). pose proof (code_aberration_range true 0 Z0) as CA.
  assert (BA : -0.0061 <= book_aberration true 0 <= -0.0053).
  { pose proof (distance_range 0 Z0) as D. pose proof (motion_le 1 0 ltac:(lra) Z0) as M. apply Rabs_le_iff in M. unfold book_aberration, aberration_deg.
    assert (Q : 3406 <= daily_motion true 1 0 <= 3691) by (unfold daily_motion; lra). set (q := daily_motion true 1 0) in *. set (d := earth_distance 0) in *. split; nra. }
  apply Rabs_le_iff in NP. set (x := nu + code_aberration true 0) in *. assert (X : -0.0114 <= x <= -0.0087) by (unfold x; lra).
  assert (I : -0.66 <= in_deg x <= -0.49).
  { unfold in_deg. pose proof PI_bounds as P. assert (57.29 <= 180 / PI <= 57.3).
    { split; apply (Rmult_le_reg_r PI); try lra; unfold Rdiv; rewrite Rmult_assoc, Rinv_l by lra; lra. }
    set (w := 180 / PI) in *. split; nra. }
  set (e := in_deg (earth_longitude 0)) in *. set (v := Q2R (apparent_solar_longitude rnd lm total 2451545 true)) in *. apply Rabs_le_iff in L. apply Rle_ge.
  destruct (Ztrichotomy k0 k) as [K|[K|K]].
  - assert (IZR k0 + 1 <= IZR k) by (rewrite <- plus_IZR; apply IZR_le; lia). rewrite Rabs_left; lra.
  - subst k0. rewrite Rabs_left; lra.
  - assert (IZR k + 1 <= IZR k0) by (rewrite <- plus_IZR; apply IZR_le; lia). rewrite Rabs_right; lra.
Qed.
Print Assumptions C101_apparent_longitude_refuted.

(** ** the apparent latitude *)
(** It is the earth's latitude turned around, but for the small correction to another frame; and it is given between 0 and 360. *)
Theorem C101_apparent_latitude : forall rnd lm total jde, Nearest rnd -> accurate lm -> sum_ok total -> Rabs (Q2R jde - 2451545) <= 756000 ->
  exists t, Rabs (t - (Q2R jde - 2451545) / 365250) <= 1 / 100000000000000 /\
  Rabs (Q2R (apparent_solar_latitude rnd lm total jde false) + earth_latitude t) <= 0.00000026875 /\
  (exists k : Z, Rabs (Q2R (apparent_solar_latitude rnd lm total jde true) + in_deg (earth_latitude t) - 360 * IZR k) <= 0.0000155) /\
  -0.000001 <= Q2R (apparent_solar_latitude rnd lm total jde true) <= 360.001.
Proof.
  intros rnd lm total jde N A TOT H. destruct (millennia_R rnd jde N H) as [T0 [T _]]. set (tm := julian_millennia rnd jde) in *. exists (Q2R tm). split; [exact T0|].
  unfold apparent_solar_latitude. fold tm. cbv zeta. set (b1 := poly rnd _ _).
  pose proof (apx_round12 rnd N _ _ _ _ (latitude_apx rnd N lm A total TOT tm T)) as B. change (round12 rnd (planet_sum rnd lm total tm [TB0; TB1])) with (helio_latitude rnd lm total tm false) in B. apply apx_opp in B.
  pose proof (apx_exact b1 _ (Rle_refl _)) as E1. pose proof (apx_cosr lm A _ _ _ _ E1) as C. pose proof (apx_sinr lm A _ _ _ _ E1) as S. set (be := Q2R b1) in *.
  assert (RR : apx (radians rnd (lit rnd 10877777777777778 1000000000000000000000)) (rad 0.000010877777777777778) 0.00000018988 (1 / 10000000000000)).
  { unfold lit. eapply apx_weaken; [apply (apx_rad rnd N 0.000010877777777777778 ltac:(rewrite Rabs_right; lra)); rewrite Q2R_lit; lra| |]; rewrite Rabs_right; lra. }
  assert (D : apx (fsub rnd (l_cos lm b1) (l_sin lm b1)) (cos be - sin be) 1.41422 0.00000001).
  { pose proof (apx_sub rnd N _ _ _ _ _ _ _ _ C S) as [D1 _]. split; [eapply Rle_trans; [exact D1|unfold u; lra]|].
    pose proof (sin2_cos2 be) as I. unfold Rsqr in I. assert (Q : (cos be - sin be) * (cos be - sin be) <= 2).
    { pose proof (Rle_0_sqr (cos be + sin be)) as Y. unfold Rsqr in Y. set (c := cos be) in *. set (s := sin be) in *. nra. }
    set (z := cos be - sin be) in *. apply Rabs_le_iff. split; nra. }
  pose proof (apx_mul rnd N _ _ _ _ _ _ _ _ RR D) as BD. apply (fun h => apx_weaken _ _ _ _ 0.00000026855 (2 / 10000000000000) h) in BD; [|lra|unfold u; lra].
  pose proof (apx_add rnd N _ _ _ _ _ _ _ _ B BD) as SUM. apply (fun h => apx_weaken _ _ _ _ 0.000006 (1.02 / 10000000000) h) in SUM; [|lra|unfold u; lra].
  set (q := fadd rnd _ _) in *. set (dl := rad 0.000010877777777777778 * (cos be - sin be)) in *. destruct BD as [_ DB].
  destruct (apx_in_degrees rnd N _ _ _ _ SUM ltac:(lra) ltac:(lra)) as [k [K1 K2]].
  split; [|split].
  - unfold in_degrees. destruct (apx_round12 rnd N _ _ _ _ SUM) as [E _]. apply Rabs_le_iff in E. apply Rabs_le_iff in DB. unfold u in E. apply Rabs_le_iff. lra.
  - exists k. destruct (apx_round12 rnd N _ _ _ _ K1) as [E _]. apply Rabs_le_iff in E. unfold u in E.
    assert (I : Rabs (in_deg dl) <= 0.0000154).
    { unfold in_deg. pose proof PI_bounds as P. assert (57.29 <= 180 / PI <= 57.3).
      { split; apply (Rmult_le_reg_r PI); try lra; unfold Rdiv; rewrite Rmult_assoc, Rinv_l by lra; lra. }
      rewrite Rabs_mult, (Rabs_right (180 / PI)) by lra. eapply Rle_trans; [apply Rmult_le_compat; [apply Rabs_pos|lra|exact DB|apply H0]|lra]. }
    apply Rabs_le_iff in I. replace (in_deg (- earth_latitude (Q2R tm) + dl)) with (- in_deg (earth_latitude (Q2R tm)) + in_deg dl) in E by (unfold in_deg; ring).
    apply Rabs_le_iff. lra.
  - destruct (apx_round12 rnd N _ _ _ _ (apx_exact (in_degrees rnd true q) 361 ltac:(apply Rabs_le_iff; lra))) as [E _]. unfold u in E. apply Rabs_le_iff in E. lra.
Qed.
Print Assumptions C101_apparent_latitude.

(** Thirteen days after J2000.0 the sun is 0.00007 degrees south of the ecliptic or more, and the latitude given is near 360. *)
Lemma latitude_south t : Rabs (t - 13.36 / 365250) <= 1 / 100000000000000 -> 0.0000012 <= earth_latitude t.
Proof.
  intro H. apply Rabs_le_iff in H. assert (T : 0.0000365776 <= t <= 0.0000365778) by lra. unfold earth_latitude.
  pose proof (waves_num t earth_B1 15 ltac:(vm_compute; reflexivity) ltac:(vm_compute; reflexivity)) as B1. apply Rabs_le_iff in B1.
  assert (W : waves t earth_B0 = 280 * cos (3.199 + 84334.662 * t) + 102 * cos (5.422 + 5507.553 * t) + waves t (tl (tl earth_B0))).
  { change (waves t earth_B0) with (280 * cos (Q2R (3199 # 1000) + Q2R (84334662 # 1000) * t) + (102 * cos (Q2R (5422 # 1000) + Q2R (5507553 # 1000) * t) + waves t (tl (tl earth_B0)))).
    rewrite !Q2R_lit. replace (3199 / 1000 + 84334662 / 1000 * t) with (3.199 + 84334.662 * t) by lra. replace (5422 / 1000 + 5507553 / 1000 * t) with (5.422 + 5507.553 * t) by lra. ring. }
  pose proof (waves_num t (tl (tl earth_B0)) 156 ltac:(vm_compute; reflexivity) ltac:(vm_compute; reflexivity)) as B0. apply Rabs_le_iff in B0. pose proof PI_bounds as P.
  assert (C1 : 0.999 <= cos (3.199 + 84334.662 * t)).
  { replace (3.199 + 84334.662 * t) with ((3.199 + 84334.662 * t - 2 * PI) + 2 * PI) by ring. rewrite cos_plus, cos_2PI, sin_2PI.
    set (x := 3.199 + 84334.662 * t - 2 * PI). assert (X : -0.01 <= x <= 0.01) by (unfold x; lra). pose proof (cos_near1 x) as [_ C]. nra. }
  assert (C2 : 0 <= cos (5.422 + 5507.553 * t)).
  { replace (5.422 + 5507.553 * t) with ((5.422 + 5507.553 * t - 2 * PI) + 2 * PI) by ring. rewrite cos_plus, cos_2PI, sin_2PI.
    set (x := 5.422 + 5507.553 * t - 2 * PI). assert (X : -0.7 <= x <= 0) by (unfold x; lra). pose proof (cos_ge_0 x ltac:(lra) ltac:(lra)). lra. }
  rewrite W. assert (TB : -0.01 <= t * waves t earth_B1 <= 0.01) by (split; nra). lra.
Qed.
Theorem C101_apparent_latitude_refuted : forall rnd lm total, Nearest rnd -> accurate lm -> sum_ok total ->
  Q2R (apparent_solar_latitude rnd lm total (245155836 # 100) true) >= 359.99.
Proof.
  intros rnd lm total N A TOT. assert (H : Rabs (Q2R (245155836 # 100) - 2451545) <= 756000) by (rewrite Q2R_lit; apply Rabs_le_iff; lra).
  destruct (C101_apparent_latitude rnd lm total _ N A TOT H) as (t & T & _ & [k K] & V). rewrite Q2R_lit in T.
  assert (T' : Rabs (t - 13.36 / 365250) <= 1 / 100000000000000) by (apply Rabs_le_iff in T; apply Rabs_le_iff; lra).
  pose proof (latitude_south t T') as S. assert (T2 : Rabs t <= 2.07) by (apply Rabs_le_iff in T'; apply Rabs_le_iff; lra).
  assert (S2 : earth_latitude t <= 0.000006).
  { pose proof (waves_num t earth_B0 538 ltac:(vm_compute; reflexivity) ltac:(vm_compute; reflexivity)) as B0. pose proof (waves_num t earth_B1 15 ltac:(vm_compute; reflexivity) ltac:(vm_compute; reflexivity)) as B1.
    unfold earth_latitude. pose proof (Rmult_le_compat _ _ _ _ (Rabs_pos _) (Rabs_pos _) T2 B1) as M. rewrite <- Rabs_mult in M. apply Rabs_le_iff in M. apply Rabs_le_iff in B0. lra. }
  assert (I : 0.00006 <= in_deg (earth_latitude t) <= 0.0004).
  { unfold in_deg. pose proof PI_bounds as P. assert (57.29 <= 180 / PI <= 57.3).
    { split; apply (Rmult_le_reg_r PI); try lra; unfold Rdiv; rewrite Rmult_assoc, Rinv_l by lra; lra. }
    set (w := 180 / PI) in *. set (y := earth_latitude t) in *. split; nra. }
  apply Rabs_le_iff in K. assert (K1 : (1 <= k)%Z).
  { destruct (Z_lt_le_dec k 1) as [C|C]; [|exact C]. assert (IZR k <= 0) by (apply IZR_le; lia). lra. }
  apply IZR_le in K1. lra.
Qed.
Print Assumptions C101_apparent_latitude_refuted.

(** The hypotheses hold for the floats of the code, a real library and the plain sum, at any moment of these four thousand years. *)
Example C101_case : Nearest b64 /\ accurate real_libm /\ sum_ok (plain_sum b64) /\ Rabs (Q2R (245155836 # 100) - 2451545) <= 756000 /\ Rabs (Q2R (646515 # 100000000)) <= 2.07.
Proof.
  split; [exact b64_nearest|]. split; [exact real_libm_accurate|]. split; [apply plain_sum_ok, b64_nearest|]. split; rewrite Q2R_lit; apply Rabs_le_iff; lra.
Qed.
