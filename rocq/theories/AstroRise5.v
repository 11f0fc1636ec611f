(** AstroRise5.v -- the fraction of the day at sunrise and at sunset (proof support). *)
From Coq Require Import ZArith QArith Qround Qabs Qreals Lqa Reals Lra Lia List Bool.
From Verif Require Import Base Flt QUtil BaseModel BaseProofs AstroModel SpecAstro AstroReal AstroReal2 AstroFlt AstroApx AstroSun AstroNut AstroRA AstroMove AstroStep AstroDt AstroRise AstroRise2 AstroRise3 AstroRise4.
Import ListNotations.
Local Open Scope R_scope.

Section Rise.
Variable rnd : Q -> Q.
Hypothesis N : Nearest rnd.
Variable lm : libm.
Hypothesis A : accurate lm.
Notation ra := (sun_apparent_right_ascension rnd lm).
Notation dec := (sun_apparent_declination rnd lm).
Notation day := (AstroRise2.day rnd).

Lemma centuries_R jd : 1700000 <= Q2R jd <= 2900000 -> let tc := julian_centuries rnd jd in
  Rabs (Q2R tc * 36525 - (Q2R jd - 2451545)) <= 0.0000001 /\ Rabs (Q2R tc) <= 20.58.
Proof.
  intros H tc. assert (HA : Rabs (Q2R jd) <= 2900000) by (apply Rabs_le_iff; lra).
  assert (J : apx J2000 (2451545 / 1) 2451545 0) by (apply (apx_const 2451545 1); rewrite Rabs_right; lra).
  destruct (apx_divc rnd N _ _ _ _ 36525 (apx_sub rnd N _ _ _ _ _ _ _ _ (apx_exact _ _ HA) J)) as [E _].
  change (Z.pos 36525 # 1) with 36525%Q in E. change (fdiv rnd (fsub rnd jd J2000) 36525) with tc in E.
  assert (E' : Rabs (Q2R tc - (Q2R jd - 2451545 / 1) / 36525) <= 0.000000000001) by (eapply Rle_trans; [exact E|unfold u; lra]).
  apply Rabs_le_iff in E'. split; apply Rabs_le_iff; lra.
Qed.

Lemma nd_true r0 r1 : 0 <= Q2R r0 <= 360.0001 -> 0 <= Q2R r1 <= 360.0001 -> exists k : Z, Rabs (Q2R (nd rnd true r0 r1) - (Q2R r1 - Q2R r0 + 360 * IZR k)) <= 0.0000000001.
Proof.
  intros H0 H1. unfold nd. cbv zeta. assert (F : Rabs (Q2R (fsub rnd r1 r0) - (Q2R r1 - Q2R r0)) <= 361 * u) by (apply fsub_R; [exact N|]; apply Rabs_le_iff; lra).
  apply Rabs_le_iff in F. unfold u in F. set (x := fsub rnd r1 r0) in *. destruct (Qltb x 0).
  - assert (G : Rabs (Q2R (fadd rnd x 360) - (Q2R x + Q2R 360)) <= 800 * u) by (apply fadd_R; [exact N|]; rewrite Q2R_lit; apply Rabs_le_iff; lra).
    rewrite Q2R_lit in G. unfold u in G. apply Rabs_le_iff in G. exists 1%Z. apply Rabs_le_iff. lra.
  - assert (G : Rabs (Q2R (fadd rnd x 0) - (Q2R x + Q2R 0)) <= 800 * u) by (apply fadd_R; [exact N|]; rewrite Q2R_lit; apply Rabs_le_iff; lra).
    rewrite Q2R_lit in G. unfold u in G. apply Rabs_le_iff in G. exists 0%Z. apply Rabs_le_iff. lra.
Qed.
Lemma between_near y a b a' b' n e : Rabs (a' - a) <= e -> Rabs (b' - b) <= e -> 0 <= n <= 1 -> Rabs (between3 y a' b' n - between3 y a b n) <= 2 * e.
Proof.
  intros H1 H2 Hn. unfold between3. replace (y + n / 2 * (a' + b' + n * (b' - a')) - (y + n / 2 * (a + b + n * (b - a)))) with ((n * (1 - n) / 2) * (a' - a) + (n * (1 + n) / 2) * (b' - b)) by lra.
  assert (N1 : 0 <= n * (1 - n) <= 1 * 1) by (split; [apply Rmult_le_pos; lra|apply Rmult_le_compat; lra]).
  assert (N2 : 0 <= n * (1 + n) <= 1 * 2) by (split; [apply Rmult_le_pos; lra|apply Rmult_le_compat; lra]).
  eapply Rle_trans; [apply Rabs_triang|]. rewrite !Rabs_mult. rewrite (Rabs_right (n * (1 - n) / 2)), (Rabs_right (n * (1 + n) / 2)) by lra.
  pose proof (Rabs_pos (a' - a)). pose proof (Rabs_pos (b' - b)).
  assert ((n * (1 - n) / 2) * Rabs (a' - a) <= (1/2) * e) by (apply Rmult_le_compat; lra). assert ((n * (1 + n) / 2) * Rabs (b' - b) <= 1 * e) by (apply Rmult_le_compat; lra). lra.
Qed.
Lemma sine_of_altitude_FF p d h : sine_of_altitude p d h = FF p d h.
Proof. reflexivity. Qed.

Lemma rising_R (set : bool) jd lat lon (H : Z) : (1700002 <= H <= 2899999)%Z -> Rabs (Q2R lat) <= 52 -> Rabs (Q2R lon) <= 180 ->
  Rabs (Q2R jd - (IZR H - 1 / 2 - Q2R lon / 360)) <= 0.0000001 ->
  exists v, rising_setting rnd lm set jd lat lon (SUN_OFFSET rnd) = Ok v /\ (if set then 0.637 <= Q2R v <= 0.873 else 0.127 <= Q2R v <= 0.363) /\
    (Rabs (Q2R lat) <= 45 -> if set then 0.6594 <= Q2R v <= 0.8484 else 0.1516 <= Q2R v <= 0.3406) /\
    on_horizon rnd lm (julian_centuries rnd jd) lat lon v.
Proof.
  intros [H1 H2] HLa HLo HJ. apply IZR_le in H1. apply IZR_le in H2. pose proof HLo as HLo'. apply Rabs_le_iff in HLo'. pose proof HJ as HJ'. apply Rabs_le_iff in HJ'.
  assert (J : 1700000 <= Q2R jd <= 2900000) by lra.
  destruct (centuries_R jd J) as [T1 T2]. unfold rising_setting. cbv zeta. set (tc := julian_centuries rnd jd) in *.
  assert (DTq : (Qabs (delta_t rnd jd false) <= 35 # 100)%Q).
  { apply delta_t_le; [exact N|]. split; apply Rle_Qle; rewrite Q2R_lit; lra. }
  set (dt := delta_t rnd jd false) in *. assert (DT : Rabs (Q2R dt) <= 0.35). { apply Qle_Rle in DTq. rewrite Q2R_abs in DTq. eapply Rle_trans; [exact DTq|]. unfold Q2R. cbn. lra. }
  set (td := fadd rnd (fdiv rnd dt 36525) tc).
  assert (TD : Rabs (Q2R td - Q2R tc) <= 0.35001 / 36525).
  { destruct (apx_add rnd N _ _ _ _ _ _ _ _ (apx_divc rnd N _ _ _ _ 36525 (apx_exact _ _ DT)) (apx_exact _ _ T2)) as [E _].
    change (Z.pos 36525 # 1) with 36525%Q in E. fold td in E. apply Rabs_le_iff in E. unfold u in E. apply Rabs_le_iff in DT. apply Rabs_le_iff. lra. }
  assert (TA : Rabs (Q2R tc) <= 20.6) by lra.
  assert (Tc : (Qabs tc <= TX)%Q) by (apply TXr'; lra). 
  assert (Td : (Qabs td <= TX)%Q). { apply TXr'. apply Rabs_le_iff in TD. apply Rabs_le_iff in T2. apply Rabs_le_iff. lra. }
  destruct (transit_guess rnd N lm A jd tc td lon H Tc Td TD HJ T1 HLo) as [M0 [k K]].
  destruct (sidereal_R rnd N lm A tc Tc) as [_ [_ AST]]. set (ast := apparent_sidereal_time_greenwich rnd lm tc) in *.
  set (m0 := fmod1 rnd (fdiv rnd (fsub rnd (fsub rnd (ra td) lon) ast) 360)) in *.
  destruct (time_shift rnd N lm A tc td Tc Td TD) as [be [k' [B1 B2]]].
  pose proof (day_R rnd N) as DY. pose proof DY as DY'. apply Rabs_le_iff in DY'.
  destruct (shift_R rnd N tc day TA ltac:(apply Rabs_le_iff; lra)) as [SA SS]. apply Rabs_le_iff in SA. apply Rabs_le_iff in SS.
  pose proof T2 as T2'. apply Rabs_le_iff in T2'.
  assert (Ta : (Qabs (fadd rnd tc day) <= TX)%Q) by (apply TXr', Rabs_le_iff; lra).
  assert (Ts : (Qabs (fsub rnd tc day) <= TX)%Q) by (apply TXr', Rabs_le_iff; lra).
  destruct (one_day rnd N lm A (fsub rnd tc day) tc Ts Tc ltac:(apply Rabs_le_iff; lra)) as [x [kx [e0 [e1 [X1 [X2 [R0 [R1 [E0 [E1 [D0 [D1 D01]]]]]]]]]]]].
  destruct (one_day rnd N lm A tc (fadd rnd tc day) Tc Ta ltac:(apply Rabs_le_iff; lra)) as [y [ky [e1' [e2 [Y1 [Y2 [_ [R2 [E1' [E2 [_ [D2 D12]]]]]]]]]]]].
  rewrite E1 in E1'. injection E1' as <-.
  destruct (first_hour_angle rnd N lm A tc lat e1 HLa E1 D1) as [h0 [HE [HH1 [HH2 [HH45 HF]]]]]. rewrite HE. cbn [bind].
  pose proof (norm_diff rnd N _ _ x kx R0 R1 ltac:(lra) X2) as NA. pose proof (norm_diff rnd N _ _ y ky R1 R2 ltac:(lra) Y2) as NB. cbv zeta in NA, NB.
  change (Rabs (Q2R (nd rnd true (ra (fsub rnd tc day)) (ra tc)) - x) <= 0.0011) in NA. change (Rabs (Q2R (nd rnd true (ra tc) (ra (fadd rnd tc day))) - y) <= 0.0011) in NB.
  apply Rabs_le_iff in NA. apply Rabs_le_iff in NB. apply Rabs_le_iff in D01. apply Rabs_le_iff in D12.
  assert (F1 : Rabs (Q2R (nd rnd false e0 e1) - (Q2R e1 - Q2R e0)) <= 1 * u) by (apply fsub_R; [exact N|apply Rabs_le_iff; lra]).
  assert (F2 : Rabs (Q2R (nd rnd false e1 e2) - (Q2R e2 - Q2R e1)) <= 1 * u) by (apply fsub_R; [exact N|apply Rabs_le_iff; lra]).
  unfold u in F1, F2. apply Rabs_le_iff in F1. apply Rabs_le_iff in F2.
  assert (HAB : 0.8277 <= Q2R (nd rnd true (ra (fsub rnd tc day)) (ra tc)) <= 1.143 /\ 0.8277 <= Q2R (nd rnd true (ra tc) (ra (fadd rnd tc day))) <= 1.143) by lra.
  assert (HD : Rabs (Q2R (nd rnd false e0 e1)) <= 0.468 /\ Rabs (Q2R (nd rnd false e1 e2)) <= 0.468 /\ Rabs (Q2R e1) <= 23.75).
  { split; [apply Rabs_le_iff; lra|]. split; [apply Rabs_le_iff; lra|exact D1]. }
  assert (HK : Rabs (Q2R ast + Q2R lon - (Q2R (ra tc) + be - 360 * Q2R m0 + 360 * IZR (k + k'))) <= 0.0000002).
  { rewrite plus_IZR. apply Rabs_le_iff in K. apply Rabs_le_iff. lra. }
  set (sg := if set then 1 else -1). assert (HS : sg = 1 \/ sg = -1) by (unfold sg; destruct set; auto).
  pose proof HLa as HP. apply Rabs_le_iff in HP. pose proof M0 as M0'. apply Rabs_le_iff in M0'.
  assert (M0a : Rabs (Q2R m0) <= 1) by (apply Rabs_le_iff; lra). assert (H0a : Rabs (Q2R h0) <= 127) by (apply Rabs_le_iff; lra).
  set (m := if set then fadd rnd m0 (fdiv rnd h0 360) else fsub rnd m0 (fdiv rnd h0 360)).
  assert (MM : Rabs (Q2R m - m1 (Q2R m0) sg (Q2R h0)) <= 0.000001).
  { pose proof (apx_divc rnd N _ _ _ _ 360 (apx_exact _ _ H0a)) as Z. change (Z.pos 360 # 1) with 360%Q in Z. unfold m, m1, sg. destruct set.
    - destruct (apx_add rnd N _ _ _ _ _ _ _ _ (apx_exact _ _ M0a) Z) as [E _]. unfold u in E. apply Rabs_le_iff in E. apply Rabs_le_iff. lra.
    - destruct (apx_sub rnd N _ _ _ _ _ _ _ _ (apx_exact _ _ M0a) Z) as [E _]. unfold u in E. apply Rabs_le_iff in E. apply Rabs_le_iff. lra. }
  pose proof (m1_range (Q2R m0) sg (Q2R h0) M0 HS (conj HH1 HH2)) as MR.
  assert (AM : Rabs (Q2R m) <= 1) by (apply Rabs_le_iff in MM; apply Rabs_le_iff; lra).
  destruct (loop rnd N lm A tc ast dt lat lon e0 e1 e2 (Q2R m0) be sg (Q2R h0) (k + k') E0 E1 E2 HP HAB HD M0 B1 HS (conj HH1 HH2) R1 AST HLo DT HK m
              (conj MM (nn_R rnd N dt DT m AM)) HF) as [m' [LE [[L1 LN] LF]]].
  rewrite LE. cbn [bind]. eexists. split; [reflexivity|].
  apply Rabs_le_iff in L1. unfold m1 in L1, MR.
  assert (V : Q2R (fmod1 rnd m') = Q2R m').
  { rewrite fmod1_id by lra. rewrite Q2R_minus, Q2R_Z. lra. }
  unfold on_horizon. fold day. rewrite V. split; [unfold sg in L1; destruct set; lra|]. split; [intro L45; specialize (HH45 L45); unfold sg in L1; destruct set; lra|].
  destruct (nd_true _ _ R0 R1) as [k0 K0]. destruct (nd_true _ _ R1 R2) as [k1 K1].
  set (a := Q2R (nd rnd true (ra (fsub rnd tc day)) (ra tc))) in *. set (b := Q2R (nd rnd true (ra tc) (ra (fadd rnd tc day)))) in *.
  set (a' := Q2R (ra tc) - Q2R (ra (fsub rnd tc day)) + 360 * IZR k0) in *. set (b' := Q2R (ra (fadd rnd tc day)) - Q2R (ra tc) + 360 * IZR k1) in *.
  set (n := Q2R (nn rnd dt m')) in *.
  assert (NR : 0 <= n <= 1). { apply Rabs_le_iff in LN. lra. }
  exists e0, e1, e2, a', b', n, k0, k1. apply Rabs_le_iff in K0. apply Rabs_le_iff in K1.
  split; [exact E0|]. split; [exact E1|]. split; [exact E2|]. split; [reflexivity|]. split; [lra|]. split; [reflexivity|]. split; [lra|]. split; [exact LN|].
  rewrite sine_of_altitude_FF.
  set (da := Q2R (nd rnd false e0 e1)) in *. set (db := Q2R (nd rnd false e1 e2)) in *.
  assert (Z1 : Rabs (between3 (Q2R e1) (Q2R e1 - Q2R e0) (Q2R e2 - Q2R e1) n - de da db (Q2R e1) n) <= 2 * 0.0000000001).
  { change (de da db (Q2R e1) n) with (between3 (Q2R e1) da db n). apply between_near; [apply Rabs_le_iff; lra|apply Rabs_le_iff; lra|exact NR]. }
  assert (Z2 : Rabs (between3 (Q2R (ra tc)) a' b' n - (Q2R (ra tc) + al a b n)) <= 2 * 0.0000000001).
  { change (Q2R (ra tc) + al a b n) with (between3 (Q2R (ra tc)) a b n). apply between_near; [apply Rabs_le_iff; lra|apply Rabs_le_iff; lra|exact NR]. }
  set (X := hh a b (Q2R m0) be (Q2R m') n) in *. assert (XE : X = 360 * (Q2R m' - Q2R m0) + 0.98564736629 * Q2R m' + be - al a b n) by reflexivity.
  set (Y := Q2R ast + 360.98564736629 * Q2R m' + Q2R lon - between3 (Q2R (ra tc)) a' b' n).
  apply Rabs_le_iff in Z2. apply Rabs_le_iff in HK.
  assert (YX : Rabs (Y - (X + 360 * IZR (k + k'))) <= 0.000001) by (unfold Y; apply Rabs_le_iff; lra).
  pose proof (FF_near (Q2R lat) _ _ _ _ ltac:(eapply Rle_trans; [exact Z1|lra]) YX) as FN. rewrite FF_turn in FN.
  change (dsin 0.8333) with (sin (rad OO)). apply Rabs_le_iff in FN. apply Rabs_le_iff in LF. apply Rabs_le_iff. fold ast. fold Y. lra.
Qed.
End Rise.
