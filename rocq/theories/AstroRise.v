(** AstroRise.v -- the parts of _rising_setting against their values in the reals (proof support). *)
From Coq Require Import ZArith QArith Qround Qabs Qreals Lqa Reals Lra Lia List Bool.
From Verif Require Import Base Flt QUtil BaseModel BaseProofs AstroModel SpecAstro AstroReal AstroReal2 AstroFlt AstroApx AstroSun AstroNut AstroRA AstroMove AstroStep AstroDt.
Import ListNotations.
Local Open Scope R_scope.

Section Rise.
Variable rnd : Q -> Q.
Hypothesis N : Nearest rnd.
Variable lm : libm.
Hypothesis A : accurate lm.

Ltac apxs := repeat first
  [ eassumption
  | match goal with
    | |- apx (lit _ _ _) _ _ _ => apply (apx_litc rnd _ _ N)
    | |- apx (fadd _ _ _) _ _ _ => eapply (apx_add rnd N)
    | |- apx (fsub _ _ _) _ _ _ => eapply (apx_sub rnd N)
    | |- apx (fmul _ _ _) _ _ _ => eapply (apx_mul rnd N)
    | |- apx (fdiv _ _ _) _ _ _ => eapply (apx_divc rnd N)
    | |- apx (sq _ _) _ _ _ => eapply (apx_sq rnd N)
    | |- apx (sin_deg _ _ _) _ _ _ => eapply (apx_sin rnd N lm A)
    | |- apx (cos_deg _ _ _) _ _ _ => eapply (apx_cos rnd N lm A)
    end ].
Ltac nums := cbn [Z.abs]; unfold u; lra.

Lemma fmod1_R x : exists k : Z, Rabs (Q2R (fmod1 rnd x) - (Q2R x + IZR k)) <= 1 / 100000000000000 /\ 0 <= Q2R (fmod1 rnd x) <= 1.00001.
Proof.
  unfold fmod1. set (z := Qtrunc x). cbv zeta.
  assert (T : (- (1) < x - inject_Z z < 1)%Q).
  { unfold z, Qtrunc. destruct (Qleb 0 x) eqn:G.
    - apply Qleb_le in G. pose proof (Qfloor_le x) as P. pose proof (Qlt_floor x) as B. rewrite inject_Z_plus in B. change (inject_Z 1) with 1%Q in B. split; Lqa.lra.
    - assert (G' : (x < 0)%Q) by (apply Qnot_le_lt; intro C; apply Qleb_le in C; congruence).
      pose proof (Qle_ceiling x) as P. pose proof (Qceiling_lt x) as B. rewrite inject_Z_sub in B. change (inject_Z 1) with 1%Q in B. split; Lqa.lra. }
  assert (E : Q2R (x - inject_Z z) = Q2R x - IZR z) by (rewrite Q2R_minus, Q2R_Z; reflexivity).
  destruct T as [T1 T2]. apply Qlt_Rlt in T1. apply Qlt_Rlt in T2. rewrite E in T1, T2. rewrite Q2R_opp in T1. rewrite Q2R_lit in T1, T2.
  destruct (Qltb (x - inject_Z z) 0) eqn:G.
  - apply Qltb_lt in G. apply Qlt_Rlt in G. rewrite E, RMicromega.Q2R_0 in G. exists (1 - z)%Z. rewrite minus_IZR.
    assert (F := fadd_R rnd N (x - inject_Z z) 1 1). rewrite E, Q2R_lit in F. unfold fadd in F.
    assert (F1 : Rabs (Q2R x - IZR z + 1 / 1) <= 1) by (apply Rabs_le_iff; lra). specialize (F F1). apply Rabs_le_iff in F. unfold u in F.
    split; [apply Rabs_le_iff; lra|]. split; [|lra].
    assert (P : (0 <= rnd (x - inject_Z z + 1))%Q).
    { apply near_nonneg; [exact N|]. apply Rle_Qle. rewrite Q2R_plus, E, !Q2R_lit. lra. }
    apply Qle_Rle in P. rewrite RMicromega.Q2R_0 in P. exact P.
  - apply Qltb_ge in G. apply Qle_Rle in G. rewrite E, RMicromega.Q2R_0 in G. exists (- z)%Z. rewrite opp_IZR, E. split; [apply Rabs_le_iff; lra|lra].
Qed.
Lemma fmod1_id x : 0 <= Q2R x < 1 -> fmod1 rnd x = (x - inject_Z 0)%Q.
Proof.
  intros [H1 H2]. assert (X1 : (0 <= x)%Q) by (apply Rle_Qle; rewrite RMicromega.Q2R_0; exact H1).
  assert (X2 : (x < 1)%Q) by (apply Rlt_Qlt; rewrite Q2R_lit; lra).
  assert (Z : Qtrunc x = 0%Z).
  { unfold Qtrunc. assert (B : Qleb 0 x = true) by (apply Qleb_le, X1). rewrite B. 
    pose proof (Qfloor_le x) as P. pose proof (Qlt_floor x) as Q. 
    assert (L1 : (Qfloor x < 1)%Z) by (rewrite Zlt_Qlt; change (inject_Z 1) with 1%Q; Lqa.lra).
    assert (L2 : (-1 < Qfloor x)%Z) by (rewrite Zlt_Qlt; rewrite inject_Z_plus in Q; change (inject_Z 1) with 1%Q in Q; change (inject_Z (-1)) with (-1)%Q; Lqa.lra). lia. }
  unfold fmod1. rewrite Z. cbv zeta. assert (G : Qltb (x - inject_Z 0) 0 = false) by (apply Qltb_ge; change (inject_Z 0) with 0%Q; Lqa.lra). rewrite G. reflexivity.
Qed.

(** the daily motion in right ascension, brought back into [0, 360) *)
Lemma norm_diff r0 r1 x k : 0 <= Q2R r0 <= 360.0001 -> 0 <= Q2R r1 <= 360.0001 -> 0.5 <= x <= 1.5 ->
  Rabs (Q2R r1 - Q2R r0 - (x + 360 * IZR k)) <= 0.001 ->
  let a := fsub rnd r1 r0 in Rabs (Q2R (fadd rnd a (if Qltb a 0 then 360 else 0)) - x) <= 0.0011.
Proof.
  intros H0 H1 HX HK a. apply Rabs_le_iff in HK.
  assert (F : Rabs (Q2R a - (Q2R r1 - Q2R r0)) <= 361 * u) by (apply fsub_R; [exact N|]; apply Rabs_le_iff; lra).
  apply Rabs_le_iff in F. unfold u in F.
  assert (K : (k = 0 \/ k = -1)%Z).
  { assert (K1 : IZR k < 1) by lra. assert (K2 : -2 < IZR k) by lra. apply lt_IZR in K1. apply lt_IZR in K2. lia. }
  destruct (Qltb a 0) eqn:G.
  - apply Qltb_lt in G. apply Qlt_Rlt in G. rewrite RMicromega.Q2R_0 in G. destruct K as [->| ->]; [lra|].
    assert (F2 : Rabs (Q2R (fadd rnd a 360) - (Q2R a + Q2R 360)) <= 361 * u) by (apply fadd_R; [exact N|]; rewrite Q2R_lit; apply Rabs_le_iff; lra).
    rewrite Q2R_lit in F2. apply Rabs_le_iff in F2. unfold u in F2. apply Rabs_le_iff. lra.
  - apply Qltb_ge in G. apply Qle_Rle in G. rewrite RMicromega.Q2R_0 in G. destruct K as [->| ->]; [|lra].
    assert (F2 : Rabs (Q2R (fadd rnd a 0) - (Q2R a + Q2R 0)) <= 361 * u) by (apply fadd_R; [exact N|]; rewrite RMicromega.Q2R_0; apply Rabs_le_iff; lra).
    rewrite RMicromega.Q2R_0 in F2. apply Rabs_le_iff in F2. unfold u in F2. apply Rabs_le_iff. lra.
Qed.

(** sidereal time *)
Definition Th (t : R) : R := 280.46061837 + 360.98564736629 * (t * 36525) + 0.000387933 * (t * t) - t * t * t / 38710000.
Lemma sidereal_R t : (Qabs t <= TX)%Q -> exists k : Z,
  Rabs (Q2R (apparent_sidereal_time_greenwich rnd lm t) - (Th (Q2R t) + 360 * IZR k)) <= 0.0061 /\
  0 <= Q2R (apparent_sidereal_time_greenwich rnd lm t) <= 360.0001.
Proof.
  intro H. pose proof (t_R t H) as T. unfold apparent_sidereal_time_greenwich. cbv zeta.
  assert (C3 : apx (cube rnd t) (Q2R t * Q2R t * Q2R t) 8900 (1 / 100000000)).
  { unfold cube. eapply apx_weaken; [apply (apx_rnd rnd N), apx_qmul; [apply apx_qmul; exact T|exact T]| |]; unfold u; lra. }
  assert (K0 : apx 36525 (36525 / 1) 36525 0) by (apply (apx_const 36525 1); rewrite Rabs_right; lra).
  assert (M : exists k : Z, apx (mean_sidereal_time_greenwich rnd t) (Th (Q2R t) + 360 * IZR k) 362 (1 / 100000)).
  { unfold mean_sidereal_time_greenwich.
    assert (Y1 : apx (fmul rnd t 36525) (Q2R t * (36525 / 1)) 760000 (1 / 1000000000)) by (eapply apx_weaken; [apxs|nums|nums]).
    assert (Y2 : apx (fmul rnd (lit rnd 36098564736629 100000000000) (fmul rnd t 36525)) (36098564736629 / 100000000000 * (Q2R t * (36525 / 1))) 275000000 (1 / 1000000))
      by (eapply apx_weaken; [apxs|nums|nums]).
    assert (Y3 : apx (fadd rnd (lit rnd 28046061837 100000000) (fmul rnd (lit rnd 36098564736629 100000000000) (fmul rnd t 36525))) (28046061837 / 100000000 + 36098564736629 / 100000000000 * (Q2R t * (36525 / 1))) 276000000 (2 / 1000000))
      by (eapply apx_weaken; [apxs|nums|nums]).
    assert (Y4 : apx (fmul rnd (lit rnd 387933 1000000000) (sq rnd t)) (387933 / 1000000000 * (Q2R t * Q2R t)) 1 (1 / 1000000))
      by (eapply apx_weaken; [apxs|nums|nums]).
    match goal with |- context [coterminal_angle rnd ?y] => assert (Y : apx y (Th (Q2R t)) 280000000 (9 / 1000000)) end.
    { eapply apx_eq; [eapply apx_weaken; [apxs|nums|nums]|]. unfold Th. lra. }
    destruct (apx_cot rnd N _ _ _ _ Y) as [k [B _]]. exists k. eapply apx_weaken; [exact B| |]; lra. }
  destruct M as [k M]. destruct (nutation_le rnd N lm A t H) as [L _]. apply Qabs_R in L. rewrite Q2R_lit in L.
  pose proof (cos_deg_1 rnd lm A (true_obliquity_of_ecliptic rnd lm t)) as C. apply Qabs_R in C. rewrite Q2R_lit in C.
  assert (P : apx (fmul rnd (nutation_longitude rnd lm t) (cos_deg rnd lm (true_obliquity_of_ecliptic rnd lm t))) 0 0 0.006001).
  { split; [|rewrite Rabs_R0; lra]. rewrite Rminus_0_r.
    assert (B : Rabs (Q2R (nutation_longitude rnd lm t) * Q2R (cos_deg rnd lm (true_obliquity_of_ecliptic rnd lm t))) <= 0.0060001).
    { rewrite Rabs_mult. eapply Rle_trans; [apply Rmult_le_compat; [apply Rabs_pos|apply Rabs_pos|exact L|exact C]|lra]. }
    pose proof (fmul_R rnd N _ _ _ B) as F. unfold u in F. apply Rabs_le_iff in F. apply Rabs_le_iff in B. apply Rabs_le_iff. lra. }
  pose proof (apx_add rnd N _ _ _ _ _ _ _ _ M P) as S. destruct (apx_cot rnd N _ _ _ _ S) as [k2 [[B _] R]]. exists (k + k2)%Z. split; [|exact R].
  rewrite plus_IZR. unfold u in B. apply Rabs_le_iff in B. apply Rabs_le_iff. lra.
Qed.
End Rise.
