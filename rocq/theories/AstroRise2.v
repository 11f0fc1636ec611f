(** AstroRise2.v -- the sun on the three days the code looks at, and the first guess (proof support). *)
From Coq Require Import ZArith QArith Qround Qabs Qreals Lqa Reals Lra Lia List Bool.
From Verif Require Import Base Flt QUtil BaseModel BaseProofs AstroModel SpecAstro AstroReal AstroReal2 AstroFlt AstroApx AstroSun AstroNut AstroRA AstroMove AstroStep AstroDt AstroRise.
Import ListNotations.
Local Open Scope R_scope.

Section Rise.
Variable rnd : Q -> Q.
Hypothesis N : Nearest rnd.
Variable lm : libm.
Hypothesis A : accurate lm.
Notation ra := (sun_apparent_right_ascension rnd lm).
Notation dec := (sun_apparent_declination rnd lm).
Notation eps t := (Q2R (sun_eps rnd lm t)).

Lemma TXr' t : Rabs (Q2R t) <= 20.7 -> (Qabs t <= TX)%Q.
Proof. intro H. apply R_Qabs. unfold TX. rewrite Q2R_lit. lra. Qed.
Definition day : Q := fdiv rnd 1 36525.
Lemma day_R : Rabs (Q2R day - 1 / 36525) <= 1 / 1000000000000000.
Proof.
  assert (C : apx 1 (1 / 1) 1 0) by (apply (apx_const 1 1); rewrite Rabs_right; lra).
  destruct (apx_divc rnd N 1 _ _ _ 36525 C) as [E _]. unfold day. unfold u in E. apply Rabs_le_iff in E. apply Rabs_le_iff. lra.
Qed.
Lemma shift_R t s : Rabs (Q2R t) <= 20.6 -> Rabs (Q2R s) <= 0.0001 ->
  Rabs (Q2R (fadd rnd t s) - Q2R t - Q2R s) <= 1 / 1000000000000 /\ Rabs (Q2R (fsub rnd t s) - Q2R t + Q2R s) <= 1 / 1000000000000.
Proof.
  intros H S. apply Rabs_le_iff in H. apply Rabs_le_iff in S.
  assert (F : Rabs (Q2R (fadd rnd t s) - (Q2R t + Q2R s)) <= 21 * u) by (apply fadd_R; [exact N|]; apply Rabs_le_iff; lra).
  assert (G : Rabs (Q2R (fsub rnd t s) - (Q2R t - Q2R s)) <= 21 * u) by (apply fsub_R; [exact N|]; apply Rabs_le_iff; lra).
  unfold u in *. apply Rabs_le_iff in F. apply Rabs_le_iff in G. split; apply Rabs_le_iff; lra.
Qed.

(** two moments one day apart *)
Lemma one_day t t' : (Qabs t <= TX)%Q -> (Qabs t' <= TX)%Q -> Rabs (Q2R t' - Q2R t - 1 / 36525) <= 1 / 10000000000 ->
  exists x k d d', 0.8289 <= x <= 1.1418 /\ Rabs (Q2R (ra t') - Q2R (ra t) - (x + 360 * IZR k)) <= 0.001 /\
    0 <= Q2R (ra t) <= 360.0001 /\ 0 <= Q2R (ra t') <= 360.0001 /\
    dec t = Ok d /\ dec t' = Ok d' /\ Rabs (Q2R d) <= 23.75 /\ Rabs (Q2R d') <= 23.75 /\ Rabs (Q2R d' - Q2R d) <= 0.467.
Proof.
  intros H H' D. destruct (ra_R rnd N lm A t H) as [l [S [[k [K1 K2]] [d [D1 [D2 D3]]]]]].
  destruct (ra_R rnd N lm A t' H') as [l' [S' [[k' [K1' K2']] [d' [D1' [D2' D3']]]]]].
  pose proof (ra_move rnd N lm A t t' l l' H H' S S') as M.
  apply Rabs_le_iff in D. assert (DA : Rabs (Q2R t' - Q2R t) <= 1 / 36525 + 1 / 1000000000) by (apply Rabs_le_iff; lra).
  exists (RAd (eps t') l' - RAd (eps t) l), (k' - k)%Z, d, d'. split.
  { assert (M' : Rabs (RAd (eps t') l' - RAd (eps t) l - 36000.77 * (Q2R t' - Q2R t)) <= 0.15592) by lra.
    apply Rabs_le_iff in M'. lra. }
  split.
  { rewrite minus_IZR. apply Rabs_le_iff in K1. apply Rabs_le_iff in K1'. apply Rabs_le_iff. lra. }
  repeat (split; [assumption|]). exact (decl_move rnd N lm A t t' l l' (Q2R d) (Q2R d') H H' S S' DA D2 D3 D2' D3').
Qed.
Lemma time_shift t t' : (Qabs t <= TX)%Q -> (Qabs t' <= TX)%Q -> Rabs (Q2R t' - Q2R t) <= 0.35001 / 36525 ->
  exists be k, Rabs be <= 0.413 /\ Q2R (ra t') - Q2R (ra t) = be + 360 * IZR k.
Proof.
  intros H H' D. destruct (ra_R rnd N lm A t H) as [l [S [[k [K1 _]] _]]].
  destruct (ra_R rnd N lm A t' H') as [l' [S' [[k' [K1' _]] _]]].
  pose proof (ra_move rnd N lm A t t' l l' H H' S S') as M.
  exists (Q2R (ra t') - Q2R (ra t) - 360 * IZR (k' - k)), (k' - k)%Z. split; [|ring]. rewrite minus_IZR.
  assert (M' : Rabs (RAd (eps t') l' - RAd (eps t) l - 36000.77 * (Q2R t' - Q2R t)) <= 0.0657) by (pose proof (Rabs_pos (Q2R t' - Q2R t)); lra).
  apply Rabs_le_iff in D. apply Rabs_le_iff in M'. apply Rabs_le_iff in K1. apply Rabs_le_iff in K1'. apply Rabs_le_iff. lra.
Qed.
Lemma ra_from_L t t' : (Qabs t <= TX)%Q -> (Qabs t' <= TX)%Q -> Rabs (Q2R t' - Q2R t) <= 0.35001 / 36525 ->
  exists k, Rabs (Q2R (ra t') - (Lr (Q2R t) + 360 * IZR k)) <= 5.053.
Proof.
  intros H H' D. destruct (ra_R rnd N lm A t' H') as [l' [S' [[k' [K1' _]] _]]]. exists k'.
  destruct (sun_eps_R rnd N lm A t' H') as [_ E]. pose proof (RAd_near (eps t') l' ltac:(lra)) as R.
  pose proof (Lr_move _ _ (TXr t H) (TXr t' H')) as L. pose proof (Cr_abs _ (TXr t' H')) as C. unfold sun_l in S'.
  assert (L' : Rabs (Lr (Q2R t') - Lr (Q2R t) - 36000.77 * (Q2R t' - Q2R t)) <= 0.000001) by lra.
  apply Rabs_le_iff in D. apply Rabs_le_iff in L'. apply Rabs_le_iff in C. apply Rabs_le_iff in S'. apply Rabs_le_iff in R. apply Rabs_le_iff in K1'. apply Rabs_le_iff. lra.
Qed.

(** the transit is near noon *)
Lemma transit_guess jd tc td lon (Hd : Z) : (Qabs tc <= TX)%Q -> (Qabs td <= TX)%Q -> Rabs (Q2R td - Q2R tc) <= 0.35001 / 36525 ->
  Rabs (Q2R jd - (IZR Hd - 1 / 2 - Q2R lon / 360)) <= 0.0000001 -> Rabs (Q2R tc * 36525 - (Q2R jd - 2451545)) <= 0.0000001 -> Rabs (Q2R lon) <= 180 ->
  let m0 := fmod1 rnd (fdiv rnd (fsub rnd (fsub rnd (ra td) lon) (apparent_sidereal_time_greenwich rnd lm tc)) 360) in
  Rabs (Q2R m0 - 0.5) <= 0.0145 /\ exists k : Z, Rabs (Q2R (apparent_sidereal_time_greenwich rnd lm tc) + Q2R lon - (Q2R (ra td) - 360 * Q2R m0 + 360 * IZR k)) <= 0.0000001.
Proof.
  intros H H' D HJ HT HL m0. destruct (ra_from_L tc td H H' D) as [k K]. destruct (sidereal_R rnd N lm A tc H) as [k2 [K2 R2]].
  destruct (ra_R rnd N lm A td H') as [_ [_ [[_ [_ R1]] _]]].
  set (al := ra td) in *. set (ast := apparent_sidereal_time_greenwich rnd lm tc) in *.
  apply Rabs_le_iff in HL.
  assert (X : apx (fdiv rnd (fsub rnd (fsub rnd al lon) ast) 360) ((Q2R al - Q2R lon - Q2R ast) / 360) 3 (1 / 100000000000)).
  { eapply apx_weaken; [apply (apx_divc rnd N), (apx_sub rnd N); [apply (apx_sub rnd N); apply apx_exact|apply apx_exact]| |].
    - instantiate (1 := 361). apply Rabs_le_iff. lra.
    - instantiate (1 := 180). apply Rabs_le_iff. lra.
    - instantiate (1 := 361). apply Rabs_le_iff. lra.
    - lra.
    - unfold u. lra. }
  destruct X as [X _]. destruct (fmod1_R rnd N (fdiv rnd (fsub rnd (fsub rnd al lon) ast) 360)) as [k3 [K3 R3]]. fold m0 in K3, R3.
  apply Rabs_le_iff in X. apply Rabs_le_iff in K3.
  assert (E : Rabs (Q2R m0 - ((Q2R al - Q2R lon - Q2R ast) / 360 + IZR k3)) <= 0.0000000001) by (apply Rabs_le_iff; lra).
  apply Rabs_le_iff in E.
  assert (S : exists z : Z, Rabs (Q2R al - Q2R lon - Q2R ast - (180 + 360 * IZR z)) <= 5.2).
  { exists (k - k2 - (Hd - 2451545))%Z. rewrite !minus_IZR.
    pose proof (TXr tc H) as T. set (t := Q2R tc) in *. apply Rabs_le_iff in T.
    assert (T2 : 0 <= t * t <= 428.5) by (split; nra). assert (T3 : -8870 <= t * t * t <= 8870) by (split; nra).
    unfold Lr, Th in *. apply Rabs_le_iff in K. apply Rabs_le_iff in K2. apply Rabs_le_iff in HJ. apply Rabs_le_iff in HT. apply Rabs_le_iff. lra. }
  destruct S as [z S]. apply Rabs_le_iff in S.
  assert (Z : (z + k3 = 0)%Z).
  { assert (Z1 : IZR (z + k3) < 1) by (rewrite plus_IZR; lra). assert (Z2 : -1 < IZR (z + k3)) by (rewrite plus_IZR; lra).
    apply lt_IZR in Z1. apply lt_IZR in Z2. lia. }
  split.
  - assert (ZR : IZR z + IZR k3 = 0) by (rewrite <- plus_IZR, Z; reflexivity). apply Rabs_le_iff. lra.
  - exists k3. apply Rabs_le_iff. lra.
Qed.
End Rise.
