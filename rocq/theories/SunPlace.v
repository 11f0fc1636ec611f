(** SunPlace.v -- the positions the code computes against those of SpecSun.v, and the sun at its sunset (proof support). *)
From Coq Require Import ZArith QArith Qround Qabs Qreals Lqa Reals Lra Lia List Bool.
From Verif Require Import Base Flt QUtil BaseModel BaseProofs AstroModel SpecAstro SpecSun AstroReal AstroReal2 AstroFlt AstroApx AstroSun AstroNut AstroRA AstroMove AstroStep AstroDt AstroRise AstroRise2 AstroRise3 AstroRise4 AstroRise5 AstroDay SunReal SunLine.
Import ListNotations.
Local Open Scope R_scope.

Lemma between3_deg c p a b n : between3 (deg p + c) (deg a) (deg b) n = deg (between3 p a b n) + c.
Proof. unfold between3, deg. field. pose proof PI_pos. lra. Qed.
Lemma DE_sin s l : 0 <= s <= 0.4026 -> sin (DE s l) = s * sin l.
Proof. intro H. pose proof (s_sin s l H) as B. apply Rabs_le_iff in B. apply sin_asin. lra. Qed.
Lemma DE_lip s a b : 0 <= s <= 0.4026 -> Rabs (DE s b - DE s a) <= 0.44 * Rabs (b - a).
Proof.
  intro H. apply (lip1 (DE s) (DE' s)); [intro; apply DE_derive, H|]. intro x. unfold DE'. pose proof (root_range s x H) as R. pose proof (cos_1 x) as C. pose proof (Rabs_pos (cos x)) as CP.
  unfold Rdiv. rewrite !Rabs_mult, (Rabs_right s), (Rabs_right (/ _)) by (try lra; apply Rle_ge; left; apply Rinv_0_lt_compat; lra).
  apply (Rmult_le_reg_r (sqrt (1 - s * sin x * (s * sin x)))); [lra|]. rewrite Rmult_assoc, Rinv_l, Rmult_1_r by lra.
  apply Rle_trans with (0.4026 * 1); [apply Rmult_le_compat; lra|lra].
Qed.

(** the direction of the sun, from its right ascension and declination *)
Lemma sun_direction lat e l th : 0 <= e <= 23.73 ->
  FF lat (deg (DE (sin (rad e)) (rad l))) (th - RAd e l) =
  cosd lat * cosd th * cosd l + cosd lat * sind th * (cosd e * sind l) + sind lat * (sind e * sind l).
Proof.
  intro H. destruct (obl_range e H) as [S C]. unfold FF, RAd. rewrite rad_minus, !rad_deg.
  change (cosd lat) with (cos (rad lat)). change (sind lat) with (sin (rad lat)). change (cosd th) with (cos (rad th)). change (sind th) with (sin (rad th)).
  change (cosd l) with (cos (rad l)). change (sind l) with (sin (rad l)). change (cosd e) with (cos (rad e)). change (sind e) with (sin (rad e)).
  pose proof (DE_sin (sin (rad e)) (rad l) ltac:(lra)) as D. destruct (RA_polar (cos (rad e)) (rad l) C) as [r [R0 [R1 R2]]].
  set (de := DE (sin (rad e)) (rad l)) in *. set (al := RA (cos (rad e)) (rad l)) in *.
  assert (CD : cos de = r).
  { assert (B : - (PI / 2) <= de <= PI / 2) by (unfold de, DE; apply asin_bound). assert (P : 0 <= cos de) by (apply cos_ge_0; lra).
    assert (Q : cos de * cos de = r * r).
    { rewrite cos_sq, D. pose proof (cos_sq al) as A. pose proof (cos_sq (rad l)) as Ll. pose proof (cos_sq (rad e)) as Ce.
      replace (r * r) with (r * cos al * (r * cos al) + r * sin al * (r * sin al)) by (replace (r * cos al * (r * cos al)) with (r * r * (cos al * cos al)) by ring; rewrite A; ring).
      rewrite <- R1, <- R2. replace (cos (rad e) * sin (rad l) * (cos (rad e) * sin (rad l))) with (cos (rad e) * cos (rad e) * (sin (rad l) * sin (rad l))) by ring. rewrite Ll, Ce. ring. }
    apply Rsqr_inj; [exact P|lra|exact Q]. }
  rewrite CD, D, cos_minus. 
  replace (cos (rad lat) * r * (cos (rad th) * cos al + sin (rad th) * sin al)) with (cos (rad lat) * cos (rad th) * (r * cos al) + cos (rad lat) * sin (rad th) * (r * sin al)) by ring.
  rewrite <- R1, <- R2. ring.
Qed.

Section Place.
Variable rnd : Q -> Q.
Hypothesis N : Nearest rnd.
Variable lm : libm.
Hypothesis A : accurate lm.
Notation ra := (sun_apparent_right_ascension rnd lm).
Notation dec := (sun_apparent_declination rnd lm).
Notation day := (AstroRise2.day rnd).

Lemma node t T0 x E : (Qabs t <= TX)%Q -> Rabs T0 <= 20.6 -> Rabs x <= 1 -> Rabs (Q2R t - (T0 + x / 36525)) <= 1 / 100000000000 ->
  0 <= E <= 23.73 -> Rabs (E - obliquity (Q2R t)) <= 0.000001 ->
  (exists k : Z, Rabs (Q2R (ra t) - (RAd E (sun_lon T0 + slope T0 * x) + 360 * IZR k)) <= 0.0102) /\
  (exists d, dec t = Ok d /\ Rabs (Q2R d - deg (DE (sin (rad E)) (rad (sun_lon T0 + slope T0 * x)))) <= 0.0095).
Proof.
  intros H HT HX D HE EO. destruct (ra_R rnd N lm A t H) as [l [S [[k [K1 _]] [d [D1 [E1 B1]]]]]].
  destruct (sun_eps_R rnd N lm A t H) as [SE SR]. pose proof (obliquity_near t H) as OB. set (e := Q2R (sun_eps rnd lm t)) in *.
  assert (EE : Rabs (e - E) <= 0.006072) by (apply Rabs_le_iff in SE; apply Rabs_le_iff in OB; apply Rabs_le_iff in EO; apply Rabs_le_iff; lra).
  assert (LL : Rabs (l - (sun_lon T0 + slope T0 * x)) <= 0.005485).
  { set (x' := (Q2R t - T0) * 36525). assert (ET : Q2R t = T0 + x' / 36525) by (unfold x'; field). apply Rabs_le_iff in D. apply Rabs_le_iff in HX.
    assert (XX : Rabs (x' - x) <= 0.0000004) by (apply Rabs_le_iff; unfold x'; lra). pose proof XX as XX'. apply Rabs_le_iff in XX'.
    pose proof (lon_line T0 x' HT ltac:(apply Rabs_le_iff; lra)) as LN. rewrite <- ET in LN. pose proof (slope_range T0 HT) as SL.
    unfold sun_l in S. rewrite <- sun_lon_eq in S.
    assert (SX : Rabs (slope T0 * (x' - x)) <= 1.0222 * 0.0000004) by (rewrite Rabs_mult, (Rabs_right (slope T0)) by lra; apply Rmult_le_compat; try lra; apply Rabs_pos).
    apply Rabs_le_iff in S. apply Rabs_le_iff in LN. apply Rabs_le_iff in SX. apply Rabs_le_iff. lra. }
  set (lam := sun_lon T0 + slope T0 * x) in *. split.
  - exists k. pose proof (RAd_move E e lam l HE ltac:(lra)) as M. pose proof (Rabs_pos (l - lam)). pose proof (Rabs_pos (e - E)).
    apply Rabs_le_iff in K1. apply Rabs_le_iff in M. apply Rabs_le_iff in LL. apply Rabs_le_iff. 
    assert (0.1011 * Rabs (l - lam) <= 0.1011 * 0.005485) by (apply Rmult_le_compat_l; [lra|apply Rabs_le_iff; lra]). lra.
  - exists d. split; [exact D1|]. destruct (obl_range e ltac:(lra)) as [O1 _]. destruct (obl_range E HE) as [O2 _].
    pose proof (sin_lip (rad E) (rad e)) as SEp. rewrite <- rad_minus in SEp. pose proof (rad_abs _ _ EE) as RE.
    pose proof (sin_lip (rad lam) (rad l)) as SLp. rewrite <- rad_minus in SLp. pose proof (rad_abs _ _ LL) as RL.
    assert (P : Rabs (sin (rad e) * sin (rad l) - sin (rad E) * sin (rad lam)) <= (0.4025 * (0.0174533 * 0.005485) + 1 * (0.0174533 * 0.006072)) * 1).
    { apply prod_lip; [rewrite Rabs_right; lra|apply sin_1|lra|lra]. }
    set (dd := DE (sin (rad E)) (rad lam)). pose proof (DE_sin (sin (rad E)) (rad lam) ltac:(lra)) as SD. fold dd in SD.
    assert (DB : - (PI / 2) <= dd <= PI / 2) by (unfold dd, DE; apply asin_bound).
    assert (DS : Rabs dd <= rad 23.745).
    { apply sin_small_angle; [exact DB|]. rewrite SD, Rabs_mult, (Rabs_right (sin (rad E))) by lra. pose proof (sin_1 (rad lam)). pose proof (Rabs_pos (sin (rad lam))). apply Rle_trans with (0.4025 * 1); [apply Rmult_le_compat; lra|lra]. }
    assert (DG : Rabs (deg dd) <= 23.75).
    { apply Rabs_le_iff in DS. assert (Z2 : deg (- rad 23.745) <= deg dd <= deg (rad 23.745)) by (split; apply deg_mono; lra). rewrite <- rad_opp, !deg_rad in Z2. apply Rabs_le_iff. lra. }
    assert (F : Rabs (sin (rad (Q2R d)) - sin (rad (deg dd))) <= 0.00014952).
    { rewrite rad_deg, SD. apply Rabs_le_iff in E1. apply Rabs_le_iff in P. apply Rabs_le_iff. lra. }
    destruct (sin_mvt_deg (deg dd) (Q2R d) 23.75 0.915 ltac:(lra) DG B1 cos_2375) as [w [W1 W2]]. rewrite W1, <- rad_minus, Rabs_mult, Rabs_rad, (Rabs_right w) in F by lra.
    pose proof PI_bounds as PB. pose proof (Rabs_pos (Q2R d - deg dd)) as DP.
    assert (G : 0.915 * (Rabs (Q2R d - deg dd) * (3.1415926 / 180)) <= w * (Rabs (Q2R d - deg dd) * (PI / 180))).
    { apply Rmult_le_compat; try lra. apply Rmult_le_compat_l; lra. }
    lra.
Qed.

Lemma place_at tc lat lon v s : Rabs (Q2R tc) <= 20.59 -> 0.001 <= Q2R v <= 0.8749 -> on_horizon rnd lm tc lat lon v ->
  Rabs (s - (2451545 + Q2R tc * 36525 + Q2R v)) <= 0.0000005 ->
  Rabs (sun_altitude_sine (Q2R lat) (Q2R lon) s + dsin 0.8333) <= 0.0009.
Proof.
  intros HT HV (d0 & d1 & d2 & a & b & n & k0 & k1 & D0 & D1 & D2 & Ea & Ba & Eb_ & Bb & Hn & HF) HS.
  set (T0 := Q2R tc) in *. set (xs := s - 2451545 - T0 * 36525). assert (XV : Rabs (xs - Q2R v) <= 0.0000005) by (unfold xs; replace (s - 2451545 - T0 * 36525 - Q2R v) with (s - (2451545 + T0 * 36525 + Q2R v)) by ring; exact HS).
  assert (CS : centuries_of s = T0 + xs / 36525) by (unfold centuries_of, xs; field).
  pose proof Hn as Hn'. apply Rabs_le_iff in Hn'. pose proof XV as XV'. apply Rabs_le_iff in XV'. pose proof HT as HT'. apply Rabs_le_iff in HT'.
  assert (XR : 0 <= xs <= 0.875) by lra. assert (NR : 0 <= n <= 0.875) by lra.
  set (E := obliquity (T0 + xs / 36525)).
  assert (ER : 23.1 <= E <= 23.73) by (apply obliquity_range; apply Rabs_le_iff; lra).
  (* the three days *)
  pose proof (day_R rnd N) as DR. assert (DS : Rabs (Q2R day) <= 0.0001) by (apply Rabs_le_iff in DR; apply Rabs_le_iff; lra).
  destruct (shift_R rnd N tc day ltac:(fold T0; apply Rabs_le_iff; lra) DS) as [SP SM]. fold T0 in SP, SM.
  change (fdiv rnd 1 36525) with day in *. set (t0 := fsub rnd tc day) in *. set (t2 := fadd rnd tc day) in *.
  apply Rabs_le_iff in DR. apply Rabs_le_iff in SP. apply Rabs_le_iff in SM.
  assert (OBL : forall t, Rabs (Q2R t - T0) <= 0.00003 -> Rabs (E - obliquity (Q2R t)) <= 0.000001).
  { intros t Ht. apply Rabs_le_iff in Ht. pose proof (obliquity_lip (Q2R t) (T0 + xs / 36525) ltac:(apply Rabs_le_iff; lra) ltac:(apply Rabs_le_iff; lra)) as L.
    fold E in L. assert (Rabs (T0 + xs / 36525 - Q2R t) <= 0.00006) by (apply Rabs_le_iff; lra). lra. }
  set (lam := sun_lon T0) in *. set (w := slope T0). pose proof (slope_range T0 ltac:(apply Rabs_le_iff; lra)) as WR. fold w in WR.
  destruct (node t0 T0 (-1) E ltac:(apply TXr'; apply Rabs_le_iff; lra) ltac:(apply Rabs_le_iff; lra) ltac:(apply Rabs_le_iff; lra) ltac:(apply Rabs_le_iff; lra) ltac:(lra) ltac:(apply OBL; apply Rabs_le_iff; lra)) as [[K0 R0] [d0' [D0' Q0]]].
  destruct (node tc T0 0 E ltac:(apply TXr'; fold T0; apply Rabs_le_iff; lra) ltac:(apply Rabs_le_iff; lra) ltac:(apply Rabs_le_iff; lra) ltac:(fold T0; apply Rabs_le_iff; lra) ltac:(lra) ltac:(apply OBL; fold T0; apply Rabs_le_iff; lra)) as [[K1 R1] [d1' [D1' Q1]]].
  destruct (node t2 T0 1 E ltac:(apply TXr'; apply Rabs_le_iff; lra) ltac:(apply Rabs_le_iff; lra) ltac:(apply Rabs_le_iff; lra) ltac:(apply Rabs_le_iff; lra) ltac:(lra) ltac:(apply OBL; apply Rabs_le_iff; lra)) as [[K2 R2] [d2' [D2' Q2]]].
  rewrite D0 in D0'. injection D0' as <-. rewrite D1 in D1'. injection D1' as <-. rewrite D2 in D2'. injection D2' as <-.
  fold lam w in R0, R1, R2, Q0, Q1, Q2. replace (lam + w * -1) with (lam - w) in * by ring. replace (lam + w * 0) with lam in * by ring. replace (lam + w * 1) with (lam + w) in * by ring.
  (* right ascension *)
  set (W := rad w). assert (WW : 0 <= W * W <= 0.0003184).
  { split; [apply Rle_0_sqr|]. pose proof (rad_abs w 1.0222 ltac:(apply Rabs_le_iff; lra)) as RW. fold W in RW. apply Rsq_abs in RW. lra. }
  destruct (obl_range E ltac:(lra)) as [OS OC].
  assert (MV : forall p q, Rabs (RAd E q - RAd E p - (q - p)) <= 0.1011 * Rabs (q - p)).
  { intros p q. pose proof (RAd_move E E p q ltac:(lra) ltac:(lra)) as M. rewrite (Rminus_diag_eq E E eq_refl), Rabs_R0 in M. lra. }
  set (r0 := Q2R (ra t0)) in *. set (r1 := Q2R (ra tc)) in *. set (r2 := Q2R (ra t2)) in *.
  assert (A0 : Rabs (a - (RAd E lam - RAd E (lam - w))) <= 0.0204).
  { pose proof (MV (lam - w) lam) as M. replace (lam - (lam - w)) with w in M by ring. rewrite (Rabs_right w) in M by lra.
    apply Rabs_le_iff in R0. apply Rabs_le_iff in R1. apply Rabs_le_iff in M. apply (turn0 _ _ (K1 - K0 + k0)%Z); [|lra|apply Rabs_le_iff; lra].
    rewrite plus_IZR, minus_IZR. apply Rabs_le_iff. lra. }
  assert (B0 : Rabs (b - (RAd E (lam + w) - RAd E lam)) <= 0.0204).
  { pose proof (MV lam (lam + w)) as M. replace (lam + w - lam) with w in M by ring. rewrite (Rabs_right w) in M by lra.
    apply Rabs_le_iff in R2. apply Rabs_le_iff in R1. apply Rabs_le_iff in M. apply (turn0 _ _ (K2 - K1 + k1)%Z); [|lra|apply Rabs_le_iff; lra].
    rewrite plus_IZR, minus_IZR. apply Rabs_le_iff. lra. }
  assert (I0 : (K1 - K0 + k0 = 0)%Z).
  { apply Rabs_le_iff in A0. apply Rabs_le_iff in R0. apply Rabs_le_iff in R1.
    assert (X : -1 < IZR (K1 - K0 + k0) < 1) by (rewrite plus_IZR, minus_IZR; lra). destruct X as [X1 X2]. apply lt_IZR in X1. apply lt_IZR in X2. lia. }
  assert (I2 : (K2 - K1 + k1 = 0)%Z).
  { apply Rabs_le_iff in B0. apply Rabs_le_iff in R2. apply Rabs_le_iff in R1.
    assert (X : -1 < IZR (K2 - K1 + k1) < 1) by (rewrite plus_IZR, minus_IZR; lra). destruct X as [X1 X2]. apply lt_IZR in X1. apply lt_IZR in X2. lia. }
  assert (I0' : IZR K0 = IZR K1 + IZR k0) by (rewrite <- plus_IZR; f_equal; lia). assert (I2' : IZR K2 = IZR K1 - IZR k1) by (rewrite <- minus_IZR; f_equal; lia).
  pose proof (three_near (r1 - a) r1 (r1 + b) (RAd E (lam - w) + 360 * IZR K1) (RAd E lam + 360 * IZR K1) (RAd E (lam + w) + 360 * IZR K1) n 0.0102 ltac:(lra)) as TN.
  assert (TN' : Rabs (between3 r1 a b n - between3 (RAd E lam + 360 * IZR K1) (RAd E lam - RAd E (lam - w)) (RAd E (lam + w) - RAd E lam) n) <= 0.01275).
  { replace (RAd E lam - RAd E (lam - w)) with (RAd E lam + 360 * IZR K1 - (RAd E (lam - w) + 360 * IZR K1)) by ring.
    replace (RAd E (lam + w) - RAd E lam) with (RAd E (lam + w) + 360 * IZR K1 - (RAd E lam + 360 * IZR K1)) by ring.
    replace a with (r1 - (r1 - a)) at 1 by ring. replace b with (r1 + b - r1) at 1 by ring.
    eapply Rle_trans; [apply TN|lra].
    - rewrite I0' in R0. apply Rabs_le_iff in R0. apply Rabs_le_iff. lra.
    - exact R1.
    - rewrite I2' in R2. apply Rabs_le_iff in R2. apply Rabs_le_iff. lra. }
  clear TN. set (f := RA (cos (rad E))).
  assert (RW : forall q, RAd E q = deg (f (rad q))) by reflexivity.
  rewrite !RW, <- !deg_minus, between3_deg, rad_plus, rad_minus in TN'. fold W in TN'.
  pose proof (three_points f (RA' (cos (rad E))) 0.212 (rad lam) W n ltac:(lra) (fun y => RA_derive _ y OC) (fun p q => RA'_lip _ p q OC) NR) as TP.
  set (Y := between3 (f (rad lam)) (f (rad lam) - f (rad lam - W)) (f (rad lam + W) - f (rad lam)) n) in *.
  assert (TP' : Rabs (Y - f (rad lam + W * n)) <= 0.0000775) by lra. clear TP.
  set (ls := sun_lon (T0 + xs / 36525)).
  assert (LS : Rabs (ls - (lam + w * n)) <= 0.000711).
  { pose proof (lon_line T0 xs ltac:(apply Rabs_le_iff; lra) ltac:(apply Rabs_le_iff; lra)) as L. fold lam w ls in L.
    assert (Rabs (w * (xs - n)) <= 1.0222 * 0.0000105) by (rewrite Rabs_mult, (Rabs_right w) by lra; apply Rmult_le_compat; try lra; [apply Rabs_pos|apply Rabs_le_iff; lra]).
    apply Rabs_le_iff in L. apply Rabs_le_iff in H. apply Rabs_le_iff. lra. }
  assert (AL : Rabs (between3 r1 a b n - (RAd E ls + 360 * IZR K1)) <= 0.01799).
  { pose proof (MV (lam + w * n) ls) as M. rewrite (RW (lam + w * n)) in M. rewrite rad_plus in M. replace (rad (w * n)) with (W * n) in M by (unfold W, rad; ring).
    apply deg_abs in TP'. rewrite deg_minus in TP'. apply Rabs_le_iff in TP'. apply Rabs_le_iff in TN'.
    assert (0.1011 * Rabs (ls - (lam + w * n)) <= 0.1011 * 0.000711) by (apply Rmult_le_compat_l; lra). apply Rabs_le_iff in M. apply Rabs_le_iff in LS. apply Rabs_le_iff. lra. }
  (* declination *)
  set (g := DE (sin (rad E))) in *.
  pose proof (three_near _ _ _ _ _ _ n 0.0095 ltac:(lra) Q0 Q1 Q2) as DN. replace (deg (g (rad lam))) with (deg (g (rad lam)) + 0) in DN at 1 by ring.
  rewrite <- !deg_minus, between3_deg, rad_plus, rad_minus in DN. fold W in DN.
  assert (OS' : 0 <= sin (rad E) <= 0.4026) by lra.
  pose proof (three_points g (DE' (sin (rad E))) 0.57 (rad lam) W n ltac:(lra) (fun y => DE_derive _ y OS') (fun p q => DE'_lip _ p q OS') NR) as DP.
  set (V := between3 (g (rad lam)) (g (rad lam) - g (rad lam - W)) (g (rad lam + W) - g (rad lam)) n) in *.
  assert (DP' : Rabs (V - g (rad lam + W * n)) <= 0.0002083) by lra. clear DP.
  pose proof (DE_lip (sin (rad E)) (rad (lam + w * n)) (rad ls) ltac:(lra)) as DL. fold g in DL. rewrite <- rad_minus in DL. pose proof (rad_abs _ _ LS) as RLS.
  rewrite rad_plus in DL. replace (rad (w * n)) with (W * n) in DL by (unfold W, rad; ring).
  set (DC := between3 (Q2R d1) (Q2R d1 - Q2R d0) (Q2R d2 - Q2R d1) n) in *.
  assert (DD : Rabs (DC - deg (g (rad ls))) <= 0.02414).
  { assert (Rabs (V - g (rad ls)) <= 0.0002139) by (apply Rabs_le_iff in DP'; assert (Rabs (g (rad ls) - g (rad lam + W * n)) <= 0.0000055) by lra; apply Rabs_le_iff in H; apply Rabs_le_iff; lra).
    apply deg_abs in H. rewrite deg_minus in H. apply Rabs_le_iff in H. apply Rabs_le_iff in DN. apply Rabs_le_iff. lra. }
  (* sidereal time *)
  destruct (sidereal_R rnd N lm A tc ltac:(apply TXr'; fold T0; apply Rabs_le_iff; lra)) as [ks [KS _]]. fold T0 in KS. rewrite <- sidereal_eq in KS.
  pose proof (sidereal_line T0 xs ltac:(apply Rabs_le_iff; lra) ltac:(apply Rabs_le_iff; lra)) as SL.
  set (ast := Q2R (apparent_sidereal_time_greenwich rnd lm tc)) in *. set (th := sidereal (T0 + xs / 36525)) in *.
  (* the altitude *)
  unfold sun_altitude_sine. cbv zeta. rewrite CS. fold E ls th. rewrite <- sun_direction by lra. fold g.
  rewrite sine_of_altitude_FF in HF. set (HC := ast + 360.98564736629 * Q2R v + Q2R lon - between3 r1 a b n) in *.
  assert (HH : Rabs (HC - (th + Q2R lon - RAd E ls + 360 * IZR (ks - K1))) <= 0.02428).
  { rewrite minus_IZR. unfold HC. apply Rabs_le_iff in AL. apply Rabs_le_iff in KS. apply Rabs_le_iff in SL. apply Rabs_le_iff. lra. }
  rewrite <- (FF_turn _ _ (th + Q2R lon - RAd E ls) (ks - K1)). set (HX := th + Q2R lon - RAd E ls + 360 * IZR (ks - K1)) in *.
  pose proof (FF_lip_d (Q2R lat) (deg (g (rad ls))) DC HC) as F1. pose proof (FF_lip_h (Q2R lat) (deg (g (rad ls))) HX HC) as F2. rewrite <- rad_minus in F1, F2.
  pose proof (rad_abs _ _ DD) as G1. pose proof (rad_abs _ _ HH) as G2.
  assert (F1' : Rabs (FF (Q2R lat) DC HC - FF (Q2R lat) (deg (g (rad ls))) HC) <= 0.00042133) by lra. assert (F2' : Rabs (FF (Q2R lat) (deg (g (rad ls))) HC - FF (Q2R lat) (deg (g (rad ls))) HX) <= 0.00042378) by lra.
  apply Rabs_le_iff in F1'. apply Rabs_le_iff in F2'. apply Rabs_le_iff in HF. apply Rabs_le_iff. lra.
Qed.
End Place.
