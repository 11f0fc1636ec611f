(** AstroNaw2.v -- on which side of a given moment the sun sets on a given day in Tehran, by computation (proof support). *)
From Coq Require Import ZArith QArith Qabs Qreals Lqa Reals Lra Lia List Bool.
From Verif Require Import Base Flt QUtil BaseModel AstroModel SpecAstro AstroReal AstroReal2 AstroFlt AstroApx AstroSun AstroNut AstroRA AstroMove AstroStep AstroRise AstroRise2 AstroRise3 AstroRise5 AstroDay AstroBall AstroNaw.
Import ListNotations.
Local Open Scope R_scope.

Lemma sin_50 : 0.766 <= sin (rad 50) <= 0.767. Proof. apply sin_value; [lra|value]. Qed.
Lemma cos_50 x : Rabs x <= 50 -> 0.64 <= cos (rad x).
Proof. pose proof sin_50. apply (cos_ge 50 0.767); lra. Qed.

(** ** The altitude falls in the evening *)
Section Side.
Variables p r0 r1 r2 e0 e1 e2 th : R.
Hypothesis HP : -45 <= p <= 45.
Hypothesis HA : 0.7 <= r1 - r0 <= 1.3.
Hypothesis HB : 0.7 <= r2 - r1 <= 1.3.
Hypothesis HD0 : Rabs (e1 - e0) <= 0.5.
Hypothesis HD1 : Rabs (e2 - e1) <= 0.5.
Hypothesis HE : Rabs e1 <= 23.
Definition AA (n : R) : R := between3 r1 (r1 - r0) (r2 - r1) n.
Definition DD (n : R) : R := between3 e1 (e1 - e0) (e2 - e1) n.
Definition hv (v n : R) : R := th + 360.98564736629 * v - AA n.

Lemma diff3 y a b n w M : Rabs a <= M -> Rabs b <= M -> 1.3 <= n + w <= 1.7 -> Rabs (between3 y a b w - between3 y a b n) <= 1.71 * M * Rabs (w - n).
Proof.
  intros A B Q. unfold between3. replace (_ - _) with ((w - n) * (((1 - (n + w)) * a + (1 + (n + w)) * b) / 2)) by field.
  rewrite Rabs_mult, Rmult_comm. apply Rmult_le_compat_r; [apply Rabs_pos|].
  assert (M0 : 0 <= M) by (eapply Rle_trans; [apply Rabs_pos|exact A]).
  assert (U1 : Rabs ((1 - (n + w)) * a) <= 0.7 * M) by (rewrite Rabs_mult; apply Rmult_le_compat; try apply Rabs_pos; [apply Rabs_le_iff; lra|exact A]).
  assert (U2 : Rabs ((1 + (n + w)) * b) <= 2.7 * M) by (rewrite Rabs_mult; apply Rmult_le_compat; try apply Rabs_pos; [apply Rabs_le_iff; lra|exact B]).
  apply Rabs_le_iff in U1. apply Rabs_le_iff in U2. apply Rabs_le_iff. lra.
Qed.
Lemma DD_range n : 0.65 <= n <= 0.86 -> Rabs (DD n) <= 24.16.
Proof.
  intro H. unfold DD, between3. apply Rabs_le_iff in HD0. apply Rabs_le_iff in HD1. apply Rabs_le_iff in HE.
  replace (e1 + n / 2 * (e1 - e0 + (e2 - e1) + n * (e2 - e1 - (e1 - e0)))) with (e1 + (n * (1 - n) / 2) * (e1 - e0) + (n * (1 + n) / 2) * (e2 - e1)) by field.
  assert (N1 : 0 <= n * (1 - n) <= 0.86 * 0.35) by (split; [apply Rmult_le_pos; lra|apply Rmult_le_compat; lra]).
  assert (N2 : 0 <= n * (1 + n) <= 0.86 * 1.86) by (split; [apply Rmult_le_pos; lra|apply Rmult_le_compat; lra]).
  assert (U1 : Rabs ((n * (1 - n) / 2) * (e1 - e0)) <= 0.16 * 0.5) by (rewrite Rabs_mult; apply Rmult_le_compat; try apply Rabs_pos; apply Rabs_le_iff; lra).
  assert (U2 : Rabs ((n * (1 + n) / 2) * (e2 - e1)) <= 0.81 * 0.5) by (rewrite Rabs_mult; apply Rmult_le_compat; try apply Rabs_pos; apply Rabs_le_iff; lra).
  apply Rabs_le_iff in U1. apply Rabs_le_iff in U2. apply Rabs_le_iff. lra.
Qed.
Lemma side v n w : 0.659 <= v <= 0.85 -> 0.75 <= w <= 0.767 -> Rabs (n - v) <= 0.00001 -> Rabs (hv w w - 90) <= 10 ->
  (v <= w -> FF p (DD w) (hv w w) <= FF p (DD n) (hv v n) + 0.000001) /\
  (w <= v -> FF p (DD n) (hv v n) <= FF p (DD w) (hv w w) + 0.000001).
Proof.
  intros V W NV HW. apply Rabs_le_iff in NV. apply Rabs_le_iff in HW.
  pose proof (diff3 r1 (r1 - r0) (r2 - r1) n w 1.3 ltac:(apply Rabs_le_iff; lra) ltac:(apply Rabs_le_iff; lra) ltac:(lra)) as DA.
  pose proof (diff3 e1 (e1 - e0) (e2 - e1) n w 0.5 HD0 HD1 ltac:(lra)) as DE. fold (AA w) (AA n) in DA. fold (DD w) (DD n) in DE.
  set (x := w - v). set (y := hv w w - hv v n). assert (Y : y = 360.98564736629 * x - (AA w - AA n)) by (unfold y, x, hv; ring).
  assert (WN : Rabs (w - n) <= Rabs x + 0.00001).
  { replace (w - n) with (x + (v - n)) by (unfold x; ring). eapply Rle_trans; [apply Rabs_triang|]. assert (Rabs (v - n) <= 0.00001) by (apply Rabs_le_iff; lra). lra. }
  pose proof (Rabs_pos x) as XP. assert (DA' : Rabs (AA w - AA n) <= 2.223 * Rabs x + 0.00003) by lra. assert (DE' : Rabs (DD w - DD n) <= 0.86 * Rabs x + 0.00001) by lra.
  assert (X : Rabs x <= 0.108) by (apply Rabs_le_iff; unfold x; lra).
  assert (HV : Rabs (hv v n - 90) <= 50).
  { replace (hv v n) with (hv w w - y) by (unfold y; ring). rewrite Y. apply Rabs_le_iff in X. apply Rabs_le_iff in DA'. assert (Rabs x <= 0.108) by (apply Rabs_le_iff; lra). apply Rabs_le_iff. lra. }
  assert (HW' : Rabs (hv w w - 90) <= 50) by (apply Rabs_le_iff; lra).
  destruct (sin_mvt_deg _ _ 50 0.64 ltac:(lra) HV HW' cos_50) as [om [E [O1 O2]]].
  assert (C90 : forall z, cos (rad z) = - sin (rad (z - 90))).
  { intro z. rewrite rad_minus, rad_90, <- sin_neg. replace (- (rad z - PI / 2)) with (PI / 2 - rad z) by ring. symmetry. apply sin_shift. }
  assert (RY : rad (hv w w - 90) - rad (hv v n - 90) = y * (PI / 180)) by (unfold rad, y; ring). rewrite RY in E.
  pose proof (FF_lip_d p (DD n) (DD w) (hv w w)) as F1. rewrite <- rad_minus in F1. pose proof (rad_abs _ _ DE') as R1.
  pose proof (DD_range n ltac:(lra)) as DN. destruct (B_range45 p (DD n) HP ltac:(eapply Rle_trans; [exact DN|lra])) as [B1 B2]. set (B := cos (rad p) * cos (rad (DD n))) in *.
  assert (F2 : FF p (DD n) (hv w w) - FF p (DD n) (hv v n) = - (B * om * (y * (PI / 180)))).
  { unfold FF. fold B. rewrite !C90. replace (sin (rad (hv w w - 90))) with (sin (rad (hv v n - 90)) + om * (y * (PI / 180))) by lra. ring. }
  assert (G1 : 0.41 <= B * om <= 1) by (split; [replace 0.41 with (0.640625 * 0.64) by lra; apply Rmult_le_compat; lra|rewrite <- (Rmult_1_r 1); apply Rmult_le_compat; lra]).
  set (g := B * om) in *. assert (K : 0.0174 <= PI / 180 <= 0.0175) by (pose proof PI_bounds; lra). set (k := PI / 180) in *.
  assert (F1' : Rabs (FF p (DD w) (hv w w) - FF p (DD n) (hv w w)) <= 0.0174533 * (0.86 * Rabs x + 0.00001)) by lra.
  apply Rabs_le_iff in F1'. apply Rabs_le_iff in DA'.
  assert (GK : 0.0071 <= g * k <= 0.0175) by (split; [replace 0.0071 with (0.41 * (0.0071 / 0.41)) by lra|replace 0.0175 with (1 * 0.0175) by lra]; apply Rmult_le_compat; lra).
  replace (g * (y * k)) with (g * k * y) in F2 by ring. set (q := g * k) in *.
  split; intro L.
  - assert (X0 : 0 <= x) by (unfold x; lra). rewrite (Rabs_right x) in * by lra.
    assert (Y1 : 358 * x <= y + 0.00003) by lra.
    assert (P : 0.0071 * (358 * x) <= q * (y + 0.00003)) by (apply Rmult_le_compat; lra). rewrite Rmult_plus_distr_l in P.
    assert (q * 0.00003 <= 0.0175 * 0.00003) by (apply Rmult_le_compat_r; lra). lra.
  - assert (X0 : x <= 0) by (unfold x; lra). rewrite (Rabs_left1 x) in * by lra.
    assert (Y1 : 358 * - x <= - y + 0.00003) by lra.
    assert (P : 0.0071 * (358 * - x) <= q * (- y + 0.00003)) by (apply Rmult_le_compat; lra). rewrite Rmult_plus_distr_l in P.
    assert (q * 0.00003 <= 0.0175 * 0.00003) by (apply Rmult_le_compat_r; lra). lra.
Qed.
End Side.

(** ** The computation: [x] millionths of the day that starts at the midnight of [H] *)
Definition bcen (H : Z) : ball := bdivz (bwide (bq ((H - 2451545) * 360000000 - 231288701) 360000000) (bk 4 10000000)) 36525.
Definition bL (t : ball) : ball :=
  bmod 360 (badd (badd (bk 28046646 100000) (bmul (bk 3600076983 100000) t)) (bmul (bk 3032 10000000) (bmul t t))).
(** a cell: centuries and mean longitudes; the day before and the day after are within the centuries *)
Definition bsubset (a b : ball) : bool := (Z.abs (fst a - fst b) + snd a <=? snd b)%Z.
Definition in_cell (H : Z) (t l : ball) : bool :=
  let b := bcen H in bsubset (bwide b (bk 3 100000)) t && bsubset (bL b) l.
Definition bmix (x : Z) (r0 r1 r2 : ball) : ball :=
  badd (bmul (bq (x * (x - 1000000)) 2000000000000) r0)
       (badd (bmul (bq (1000000 * 1000000 - x * x) 1000000000000) r1) (bmul (bq (x * (x + 1000000)) 2000000000000) r2)).
(** the sidereal time in Tehran less the mean longitude and half a turn, at the midnight of a day *)
Definition bth (t : ball) : ball :=
  bwide (bsub (badd (badd (bk (-584163) 100000000) (bmul (bk 22374225 100000000000) t)) (bmul (bk 84733 1000000000) (bmul t t)))
              (bdivz (bmul t (bmul t t)) 38710000)) (bk 65 10000).
Definition bhour (x : Z) (t A : ball) : ball :=
  bsub (bsub (badd (bth t) (bmul (bk 36098564736629 100000000000) (bq x 1000000))) A) (bk 270 1).
Definition balt (D h : ball) : ball :=
  let p := brad (bwide (bk 3569435 100000) (bk 1 1000000000)) in
  badd (badd (bmul (bsin p) (bsin (brad D))) (bmul (bmul (bcos p) (bcos (brad D))) (bopp (bsin (brad h))))) (bsin (brad (bk 8333 10000))).
Definition bin (b : ball) (n d : Z) : bool := (d * (Z.abs (fst b) + snd b) <=? n * SZ)%Z.
(** the checks the comparison needs, and the sine of the altitude plus that of 0.8333 degrees *)
Definition bchk (x : Z) (r0 r1 r2 d1 h : ball) : bool :=
  bin r0 100 1 && bin r1 100 1 && bin r2 100 1 && bin d1 23 1 && bin h 10 1
  && (750000 <=? x)%Z && (x <=? 767000)%Z.
Definition bstep : ball := bwide (bk 985647 1000000) (bk 5 1000000).
Definition bside (x : Z) (t l : ball) : bool * ball :=
  let l0 := bsub l bstep in let l2 := badd l bstep in
  let r0 := bsub (bdl t l0) bstep in let r1 := bdl t l in let r2 := badd (bdl t l2) bstep in
  let d0 := bdec t l0 in let d1 := bdec t l in let d2 := bdec t l2 in
  let h := bhour x t (bmix x r0 r1 r2) in
  (bchk x r0 r1 r2 d1 h, balt (bmix x d0 d1 d2) h).
Definition above (x : Z) (t l : ball) : bool := let (c, b) := bside x t l in c && (SZ <=? (fst b - snd b) * 10000)%Z.
Definition below (x : Z) (t l : ball) : bool := let (c, b) := bside x t l in c && ((fst b + snd b) * 10000 <=? - SZ)%Z.

Lemma bin_R x b n d : inb x b -> (0 < d)%Z -> bin b n d = true -> Rabs x <= IZR n / IZR d.
Proof.
  intros H D S. apply Z.leb_le, IZR_le in S. rewrite !mult_IZR in S. pose proof (inb_abs _ _ H) as K. pose proof SZ_pos. apply IZR_lt in D.
  apply (Rmult_le_reg_r (IZR SZ)); [assumption|]. apply (Rmult_le_reg_l (IZR d)); [assumption|]. rewrite <- Rmult_assoc.
  replace (IZR d * (IZR n / IZR d * IZR SZ)) with (IZR n * IZR SZ) by (field; lra). rewrite Rmult_assoc.
  eapply Rle_trans; [apply Rmult_le_compat_l; [lra|exact K]|exact S].
Qed.
Lemma bmix_in x r0 r1 r2 b0 b1 b2 : inb r0 b0 -> inb r1 b1 -> inb r2 b2 -> inb (AA r0 r1 r2 (IZR x / 1000000)) (bmix x b0 b1 b2).
Proof.
  intros H0 H1 H2. unfold bmix. eapply inb_eq; [exact (badd_in _ _ _ _ (bmul_in _ _ _ _ (bq_in (x * (x - 1000000)) 2000000000000) H0) (badd_in _ _ _ _ (bmul_in _ _ _ _ (bq_in (1000000 * 1000000 - x * x) 1000000000000) H1) (bmul_in _ _ _ _ (bq_in (x * (x + 1000000)) 2000000000000) H2)))|].
  unfold AA, between3. repeat rewrite ?mult_IZR, ?minus_IZR, ?plus_IZR. set (y := IZR x). field.
Qed.
Lemma bsubset_in x a b : inb x a -> bsubset a b = true -> inb x b.
Proof.
  intros H S. apply Z.leb_le, IZR_le in S. rewrite plus_IZR, abs_IZR, minus_IZR in S. unfold inb in *.
  replace (x * IZR SZ - IZR (fst b)) with ((x * IZR SZ - IZR (fst a)) + (IZR (fst a) - IZR (fst b))) by ring.
  eapply Rle_trans; [apply Rabs_triang|]. lra.
Qed.
Lemma bL_in t b : inb t b -> exists k : Z, inb (Lr t - 360 * IZR k) (bL b).
Proof.
  intro H. unfold bL. apply bmod_in. eapply inb_eq.
  - exact (badd_in _ _ _ _ (badd_in _ _ _ _ (bq_in 28046646 100000) (bmul_in _ _ _ _ (bq_in 3600076983 100000) H)) (bmul_in _ _ _ _ (bq_in 3032 10000000) (bmul_in _ _ _ _ H H))).
  - unfold Lr. lra.
Qed.
Lemma bth_in t b z : inb t b -> Rabs (z - (- 584163 / 100000000 + 22374225 / 100000000000 * t + 84733 / 1000000000 * (t * t) - t * (t * t) / 38710000)) <= 0.0065 -> inb z (bth b).
Proof.
  intros H E. unfold bth. eapply bwide_in; [exact (bsub_in _ _ _ _ (badd_in _ _ _ _ (badd_in _ _ _ _ (bq_in (-584163) 100000000) (bmul_in _ _ _ _ (bq_in 22374225 100000000000) H)) (bmul_in _ _ _ _ (bq_in 84733 1000000000) (bmul_in _ _ _ _ H H)))
    (bdivz_in _ _ 38710000 (bmul_in _ _ _ _ H (bmul_in _ _ _ _ H H))))|exact (bq_in 65 10000)|].
  rewrite (Rabs_right (65 / 10000)) by lra. lra.
Qed.
Lemma bcen_in H y : Rabs (y * 36525 - (IZR H - 1 / 2 - 51.288701 / 360 - 2451545)) <= 0.0000004 -> inb y (bcen H).
Proof.
  intro E. unfold bcen. eapply inb_eq; [apply (bdivz_in (y * 36525)); eapply bwide_in; [exact (bq_in ((H - 2451545) * 360000000 - 231288701) 360000000)|exact (bq_in 4 10000000)|]|field].
  rewrite (Rabs_right (4 / 10000000)) by lra. rewrite minus_IZR, mult_IZR, minus_IZR. set (h := IZR H) in *. apply Rabs_le_iff in E. apply Rabs_le_iff. lra.
Qed.
Lemma balt_in D h bD bh p : Rabs (p - 35.69435) <= 0.000000001 -> inb D bD -> inb h bh -> inb (FF p D (h + 90) + sin (rad 0.8333)) (balt bD bh).
Proof.
  intros P HD Hh. unfold balt. cbv zeta.
  assert (PB : inb p (bwide (bq 3569435 100000) (bq 1 1000000000))).
  { eapply bwide_in; [exact (bq_in 3569435 100000)|exact (bq_in 1 1000000000)|]. rewrite (Rabs_right (1 / 1000000000)) by lra. apply Rabs_le_iff in P. apply Rabs_le_iff. lra. }
  pose proof (brad_in _ _ PB) as P1. pose proof (brad_in _ _ HD) as D1. pose proof (brad_in _ _ Hh) as H1.
  eapply inb_eq; [exact (badd_in _ _ _ _ (badd_in _ _ _ _ (bmul_in _ _ _ _ (bsin_in _ _ P1) (bsin_in _ _ D1)) (bmul_in _ _ _ _ (bmul_in _ _ _ _ (bcos_in _ _ P1) (bcos_in _ _ D1)) (bopp_in _ _ (bsin_in _ _ H1)))) (bsin_in _ _ (brad_in _ _ (bq_in 8333 10000))))|].
  unfold FF. rewrite rad_plus, rad_90. assert (C : cos (rad h + PI / 2) = - sin (rad h)) by (rewrite cos_plus, cos_PI2, sin_PI2; ring).
  rewrite C. replace 0.8333 with (8333 / 10000) by lra. ring.
Qed.
Section Naw.
Variable rnd : Q -> Q.
Hypothesis N : Nearest rnd.
Variable lm : libm.
Hypothesis A : accurate lm.
Notation ra := (sun_apparent_right_ascension rnd lm).
Notation dec := (sun_apparent_declination rnd lm).

Lemma same_turn (a r : R) (k : Z) : 0.8 <= a <= 1.2 -> Rabs r <= 200 -> a = r + 360 * IZR k -> a = r.
Proof.
  intros H R E. apply Rabs_le_iff in R. assert (k = 0%Z); [|subst k; lra].
  assert (-1 < k < 1)%Z; [|lia]. split; apply lt_IZR; lra.
Qed.
Lemma key (p r0 r1 r2 e0 e1 e2 th ra1 a b n v w hw : R) (k0 k1 kr kk : Z) : -45 <= p <= 45 ->
  a = r1 - r0 + 360 * IZR k0 -> 0.8 <= a <= 1.2 -> b = r2 - r1 + 360 * IZR k1 -> 0.8 <= b <= 1.2 ->
  ra1 = r1 + 360 * IZR kr -> Rabs (n - v) <= 0.00001 -> 0.659 <= v <= 0.85 ->
  Rabs (sine_of_altitude p (between3 e1 (e1 - e0) (e2 - e1) n) (th + 360 * IZR kk + 360.98564736629 * v - between3 ra1 a b n) + dsin 0.8333) <= 0.00005 ->
  Rabs r0 <= 100 -> Rabs r1 <= 100 -> Rabs r2 <= 100 -> Rabs (e1 - e0) <= 0.5 -> Rabs (e2 - e1) <= 0.5 -> Rabs e1 <= 23 ->
  hw + 90 = hv r0 r1 r2 th w w -> Rabs hw <= 10 -> 0.75 <= w <= 0.767 ->
  (v <= w -> FF p (DD e0 e1 e2 w) (hw + 90) + sin (rad 0.8333) <= 0.00006) /\
  (w <= v -> - 0.00006 <= FF p (DD e0 e1 e2 w) (hw + 90) + sin (rad 0.8333)).
Proof.
  intros HP EA RA0 EB RB ER NV V F R0 R1 R2 G0 G1 G2 HW G3 W. apply Rabs_le_iff in R0. apply Rabs_le_iff in R1. apply Rabs_le_iff in R2.
  assert (A0 : a = r1 - r0) by (apply (same_turn a (r1 - r0) k0 RA0); [apply Rabs_le_iff; lra|exact EA]).
  assert (B0 : b = r2 - r1) by (apply (same_turn b (r2 - r1) k1 RB); [apply Rabs_le_iff; lra|exact EB]).
  assert (S : FF p (DD e0 e1 e2 n) (th + 360 * IZR kk + 360.98564736629 * v - between3 ra1 a b n) = FF p (DD e0 e1 e2 n) (hv r0 r1 r2 th v n)).
  { rewrite <- (FF_turn _ _ (hv r0 r1 r2 th v n) (kk - kr)). f_equal. unfold hv, AA. rewrite <- A0, <- B0, ER. unfold between3. rewrite minus_IZR. ring. }
  rewrite sine_of_altitude_FF in F. fold (DD e0 e1 e2 n) in F. rewrite S in F. change (dsin 0.8333) with (sin (rad 0.8333)) in F. apply Rabs_le_iff in F.
  assert (HW' : Rabs (hv r0 r1 r2 th w w - 90) <= 10) by (rewrite <- HW; replace (hw + 90 - 90) with hw by ring; exact G3).
  rewrite A0 in RA0. rewrite B0 in RB. clear EA EB S.
  destruct (side p r0 r1 r2 e0 e1 e2 th HP ltac:(lra) ltac:(lra) G0 G1 G2 v n w V W NV HW') as [S1 S2].
  rewrite HW. split; intro L; [specialize (S1 L)|specialize (S2 L)]; lra.
Qed.
Lemma checked x (r0 r1 r2 e1 hw : R) c0 c1 c2 f1 h : bchk x c0 c1 c2 f1 h = true ->
  inb r0 c0 -> inb r1 c1 -> inb r2 c2 -> inb e1 f1 -> inb hw h ->
  (Rabs r0 <= 100 /\ Rabs r1 <= 100 /\ Rabs r2 <= 100) /\ Rabs e1 <= 23 /\ Rabs hw <= 10 /\ 0.75 <= IZR x / 1000000 <= 0.767.
Proof.
  intros C P0 P1 P2 Q1 BH. unfold bchk in C.
  apply andb_prop in C. destruct C as [C C8]. apply andb_prop in C. destruct C as [C C7]. apply andb_prop in C. destruct C as [C C6]. apply andb_prop in C. destruct C as [C C5].
  apply andb_prop in C. destruct C as [C C2]. apply andb_prop in C. destruct C as [C0 C1].
  apply (bin_R _ _ 100 1 P0 eq_refl) in C0. apply (bin_R _ _ 100 1 P1 eq_refl) in C1. apply (bin_R _ _ 100 1 P2 eq_refl) in C2.
  apply (bin_R _ _ 23 1 Q1 eq_refl) in C5. apply (bin_R _ _ 10 1 BH eq_refl) in C6. apply Z.leb_le, IZR_le in C7. apply Z.leb_le, IZR_le in C8.
  repeat split; lra.
Qed.
Lemma step_in t t' h : Rabs t <= 20.7 -> Rabs t' <= 20.7 -> Rabs (t * 36525 - h) <= 0.0000004 -> Rabs (t' * 36525 - (h + 1)) <= 0.0000004 -> inb (Lr t' - Lr t) bstep.
Proof.
  intros H H' E E'. unfold bstep. eapply bwide_in; [exact (bq_in 985647 1000000)|exact (bq_in 5 1000000)|]. rewrite (Rabs_right (5 / 1000000)) by lra.
  pose proof (Lr_move t t' H H') as M. apply Rabs_le_iff in E. apply Rabs_le_iff in E'. set (d := t' - t) in *. assert (D : 0.000027378 <= d <= 0.000027379) by (unfold d; lra).
  rewrite (Rabs_right d) in M by lra. apply Rabs_le_iff in M. assert (36525 * d <= 1.000001 /\ 0.999999 <= 36525 * d) by (unfold d; lra). apply Rabs_le_iff. lra.
Qed.
Lemma sunset_side (H x : Z) jd lat lon t l : (1700002 <= H <= 2899999)%Z ->
  Rabs (Q2R lat - 35.69435) <= 0.000000001 -> Rabs (Q2R lon - 51.288701) <= 0.000000001 ->
  Rabs (Q2R jd - (IZR H - 1 / 2 - 51.288701 / 360)) <= 0.00000002 -> in_cell H t l = true ->
  exists v, rising_setting rnd lm true jd lat lon (SUN_OFFSET rnd) = Ok v /\
    (above x t l = true -> IZR x / 1000000 < Q2R v) /\ (below x t l = true -> Q2R v < IZR x / 1000000).
Proof.
  intros HR LA LO HJ HC. pose proof LA as LA'. pose proof LO as LO'. apply Rabs_le_iff in LA'. apply Rabs_le_iff in LO'. pose proof HJ as HJ'. apply Rabs_le_iff in HJ'.
  destruct (rising_R rnd N lm A true jd lat lon H HR ltac:(apply Rabs_le_iff; lra) ltac:(apply Rabs_le_iff; lra) ltac:(apply Rabs_le_iff; lra)) as [v [E [_ [V OH]]]]. specialize (V ltac:(apply Rabs_le_iff; lra)). cbv iota in V.
  exists v. split; [exact E|]. destruct OH as [d0 [d1 [d2 [a [b [n [k0 [k1 [D0 [D1 [D2 [EA [RA0 [EB [RB [NV F]]]]]]]]]]]]]]]].
  destruct HR as [HR1 HR2]. apply IZR_le in HR1. apply IZR_le in HR2.
  assert (J : 1700000 <= Q2R jd <= 2900000) by lra. pose proof (centuries_R rnd N jd J) as TT. cbv zeta in TT. destruct TT as [T1 T2]. remember (julian_centuries rnd jd) as tc eqn:Etc. clear Etc.
  change (fdiv rnd 1 36525) with (AstroRise2.day rnd) in *. pose proof (day_R rnd N) as DY. remember (AstroRise2.day rnd) as day eqn:Eday. clear Eday.
  pose proof DY as DY'. apply Rabs_le_iff in DY'.
  destruct (shift_R rnd N tc day ltac:(lra) ltac:(apply Rabs_le_iff; lra)) as [SA SS]. apply Rabs_le_iff in SA. apply Rabs_le_iff in SS.
  pose proof T2 as T2'. apply Rabs_le_iff in T2'. apply Rabs_le_iff in T1.
  assert (Tc : (Qabs tc <= TX)%Q) by (apply TXr'; lra).
  assert (Ta : (Qabs (fadd rnd tc day) <= TX)%Q) by (apply TXr', Rabs_le_iff; lra).
  assert (Ts : (Qabs (fsub rnd tc day) <= TX)%Q) by (apply TXr', Rabs_le_iff; lra).
  assert (C3 : Rabs (Q2R d1 - Q2R d0) <= 0.5).
  { destruct (one_day rnd N lm A (fsub rnd tc day) tc Ts Tc ltac:(apply Rabs_le_iff; lra)) as (? & ? & e0 & e1 & _ & _ & _ & _ & E0 & E1 & _ & _ & B).
    rewrite D0 in E0. injection E0 as <-. rewrite D1 in E1. injection E1 as <-. lra. }
  assert (C4 : Rabs (Q2R d2 - Q2R d1) <= 0.5).
  { destruct (one_day rnd N lm A tc (fadd rnd tc day) Tc Ta ltac:(apply Rabs_le_iff; lra)) as (? & ? & e0 & e1 & _ & _ & _ & _ & E0 & E1 & _ & _ & B).
    rewrite D1 in E0. injection E0 as <-. rewrite D2 in E1. injection E1 as <-. lra. }
  remember (Q2R tc) as t1 eqn:Et1. remember (Q2R (fsub rnd tc day)) as t0 eqn:Et0. remember (Q2R (fadd rnd tc day)) as t2 eqn:Et2.
  remember (IZR H - 1 / 2 - 51.288701 / 360 - 2451545) as hh eqn:Eh0.
  assert (U0 : Rabs (t0 * 36525 - (hh - 1)) <= 0.0000004) by (apply Rabs_le_iff; lra).
  assert (U1 : Rabs (t1 * 36525 - hh) <= 0.0000004) by (apply Rabs_le_iff; lra).
  assert (U2 : Rabs (t2 * 36525 - (hh + 1)) <= 0.0000004) by (apply Rabs_le_iff; lra).
  pose proof (bcen_in H t1 ltac:(rewrite <- Eh0; exact U1)) as IC. unfold in_cell in HC. cbv zeta in HC. apply andb_prop in HC. destruct HC as [HC1 HC2].
  assert (IN : forall z, Rabs (z - t1) <= 3 / 100000 -> inb z t).
  { intros z Z. eapply bsubset_in; [|exact HC1]. eapply bwide_in; [exact IC|exact (bq_in 3 100000)|]. rewrite (Rabs_right (3 / 100000)) by lra. exact Z. }
  assert (I0 : inb t0 t) by (apply IN; apply Rabs_le_iff in U0; apply Rabs_le_iff in U1; apply Rabs_le_iff; lra).
  assert (I1 : inb t1 t) by (apply IN; rewrite Rminus_eq_0, Rabs_R0; lra).
  assert (I2 : inb t2 t) by (apply IN; apply Rabs_le_iff in U2; apply Rabs_le_iff in U1; apply Rabs_le_iff; lra).
  destruct (bL_in t1 _ IC) as [kl L1']. pose proof (bsubset_in _ _ _ L1' HC2) as L1. clear L1' HC1 HC2.
  assert (W0 : Rabs t0 <= 20.7) by (rewrite Et0; apply TXr, Ts). assert (W1 : Rabs t1 <= 20.7) by (rewrite Et1; apply TXr, Tc). assert (W2 : Rabs t2 <= 20.7) by (rewrite Et2; apply TXr, Ta).
  pose proof (step_in t0 t1 (hh - 1) W0 W1 U0 ltac:(replace (hh - 1 + 1) with hh by ring; exact U1)) as ST0. pose proof (step_in t1 t2 hh W1 W2 U1 U2) as ST2.
  assert (L0 : inb (Lr t0 - 360 * IZR kl) (bsub l bstep)) by (eapply inb_eq; [exact (bsub_in _ _ _ _ L1 ST0)|ring]).
  assert (L2 : inb (Lr t2 - 360 * IZR kl) (badd l bstep)) by (eapply inb_eq; [exact (badd_in _ _ _ _ L1 ST2)|ring]).
  rewrite Et0 in I0, L0. rewrite Et1 in I1, L1. rewrite Et2 in I2, L2.
  destruct (place_in rnd N lm A _ _ _ kl Ts I0 L0) as [[q0 P0] [d0' [E0 Q0]]]. rewrite D0 in E0. injection E0 as <-.
  destruct (place_in rnd N lm A _ _ _ kl Tc I1 L1) as [[q1 P1] [d1' [E1 Q1]]]. rewrite D1 in E1. injection E1 as <-.
  destruct (place_in rnd N lm A _ _ _ kl Ta I2 L2) as [[q2 P2] [d2' [E2 Q2]]]. rewrite D2 in E2. injection E2 as <-.
  destruct (sidereal_R rnd N lm A tc Tc) as [kt [TH _]]. remember (Q2R (apparent_sidereal_time_greenwich rnd lm tc)) as ast eqn:East. clear East.
  rewrite <- Et0 in P0. rewrite <- Et1 in P1, TH, I1. rewrite <- Et2 in P2. clear Et0 Et1 Et2 I0 I2 L0 L1 L2.
  remember (Lr t1 - 360 * IZR kl) as lr eqn:El.
  remember (Q2R (ra (fsub rnd tc day)) - 360 * IZR q0 - lr) as r0 eqn:X0. remember (Q2R (ra tc) - 360 * IZR q1 - lr) as r1 eqn:X1. remember (Q2R (ra (fadd rnd tc day)) - 360 * IZR q2 - lr) as r2 eqn:X2.
  assert (R0 : inb r0 (bsub (bdl t (bsub l bstep)) bstep)) by (eapply inb_eq; [exact (bsub_in _ _ _ _ P0 ST0)|rewrite X0, El; ring]).
  assert (R2 : inb r2 (badd (bdl t (badd l bstep)) bstep)) by (eapply inb_eq; [exact (badd_in _ _ _ _ P2 ST2)|rewrite X2, El; ring]).
  remember (IZR x / 1000000) as w eqn:Ew.
  remember (ast - 360 * IZR kt - Lr t1 - 360 * (hh + 51.288701 / 360 + 1 / 2) + Q2R lon + 180) as zz eqn:Ez.
  assert (BT : inb zz (bth t)).
  { apply (bth_in t1); [exact I1|]. rewrite Ez. unfold Th, Lr in *. apply Rabs_le_iff in TH. apply Rabs_le_iff in U1. apply Rabs_le_iff. 
    assert (c : 360.98564736629 * (t1 * 36525) = 360 * (t1 * 36525) + 36000.77005374225 * t1) by lra. rewrite c in TH. clear c. rewrite (Rmult_assoc t1 t1 t1) in TH. set (t3 := t1 * (t1 * t1)) in *. set (tt := t1 * t1) in *. lra. }
  set (b0 := bsub (bdl t (bsub l bstep)) bstep) in *. set (b1 := bdl t l) in *. set (b2 := badd (bdl t (badd l bstep)) bstep) in *.
  pose proof (bmix_in x _ _ _ _ _ _ R0 P1 R2) as BA. rewrite <- Ew in BA.
  assert (BH : inb (zz + 360.98564736629 * w - AA r0 r1 r2 w - 270) (bhour x t (bmix x b0 b1 b2))).
  { unfold bhour. eapply inb_eq; [exact (bsub_in _ _ _ _ (bsub_in _ _ _ _ (badd_in _ _ _ _ BT (bmul_in _ _ _ _ (bq_in 36098564736629 100000000000) (bq_in x 1000000))) BA) (bq_in 270 1))|]. rewrite <- Ew. lra. }
  set (f0 := bdec t (bsub l bstep)) in *. set (f1 := bdec t l) in *. set (f2 := bdec t (badd l bstep)) in *.
  pose proof (bmix_in x _ _ _ _ _ _ Q0 Q1 Q2) as BD. rewrite <- Ew in BD. change (AA (Q2R d0) (Q2R d1) (Q2R d2) w) with (DD (Q2R d0) (Q2R d1) (Q2R d2) w) in BD.
  pose proof (balt_in _ _ _ _ _ LA BD BH) as BL.
  remember (zz + 360.98564736629 * w - AA r0 r1 r2 w - 270) as hw eqn:Eh. remember (zz - 180) as th eqn:Et.
  assert (HW : hw + 90 = hv r0 r1 r2 th w w) by (rewrite Eh, Et; unfold hv; ring).
  assert (SD : bside x t l = (bchk x b0 b1 b2 f1 (bhour x t (bmix x b0 b1 b2)), balt (bmix x f0 f1 f2) (bhour x t (bmix x b0 b1 b2)))) by reflexivity.
  assert (KEY : bchk x b0 b1 b2 f1 (bhour x t (bmix x b0 b1 b2)) = true ->
     (Q2R v <= w -> FF (Q2R lat) (DD (Q2R d0) (Q2R d1) (Q2R d2) w) (hw + 90) + sin (rad 0.8333) <= 0.00006) /\
     (w <= Q2R v -> - 0.00006 <= FF (Q2R lat) (DD (Q2R d0) (Q2R d1) (Q2R d2) w) (hw + 90) + sin (rad 0.8333))).
  { intro C. destruct (checked x r0 r1 r2 (Q2R d1) hw _ _ _ _ _ C R0 P1 R2 Q1 BH) as [[C0 [C1 C2]] [C5 [C6 W]]]. rewrite <- Ew in W.
    assert (EA' : a = r1 - r0 + 360 * IZR (k0 + q1 - q0)) by (rewrite EA, minus_IZR, plus_IZR; rewrite X0, X1; ring).
    assert (EB' : b = r2 - r1 + 360 * IZR (k1 + q2 - q1)) by (rewrite EB, minus_IZR, plus_IZR; rewrite X1, X2; ring).
    remember (Q2R (ra tc) - lr) as rc eqn:Erc.
    assert (ER : rc = r1 + 360 * IZR q1) by (rewrite Erc, X1; ring).
    assert (F' : Rabs (sine_of_altitude (Q2R lat) (between3 (Q2R d1) (Q2R d1 - Q2R d0) (Q2R d2 - Q2R d1) n) (th + 360 * IZR (kt + kl + (H - 2451545)) + 360.98564736629 * Q2R v - between3 rc a b n) + dsin 0.8333) <= 0.00005).
    { replace (th + 360 * IZR (kt + kl + (H - 2451545)) + 360.98564736629 * Q2R v - between3 rc a b n) with (ast + 360.98564736629 * Q2R v + Q2R lon - between3 (Q2R (ra tc)) a b n); [exact F|].
      rewrite Et, Ez, Erc, El, Eh0, !plus_IZR, minus_IZR. unfold between3. field. }
    clear -LA' EA' RA0 EB' RB ER NV V F' C0 C1 C2 C3 C4 C5 C6 HW W.
    exact (key (Q2R lat) r0 r1 r2 (Q2R d0) (Q2R d1) (Q2R d2) th rc a b n (Q2R v) w hw (k0 + q1 - q0) (k1 + q2 - q1) q1 (kt + kl + (H - 2451545))
      ltac:(lra) EA' RA0 EB' RB ER NV ltac:(lra) F' C0 C1 C2 C3 C4 C5 HW C6 W). }
  unfold above, below. rewrite SD. split; intro C; apply andb_prop in C; destruct C as [C1 C2]; destruct (KEY C1) as [V1 V2].
  - apply Rnot_le_lt. intro L. specialize (V1 L). assert (X := inb_ge _ _ 1 10000 BL ltac:(lia) ltac:(rewrite Z.mul_1_l; exact C2)). lra.
  - apply Rnot_le_lt. intro L. specialize (V2 L). assert (X := inb_le _ _ (-1) 10000 BL ltac:(lia) ltac:(replace (-1 * SZ)%Z with (- SZ)%Z by ring; exact C2)). lra.
Qed.
End Naw.
