(** PropertiesSun.v -- the sunrise and sunset the code computes against Meeus' formulas in exact arithmetic (SpecSun.v). *)
From Coq Require Import ZArith QArith Qround Qabs Qreals Lqa Reals Lra Lia List Bool.
From Verif Require Import Base Flt QUtil BaseModel BaseProofs AstroModel SpecAstro SpecSun AstroReal AstroFlt AstroApx AstroRA AstroSun AstroMove AstroRise5 AstroDay SunProofs SunLine SunPlace SunTrue PropertiesAstro.
Local Open Scope R_scope.

(** The moments and places the theorems speak of: more than three thousand years, every longitude, up to 52 degrees of
    latitude. *)
Definition covered (jd lat lon : Q) : Prop := 1700003 <= Q2R jd <= 2899998 /\ -52 <= Q2R lat <= 52 /\ -180 <= Q2R lon <= 180.
(** The part of local mean day [H] the sun rises in (3:02 to 8:44) and the part it sets in (15:16 to 20:58). *)
Definition part_of_day (set : bool) (H : Z) (lon s : R) : Prop :=
  if set then midnight H lon + 0.636 <= s <= midnight H lon + 0.874 else midnight H lon + 0.126 <= s <= midnight H lon + 0.364.

Lemma event_place rnd lm (set : bool) jd lat lon : Nearest rnd -> accurate lm -> covered jd lat lon ->
  exists (H : Z) s, (1700002 <= H <= 2899999)%Z /\ midnight H (Q2R lon) - 0.00000001 <= Q2R jd <= midnight (H + 1) (Q2R lon) + 0.00000001 /\
    sun_event rnd lm set jd lat lon = Ok s /\
    (if set then 0.6369 <= Q2R s - midnight H (Q2R lon) <= 0.8731 else 0.1269 <= Q2R s - midnight H (Q2R lon) <= 0.3631) /\
    Rabs (sun_altitude_sine (Q2R lat) (Q2R lon) (Q2R s) + sind 0.8333) <= 0.0009.
Proof.
  intros N A [J [LA LO]]. assert (LO' : Rabs (Q2R lon) <= 180) by (apply Rabs_le_iff; lra). assert (LA' : Rabs (Q2R lat) <= 52) by (apply Rabs_le_iff; lra).
  pose proof (day_of_R rnd N jd lon J LO') as D. destruct (local_midnight_R rnd N jd lon J LO') as [HR M].
  exists (day_of rnd jd lon). set (H := day_of rnd jd lon) in *. set (mid := local_midnight rnd jd lon) in *.
  assert (HJ : Rabs (Q2R mid - (IZR H - 1 / 2 - Q2R lon / 360)) <= 0.0000001) by (unfold midnight in M; lra).
  destruct (rising_R rnd N lm A set mid lat lon H HR LA' LO' HJ) as [v [V1 [V2 [_ V3]]]].
  assert (VB : 0.12 <= Q2R v <= 0.874) by (destruct set; lra).
  exists (round12 rnd (fadd rnd mid v)). split; [exact HR|]. split; [exact D|].
  unfold sun_event. cbv zeta. fold mid. rewrite V1. cbn [bind]. split; [reflexivity|].
  destruct HR as [H1 H2]. apply IZR_le in H1. apply IZR_le in H2. apply Rabs_le_iff in M. unfold midnight in *.
  assert (MB : 1700000 <= Q2R mid <= 2900000) by lra.
  assert (F : Rabs (Q2R (fadd rnd mid v) - (Q2R mid + Q2R v)) <= 3000000 * u) by (apply fadd_R; [exact N|apply Rabs_le_iff; lra]).
  unfold u in F. apply Rabs_le_iff in F. set (s := fadd rnd mid v) in *.
  assert (SB : (Qabs s <= 8388607)%Q) by (apply Qabs_le_iff; split; apply Rle_Qle; try rewrite Q2R_opp; rewrite Q2R_lit; lra).
  destruct (round12_near rnd N s SB) as [R1 R2]. apply Qle_Rle in R1. apply Qle_Rle in R2. rewrite Q2R_minus in R1. rewrite Q2R_plus in R2.
  assert (K : Q2R (1 # 1073741824) <= 0.000000001) by (unfold Q2R; cbn [Qnum Qden]; lra). set (r := round12 rnd s) in *.
  split; [destruct set; lra|].
  destruct (centuries_R rnd N mid MB) as [T1 T2]. set (tc := julian_centuries rnd mid) in *.
  apply (place_at rnd N lm A tc lat lon v (Q2R r)); [apply Rabs_le_iff in T2; apply Rabs_le_iff; lra|lra|exact V3|].
  apply Rabs_le_iff in T1. apply Rabs_le_iff. lra.
Qed.

(** ** C95: the sun stands on the horizon *)
(** Where the code says the sun rises or sets, its centre, placed by Meeus' formulas in exact arithmetic, is 0.8333
    degrees below the horizon, to within 0.0009 in the sine of the altitude: about three minutes of arc. *)
Theorem C95_on_the_horizon : forall rnd lm (set : bool) jd lat lon, Nearest rnd -> accurate lm -> covered jd lat lon ->
  exists s, sun_event rnd lm set jd lat lon = Ok s /\
    Rabs (sun_altitude_sine (Q2R lat) (Q2R lon) (Q2R s) - sind (-0.8333)) <= 0.0009.
Proof.
  intros rnd lm set jd lat lon N A C. destruct (event_place rnd lm set jd lat lon N A C) as (H & s & _ & _ & E & _ & F). exists s. split; [exact E|].
  replace (sind (-0.8333)) with (- sind 0.8333); [unfold Rminus; rewrite Ropp_involutive; exact F|]. unfold sind. rewrite <- sin_neg. f_equal. lra.
Qed.
Print Assumptions C95_on_the_horizon.
(** There is one and only one moment of the morning at which the exact sun rises, one and only one of the evening at
    which it sets, and the code's is less than 29 seconds from it, less than 23 up to 45
    degrees from the equator. *)
Theorem C95_true_sunset : forall rnd lm (set : bool) jd lat lon, Nearest rnd -> accurate lm -> covered jd lat lon ->
  exists (H : Z) s (t : R),
    midnight H (Q2R lon) - 0.00000001 <= Q2R jd <= midnight (H + 1) (Q2R lon) + 0.00000001 /\
    sun_event rnd lm set jd lat lon = Ok s /\
    part_of_day set H (Q2R lon) t /\ sun_altitude_sine (Q2R lat) (Q2R lon) t = sind (-0.8333) /\
    (forall t', part_of_day set H (Q2R lon) t' -> sun_altitude_sine (Q2R lat) (Q2R lon) t' = sind (-0.8333) -> t' = t) /\
    Rabs (Q2R s - t) <= 29 / 86400 /\ (-45 <= Q2R lat <= 45 -> Rabs (Q2R s - t) <= 23 / 86400).
Proof.
  intros rnd lm set jd lat lon N A C. destruct (event_place rnd lm set jd lat lon N A C) as (H & s & [H1 H2] & D & E & W & F). destruct C as [J [LA LO]].
  assert (LE : sind (-0.8333) = - low_sun) by (unfold sind, low_sun, rad, AstroStep.OO; rewrite <- sin_neg; f_equal; lra).
  change (sind 0.8333) with low_sun in F. apply IZR_le in H1. apply IZR_le in H2. unfold midnight in D, W. rewrite plus_IZR in D.
  assert (SB : 1700001 <= Q2R s <= 2900001) by (destruct set; lra).
  assert (IR : forall x, 1700000 <= x <= 2900002 -> Rabs (centuries_of x) <= 20.59) by (intros x X; unfold centuries_of; apply Rabs_le_iff; lra).
  destruct (there_is_one_here (Q2R lat) (Q2R lon) (Q2R s) LA (IR (Q2R s) ltac:(lra)) F) as [t [T1 [T3 T2]]]. apply Rabs_le_iff in T1.
  exists H, s, t. unfold midnight. rewrite plus_IZR. split; [exact D|]. split; [exact E|]. split; [|split; [|split; [|split]]].
  - unfold part_of_day, midnight. destruct set; lra.
  - rewrite LE. exact T2.
  - intros t' P' T'. rewrite LE in T'. unfold part_of_day, midnight in P'. 
    assert (B' : Rabs (t' - t) <= 0.238 /\ 1700000 <= t' <= 2900002) by (destruct set; (split; [apply Rabs_le_iff|]; lra)). destruct B' as [B1 B2].
    pose proof (IR t' B2) as I'. pose proof (IR t ltac:(lra)) as I.
    apply (exactly_onew (Q2R lat) (Q2R lon) t t' LA); [unfold in_range; lra|unfold in_range; lra|exact B1|exact T2|exact T'].
  - apply Rabs_le_iff. lra.
  - intro L. specialize (T3 L). apply Rabs_le_iff in T3. apply Rabs_le_iff. lra.
Qed.
Print Assumptions C95_true_sunset.
Example C95_case : Nearest b64 /\ accurate real_libm /\ covered 2460000 (5148 # 100) 0.
Proof. split; [exact b64_nearest|]. split; [exact real_libm_accurate|]. unfold covered, Q2R. cbn [Qnum Qden]. repeat split; lra. Qed.
