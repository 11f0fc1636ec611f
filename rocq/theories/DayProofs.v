(** DayProofs.v -- the length of a day from sunset to sunset (proof support). *)
From Coq Require Import ZArith QArith Qround Qabs Qreals Lqa Reals Lra Lia List Bool.
From Coq Require Import ZifyBool.
From Verif Require Import Base Flt QUtil BaseModel BaseProofs BaseProofs2 BadiModel SpecBadi SunProofs BadiProofs BadiProofs2 BadiProofs3 BadiProofs4 AstroModel SpecAstro AstroReal AstroReal2 AstroFlt AstroApx AstroSun AstroRA AstroRise5 AstroDay PropertiesAstro.
Import ListNotations.
Local Open Scope R_scope.

Section Day.
Variable rnd : Q -> Q.
Hypothesis N : Nearest rnd.
Variable lm : libm.
Hypothesis A : accurate lm.

(** sunrise or sunset of the local day a moment is in, and the fraction of the day it was computed from *)
Lemma event_at (set : bool) jd lat lon : 1700003 <= Q2R jd <= 2899998 -> Rabs (Q2R lat) <= 52 -> Rabs (Q2R lon) <= 180 ->
  exists x v s, Rabs (Q2R x - midnight (day_of rnd jd lon) (Q2R lon)) <= 0.00000001 /\
    rising_setting rnd lm set x lat lon (SUN_OFFSET rnd) = Ok v /\ sun_event rnd lm set jd lat lon = Ok s /\
    Rabs (Q2R s - (midnight (day_of rnd jd lon) (Q2R lon) + Q2R v)) <= 0.00000003.
Proof.
  intros J LA' LO'. destruct (local_midnight_R rnd N jd lon J LO') as [HR M]. set (H := day_of rnd jd lon) in *.
  assert (HJ : Rabs (Q2R (local_midnight rnd jd lon) - (IZR H - 1 / 2 - Q2R lon / 360)) <= 0.0000001) by (unfold midnight in M; lra).
  destruct (rising_R rnd N lm A set (local_midnight rnd jd lon) lat lon H HR LA' LO' HJ) as [v [S1 [S2 _]]].
  exists (local_midnight rnd jd lon), v. eexists. split; [exact M|]. split; [exact S1|]. unfold sun_event. cbv zeta. rewrite S1. cbn [bind]. split; [reflexivity|].
  assert (V : 0 <= Q2R v <= 1) by (destruct set; lra).
  destruct HR as [H1 H2]. apply IZR_le in H1. apply IZR_le in H2. apply Rabs_le_iff in M. apply Rabs_le_iff in LO'. unfold midnight in *.
  assert (F : Rabs (Q2R (fadd rnd (local_midnight rnd jd lon) v) - (Q2R (local_midnight rnd jd lon) + Q2R v)) <= 3000000 * u) by (apply fadd_R; [exact N|apply Rabs_le_iff; lra]).
  unfold u in F. apply Rabs_le_iff in F. set (s := fadd rnd _ v) in *.
  assert (SB : (Qabs s <= 8388607)%Q) by (apply Qabs_le_iff; split; apply Rle_Qle; try rewrite Q2R_opp; rewrite Q2R_lit; lra).
  destruct (round12_near rnd N s SB) as [R1 R2]. apply Qle_Rle in R1. apply Qle_Rle in R2. rewrite Q2R_minus in R1. rewrite Q2R_plus in R2.
  assert (K : Q2R (1 # 1073741824) <= 0.000000001) by (unfold Q2R; cbn [Qnum Qden]; lra). apply Rabs_le_iff. lra.
Qed.
Lemma day_of_eq jd lon H : 1700003 <= Q2R jd <= 2899998 -> Rabs (Q2R lon) <= 180 ->
  midnight H (Q2R lon) + 0.00000002 <= Q2R jd <= midnight (H + 1) (Q2R lon) - 0.00000002 -> day_of rnd jd lon = H.
Proof.
  intros J LO' E. pose proof (day_of_R rnd N jd lon J LO') as D. unfold midnight in *. rewrite !plus_IZR in *.
  assert (day_of rnd jd lon < H + 1)%Z by (apply lt_IZR; rewrite plus_IZR; lra). assert (H < day_of rnd jd lon + 1)%Z by (apply lt_IZR; rewrite plus_IZR; lra). lia.
Qed.
(** the moments of the event on days one and two apart *)
Lemma events_apart (set : bool) jd jd' lat lon s s' : 1700003 <= Q2R jd <= 2899998 -> 1700003 <= Q2R jd' <= 2899998 -> Rabs (Q2R lat) <= 52 -> Rabs (Q2R lon) <= 180 ->
  day_of rnd jd' lon = (day_of rnd jd lon + 1)%Z -> sun_event rnd lm set jd lat lon = Ok s -> sun_event rnd lm set jd' lat lon = Ok s' ->
  Rabs (Q2R s' - Q2R s - 1) <= 0.00461 /\ (Rabs (Q2R lat) <= 45 -> Rabs (Q2R s' - Q2R s - 1) <= 0.00381).
Proof.
  intros J J' LA LO DD E E'. destruct (event_at set jd lat lon J LA LO) as (x & v & r & X & V & R & F). rewrite R in E. injection E as <-.
  destruct (event_at set jd' lat lon J' LA LO) as (x' & v' & r' & X' & V' & R' & F'). rewrite R' in E'. injection E' as <-.
  destruct (local_midnight_R rnd N jd lon J LO) as [HR _]. destruct (local_midnight_R rnd N jd' lon J' LO) as [HR' _]. rewrite DD in *. set (H := day_of rnd jd lon) in *.
  unfold midnight in *. pose proof (next_day rnd N lm A set x x' lat lon H v v' ltac:(lia) LA LO ltac:(lra) ltac:(lra) V V') as [D D45].
  rewrite plus_IZR in F'. apply Rabs_le_iff in D. apply Rabs_le_iff in F. apply Rabs_le_iff in F'. split; [apply Rabs_le_iff; lra|]. intro L. specialize (D45 L). apply Rabs_le_iff in D45. apply Rabs_le_iff. lra.
Qed.

(** ** The sunsets of Tehran *)
Notation m := (astro_set rnd lm).
Notation LAT := (TEHRAN_LAT rnd).
Notation LON := (TEHRAN_LON rnd).
Lemma place : Rabs (Q2R LAT) <= 45 /\ Rabs (Q2R LON - 51.288701) <= 1 / 1000000000000.
Proof.
  assert (LON_ : apx LON 51.288701 52 (1 / 1000000000000)).
  { eapply apx_eq; [eapply apx_weaken; [apply (apx_litc rnd 51288701 1000000 N)| |]|]; cbn [Z.abs]; unfold u; lra. }
  assert (LAT_ : apx LAT 35.69435 36 (1 / 1000000000000)).
  { eapply apx_eq; [eapply apx_weaken; [apply (apx_litc rnd 3569435 100000 N)| |]|]; cbn [Z.abs]; unfold u; lra. }
  destruct LON_ as [LO _]. destruct LAT_ as [LA _]. split; [|exact LO]. apply Rabs_le_iff in LA. apply Rabs_le_iff. lra.
Qed.
Lemma arg_R H : (1700001 < H < 2900000)%Z -> Rabs (Q2R (arg rnd H) - (IZR H - 1 / 2 - Q2R LON / 360)) <= 0.00000001.
Proof.
  intro R. pose proof (arg_near rnd N H R) as [B1 B2]. unfold lf in *. destruct place as [_ LO]. apply Rabs_le_iff in LO.
  apply Qle_Rle in B1. apply Qle_Rle in B2. rewrite !Q2R_minus, Q2R_Z in B1. rewrite Q2R_plus, !Q2R_minus, Q2R_Z in B2.
  assert (C1 : Q2R (1 # 2) = 1 / 2) by (unfold Q2R; cbn [Qnum Qden]; lra).
  assert (C2 : Q2R (51288701 # 360000000) = 51.288701 / 360) by (unfold Q2R; cbn [Qnum Qden]; lra).
  rewrite C1, C2 in B1, B2. apply Rabs_le_iff. lra.
Qed.
Lemma mu_next H : (1700001 < H < 2899999)%Z -> Rabs (Q2R (mu rnd m (H + 1)) - Q2R (mu rnd m H)) <= 0.0038.
Proof.
  intro R. destruct place as [LA LO]. assert (LO' : Rabs (Q2R LON) <= 180) by (apply Rabs_le_iff in LO; apply Rabs_le_iff; lra).
  assert (LA52 : Rabs (Q2R LAT) <= 52) by lra. pose proof (arg_R H ltac:(lia)) as X. pose proof (arg_R (H + 1) ltac:(lia)) as X'.
  destruct (rising_R rnd N lm A true (arg rnd H) LAT LON H ltac:(lia) LA52 LO' ltac:(lra)) as [v [V _]].
  destruct (rising_R rnd N lm A true (arg rnd (H + 1)) LAT LON (H + 1) ltac:(lia) LA52 LO' ltac:(lra)) as [v' [V' _]].
  unfold mu, astro_set. rewrite V, V'. apply (next_day rnd N lm A true (arg rnd H) (arg rnd (H + 1)) LAT LON H v v'); [lia|exact LA52|exact LO'|lra|lra|exact V|exact V'|exact LA].
Qed.
Hypothesis EV : evening rnd m.

(** the civil day after [E]: the number of days added to it stays, or grows by one *)
Lemma HI_next E : zgap (2 * E) = false -> zgap (2 * (E + 1)) = false -> (HI (E + 1) = HI E + 1 \/ (HI (E + 1) = HI E + 2 /\ E < 2299158))%Z.
Proof.
  unfold zgap, HI. intros G G'. pose proof (zdiff_m_cases (2 * E)) as C. pose proof (zdiff_m_cases (2 * (E + 1))) as C'. cbv zeta in C, C'.
  set (n := zdiff (2 * E) meeus_breaks) in *. set (n' := zdiff (2 * (E + 1)) meeus_breaks) in *. clearbody n n'. lia.
Qed.
Lemma day_lasts y mo d y' mo' d' j j' : (-1843 <= y <= 1161)%Z -> (y' <= 1161)%Z -> next_bday (leap_of rnd m) (y, mo, d) (y', mo', d') ->
  (y, mo, d) <> after_reform -> (y', mo', d') <> after_reform ->
  to_jd rnd m (bd y mo d) = Ok j -> to_jd rnd m (bd y' mo' d') = Ok j' ->
  (Qabs (j' - j - 1) <= 77 # 10000)%Q /\ ((-260 <= y)%Z -> (Qabs (j' - j - 1) <= 381 # 100000)%Q).
Proof.
  intros Y Y1 NX X X' J J'. destruct (next_valid _ _ _ _ _ _ _ NX) as (M & D & M' & D' & YY).
  assert (Y' : (-1843 <= y' <= 1161)%Z) by lia.
  assert (V : valid_bday (leap_of rnd m) y mo d) by (split; assumption). assert (V' : valid_bday (leap_of rnd m) y' mo' d') by (split; assumption).
  assert (I : ~ In (y, mo, d) (skipped_bdates ++ reform_bdates ++ [after_reform])).
  { rewrite app_assoc. intro I. apply in_app_or in I. destruct I as [I|[I|[]]]; [|congruence].
    apply (to_jd_refused rnd N m EV y mo d Y V) in I. congruence. }
  assert (I' : ~ In (y', mo', d') (skipped_bdates ++ reform_bdates ++ [after_reform])).
  { rewrite app_assoc. intro I'. apply in_app_or in I'. destruct I' as [I'|[I'|[]]]; [|congruence].
    apply (to_jd_refused rnd N m EV y' mo' d' Y' V') in I'. congruence. }
  destruct (to_jd_at rnd N m EV y mo d (ystart y) Y V I (year_table_ok rnd N m EV y ltac:(lia))) as (k & K & _ & _ & _ & G & _ & C).
  destruct (to_jd_at rnd N m EV y' mo' d' (ystart y') Y' V' I' (year_table_ok rnd N m EV y' ltac:(lia))) as (k' & K' & _ & _ & _ & G' & _ & C').
  assert (k = j) by congruence. assert (k' = j') by congruence. subst k k'.
  rewrite (leap_of_ok rnd N m EV) in * by assumption. rewrite doy_dbm in * by assumption.
  assert (NX' : next_bday zleap (y, mo, d) (y', mo', d')).
  { apply (next_ext (leap_of rnd m)); [cbn [fst]; apply (leap_of_ok rnd N m EV); exact Y|exact NX]. }
  pose proof (rd_next _ _ NX') as RN. cbv beta iota in RN. specialize (RN Y).
  pose proof (rd_range y mo d Y M D) as RR.
  pose proof (ystart_range y ltac:(lia)) as YR. pose proof (ystart_range (y + 1) ltac:(lia)) as YR1.
  assert (LE : (-260 <= y)%Z -> (577740 <= zrd y mo d)%Z).
  { intro P. pose proof (ystart_mono (-260) y ltac:(lia) ltac:(lia)) as MO. assert (577740 <= ystart (-260))%Z by (apply Z.leb_le; vm_compute; reflexivity). lia. }
  set (E := (ystart y + (zdbm (zleap y) mo + d) + 1721422)%Z) in *.
  assert (EZ : E = (zrd y mo d + 1721423)%Z) by (unfold E, zrd; lia).
  assert (EE : (ystart y' + (zdbm (zleap y') mo' + d') + 1721422 = E + 1)%Z) by (unfold zrd in *; lia). rewrite EE in *.
  assert (RG : (1700010 < E < 2899900)%Z) by lia.
  assert (RH : (E <= HI E <= E + 12)%Z) by (unfold HI; pose proof (zdiff_m_range (2 * E)); lia).
  pose proof (arg_R (HI E) ltac:(lia)) as AR.
  change (m (arg rnd (HI E)) LAT LON) with (mu rnd m (HI E)) in C. change (m (arg rnd (HI (E + 1))) LAT LON) with (mu rnd m (HI (E + 1))) in C'.
  apply Qabs_R in C. apply Qabs_R in C'. rewrite Q2R_minus, Q2R_plus, Q2R_minus, Q2R_Z in C, C'. rewrite minus_IZR in C, C'.
  apply Rabs_le_iff in C. apply Rabs_le_iff in C'.
  pose proof (mu_next (HI E) ltac:(lia)) as M1. apply Rabs_le_iff in M1.
  assert (FIN : Rabs (Q2R j' - Q2R j - 1) <= 0.0077 /\ ((-260 <= y)%Z -> Rabs (Q2R j' - Q2R j - 1) <= 0.00381)).
  { destruct (HI_next E G G') as [HN|[HN EB]]; rewrite HN in C'.
    - pose proof (arg_R (HI E + 1) ltac:(lia)) as AR'. rewrite !plus_IZR in *. apply Rabs_le_iff in AR. apply Rabs_le_iff in AR'. split; [|intros _]; apply Rabs_le_iff; lra.
    - split; [|intro P; specialize (LE P); lia].
      pose proof (mu_next (HI E + 1) ltac:(lia)) as M2. replace (HI E + 1 + 1)%Z with (HI E + 2)%Z in M2 by lia. apply Rabs_le_iff in M2.
      pose proof (arg_R (HI E + 2) ltac:(lia)) as AR'. rewrite !plus_IZR in *. apply Rabs_le_iff in AR. apply Rabs_le_iff in AR'. apply Rabs_le_iff. lra. }
  assert (C9 : Q2R 1 = 1) by (unfold Q2R; cbn [Qnum Qden]; lra).
  split; [|intro P]; apply R_Qabs; rewrite !Q2R_minus, C9; tauto.
Qed.
End Day.
