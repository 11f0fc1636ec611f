(** PropertiesTs.v -- C80 and C81: dates and datetimes from time stamps. *)
From Coq Require Import ZArith QArith Qround Qabs List Bool Lia Lqa Setoid Morphisms.
From Coq Require Import ZifyBool ZifyNat ZifyN.
From Verif Require Import Base Flt QUtil BaseModel MiscModel BadiModel SpecBadi BaseProofs SunProofs BadiProofs BadiProofs2 DecProofs BadiProofs4 BadiProofs5 LongYear DateModel TimeModel TsModel SpecDate SpecTime SpecTs TduProofs TduProofs2 TduProofs3 DateProofs TimeProofs TsProofs
  SampleSun PropertiesBadi PropertiesDate PropertiesTime PropertiesDt PropertiesDt2.
Import ListNotations.
Local Open Scope Q_scope.
Ltac Zify.zify_post_hook ::= Z.div_mod_to_equations.

(** ** C80: the day and the clock of a time stamp *)
(** [sp] and [sq] are the sunsets opening day (y, mo, d) and the next.  From a tenth of a millisecond after the
    first until shortly before the second (and within 24 hours less 2.5 ms), except at mean midnight, fromtimestamp
    answers that day, and the clock is the time since the sunset to 4 ms; in either form, with any tzinfo that
    has no coordinates. *)
Theorem C80_day_and_clock : forall rnd m short tzi y mo d y' mo' d' sp sq t, Nearest rnd -> evening rnd m ->
  (-1843 <= y <= 1160)%Z -> next_bday (leap_of rnd m) (y, mo, d) (y', mo', d') -> ~ In (y, mo, d) irregular_bdates ->
  to_jd rnd m (bd y mo d) = Ok sp -> to_jd rnd m (bd y' mo' d') = Ok sq ->
  stamp_of sp + (1 # 10000) <= t -> t <= stamp_of sq - (1 # 10000) -> t <= stamp_of sp + 86400 - (1 # 400) -> ~ midnight_stamp t ->
  exists p h mi s u, denotes p y mo d /\ is_short p = short /\
    date_fromtimestamp rnd m short t (TEHRAN_LAT rnd) (TEHRAN_LON rnd) = Ok p /\
    dt_fromtimestamp rnd m short tzi t (TEHRAN_LAT rnd) (TEHRAN_LON rnd) =
      Ok {| dt_d := p; dt_h := h; dt_mi := mi; dt_s := s; dt_us := u; dt_tz := tzi; dt_fold := 0 |} /\
    plain_clock h mi s u /\ Qabs ((clock_us h mi s u # 1000000) - (t - stamp_of sp)) < 4 # 1000.
Proof. intros rnd m short tzi y mo d y' mo' d' sp sq t N E. exact (stamp_day rnd N m E short tzi y mo d y' mo' d' sp sq t). Qed.
Print Assumptions C80_day_and_clock.

(** Whatever the stamp: a datetime that is returned is valid, in the form asked for, and carries the tzinfo given.
    Only the long form can show hour 24, and then as 24:00:00. *)
Theorem C80_result_valid : forall rnd m short tzi t a, Nearest rnd -> evening rnd m ->
  dt_fromtimestamp rnd m short tzi t (TEHRAN_LAT rnd) (TEHRAN_LON rnd) = Ok a ->
  exists y mo d, denotes (dt_d a) y mo d /\ (-1843 <= y <= 1161)%Z /\ valid_bday (leap_of rnd m) y mo d /\ is_short (dt_d a) = short /\ dt_tz a = tzi /\ dt_fold a = 0%Z /\
    (plain_clock (dt_h a) (dt_mi a) (dt_s a) (dt_us a) \/ (short = false /\ dt_h a = 24 /\ dt_mi a = 0 /\ dt_s a = 0 /\ dt_us a = 0)%Z).
Proof. intros rnd m short tzi t a N E. exact (stamp_valid rnd N m E short tzi t a). Qed.
Print Assumptions C80_result_valid.

(** The offset of the tzinfo is not applied: the fields are those of the naive call. *)
Theorem C80_zone_not_applied : forall rnd m short z t lat lon, 
  dt_fromtimestamp rnd m short (Some z) t lat lon =
  match dt_fromtimestamp rnd m short None t lat lon with
  | Ok a => Ok {| dt_d := dt_d a; dt_h := dt_h a; dt_mi := dt_mi a; dt_s := dt_s a; dt_us := dt_us a; dt_tz := Some z; dt_fold := dt_fold a |}
  | Err e => Err e
  end.
Proof.
  intros rnd m short z t lat lon. unfold dt_fromtimestamp. destruct (badi_date_from_timestamp _ _ _ _ _ _ _ _ _ _) as [b|e]; [|reflexivity]. cbn [bind].
  destruct (skipn _ _) as [|h [|mi [|s [|us [|? ?]]]]]; try reflexivity. rewrite !dt_new_eq.
  destruct (_ && _)%bool; destruct (date_new _ _ _) as [p|e]; reflexivity.
Qed.
Print Assumptions C80_zone_not_applied.
(** So one stamp read in two zones gives two different instants, though a time stamp is an instant. *)
Theorem C80_two_zones_refuted : exists a b, let t := stamp_of (4920000 # 2) in
  dt_fromtimestamp b64 sample_sun true (mk_tz 0 0) t (TEHRAN_LAT b64) (TEHRAN_LON b64) = Ok a /\
  dt_fromtimestamp b64 sample_sun true (mk_tz 1 3600000000) t (TEHRAN_LAT b64) (TEHRAN_LON b64) = Ok b /\
  dt_eq b64 sample_sun a b = Ok false /\ dt_sub b64 sample_sun a b = Ok 3600000000%Z.
Proof. do 2 eexists. cbv zeta. split; [vm_compute; reflexivity|]. split; [vm_compute; reflexivity|]. split; vm_compute; reflexivity. Qed.
Print Assumptions C80_two_zones_refuted.

(** 5 Jamal 181 at 03:25: the hypotheses of C80 and C81 hold and the answers are computed. *)
Example C80_case : let t := 1714500000 in
  next_bday (leap_of b64 sample_sun) (181, 3, 5)%Z (181, 3, 6)%Z /\ ~ In (181, 3, 5)%Z irregular_bdates /\
  (exists sp sq, to_jd b64 sample_sun (bd 181 3 5) = Ok sp /\ to_jd b64 sample_sun (bd 181 3 6) = Ok sq /\
     stamp_of sp + (1 # 10000) <= t /\ t <= stamp_of sq - (1 # 10000) /\ t <= stamp_of sp + 86400 - (1 # 400)) /\ ~ midnight_stamp t /\
  date_fromtimestamp b64 sample_sun true t (TEHRAN_LAT b64) (TEHRAN_LON b64) = Ok (DShort 181 3 5) /\
  dt_fromtimestamp b64 sample_sun false None t (TEHRAN_LAT b64) (TEHRAN_LON b64) =
    Ok {| dt_d := DLong 1 10 10 3 5; dt_h := 3; dt_mi := 25; dt_s := 9; dt_us := 289200; dt_tz := None; dt_fold := 0 |}.
Proof.
  cbv zeta. split; [apply (nb_day _ 181 3 5); [lia|vm_compute; split; [discriminate|reflexivity]]|]. split.
  { unfold irregular_bdates, after_reform. cbn [skipped_bdates after_skipped reform_bdates app In]. intro I. repeat (destruct I as [I|I]; [congruence|]). exact I. }
  split.
  { do 2 eexists. split; [vm_compute; reflexivity|]. split; [vm_compute; reflexivity|]. split; [vm_compute; discriminate|]. split; vm_compute; discriminate. }
  split.
  { intros [k K]. apply Qabs_Qlt_condition in K. setoid_replace (1714500000 / 86400) with (79375 # 4) in K by reflexivity.
    assert (A : inject_Z 2460429 < inject_Z k) by (change (inject_Z 2460429) with 2460429; lra). assert (B : inject_Z k < inject_Z 2460430) by (change (inject_Z 2460430) with 2460430; lra).
    rewrite <- Zlt_Qlt in A, B. lia. }
  split; vm_compute; reflexivity.
Qed.

(** ** C81: round trips *)
(** A naive short datetime of whole seconds: timestamp() and back, to either form, gives the same day and the
    clock to 4 ms. *)
Theorem C81_naive_round_trip : forall rnd m short a y mo d y' mo' d' sp sq c, Nearest rnd -> evening rnd m ->
  (-1843 <= y <= 1160)%Z -> next_bday (leap_of rnd m) (y, mo, d) (y', mo', d') -> ~ In (y, mo, d) irregular_bdates ->
  to_jd rnd m (bd y mo d) = Ok sp -> to_jd rnd m (bd y' mo' d') = Ok sq ->
  dt_d a = DShort y mo d -> plain_clock (dt_h a) (dt_mi a) (dt_s a) (dt_us a) -> dt_us a = 0%Z -> c = (dt_h a * 3600 + dt_mi a * 60 + dt_s a)%Z ->
  stamp_of sp + inject_Z c < stamp_of sq - (1 # 1000) -> c = 0%Z \/ ~ midnight_stamp (stamp_of sp + inject_Z c) ->
  exists t p h mi s u, dt_timestamp_naive rnd m a = Ok t /\ denotes p y mo d /\ is_short p = short /\
    date_fromtimestamp rnd m short t (TEHRAN_LAT rnd) (TEHRAN_LON rnd) = Ok p /\
    dt_fromtimestamp rnd m short None t (TEHRAN_LAT rnd) (TEHRAN_LON rnd) =
      Ok {| dt_d := p; dt_h := h; dt_mi := mi; dt_s := s; dt_us := u; dt_tz := None; dt_fold := 0 |} /\
    plain_clock h mi s u /\ (Z.abs (clock_us h mi s u - c * 1000000) < 4000)%Z.
Proof. intros rnd m short a y mo d y' mo' d' sp sq c N E. exact (stamp_trip rnd N m E short a y mo d y' mo' d' sp sq c). Qed.
Print Assumptions C81_naive_round_trip.

(** An aware datetime in UTC: timestamp() of fromtimestamp(t, utc) is not [t]; it is off by how much earlier the sun
    sets, on that day at Tehran, than 14427.5 seconds after the Julian date [r + 1721423] of the day (the sunset
    of the epoch constant, 126-16-02). *)
Theorem C81_aware_off_by_sunset : forall rnd m utc y mo d y' mo' d' r sp sq t, Nearest rnd -> evening rnd m -> naw_ruz_order rnd m -> tz_off utc = Some 0%Z ->
  (-1842 <= y <= 1160)%Z -> ~ In y stale_years -> next_bday (leap_of rnd m) (y, mo, d) (y', mo', d') -> ~ In (y, mo, d) irregular_bdates -> rata_die rnd m y mo d r ->
  to_jd rnd m (bd y mo d) = Ok sp -> to_jd rnd m (bd y' mo' d') = Ok sq ->
  stamp_of sp + (1 # 10000) <= t -> t <= stamp_of sq - (1 # 10000) -> t <= stamp_of sp + 86400 - (1 # 400) -> ~ midnight_stamp t ->
  exists a t', dt_fromtimestamp rnd m true (Some utc) t (TEHRAN_LAT rnd) (TEHRAN_LON rnd) = Ok a /\
    dt_timestamp_aware rnd m utc a = Ok t' /\
    Qabs (t' - t - ((144275076 # 10000) - (sp - inject_Z (r + 1721423)) * 86400)) < 5 # 1000.
Proof.
  intros rnd m utc y mo d y' mo' d' r sp sq t N E O U Y ST NX I R SP SQ T1 T2 T3 NM.
  destruct (stamp_day rnd N m E true (Some utc) y mo d y' mo' d' sp sq t ltac:(lia) NX I SP SQ T1 T2 T3 NM) as (p & h & mi & s & u & P1 & P2 & _ & P4 & P5 & P6).
  set (a := {| dt_d := p; dt_h := h; dt_mi := mi; dt_s := s; dt_us := u; dt_tz := Some utc; dt_fold := 0 |}) in *.
  destruct (next_sizes rnd N m E y mo d y' mo' d' sp sq ltac:(lia) NX SP SQ) as (V & RP & RQ & _).
  assert (L : on_line rnd m a (r * 86400000000 + clock_us h mi s u)).
  { exists y, mo, d, r. split; [split; [exact P1|]; split; [lia|exact V]|]. split; [exact R|reflexivity]. }
  destruct (C47_aware rnd m utc a _ 0 N E O L) as (l0 & _ & L0 & t' & T' & TV).
  { intros y1 mo1 d1 D1. destruct (denotes_unique _ _ _ _ _ _ _ P1 D1) as (<- & _). exact ST. }
  { unfold good_offset, a. cbn [dt_tz offset]. rewrite U. intros o Q. injection Q as <-. lia. }
  { unfold a. cbn [dt_tz offset]. exact U. }
  { exact U. }
  { unfold coherent. intros _. reflexivity. }
  exists a, t'. split; [exact P4|]. split; [exact T'|].
  set (x := clock_us h mi s u) in *. set (g := (r * 86400000000 + x - 0 - l0)%Z) in *.
  assert (GX : inject_Z g / 1000000 == inject_Z (r - 719162) * 86400 + (x # 1000000) - (287724924 # 10000)).
  { unfold g. rewrite L0. unfold Qdiv, Qminus, Qopp, Qplus, Qmult, Qinv, inject_Z, Qeq. cbn [Qnum Qden]. lia. }
  assert (XR : 0 <= (x # 1000000) <= 86400).
  { unfold x, clock_us, plain_clock in *. unfold Qle. cbn [Qnum Qden]. lia. }
  assert (RR : (-300 <= r <= 1100000)%Z).
  { destruct R as (z & Z & ->). pose proof (ok_of rnd N m E y mo d ltac:(lia) V) as K. pose proof (rata_die_zrd rnd N m E y mo d) as RZ.
    destruct K as (K2 & K3 & K4). pose proof (rd_range y mo d K2 K3 K4) as B. pose proof (ystart_mono (-1843) y ltac:(lia) ltac:(lia)) as B1. pose proof (ystart_mono (y + 1) 1162 ltac:(lia) ltac:(lia)) as B2.
    change (ystart (-1843)) with (-287)%Z in B1. let v := eval vm_compute in (ystart 1162) in change (ystart 1162) with v in B2.
    assert (Q : (z + bday_of_year (leap_of rnd m y) mo d - 1)%Z = zrd y mo d) by (apply (RZ _ K2 K3); exists z; split; [exact Z|reflexivity]). lia. }
  assert (RQ' : -720000 <= inject_Z (r - 719162) <= 400000) by (change (-720000) with (inject_Z (-720000)); change 400000 with (inject_Z 400000); rewrite <- !Zle_Qle; lia).
  pose proof (near_k rnd N 37 (inject_Z g / 1000000) (1 # 131072) ltac:(rewrite GX; change (2 ^ 37) with 137438953472; apply Qabs_le_iff; split; lra) ltac:(discriminate)) as NE.
  rewrite <- TV, GX in NE. unfold stamp_of in P6. apply Qabs_Qlt_condition in P6. apply Qabs_Qlt_condition.
  replace (r + 1721423)%Z with (r - 719162 + 2440585)%Z by lia. rewrite inject_Z_plus. change (inject_Z 2440585) with 2440585. split; lra.
Qed.
Print Assumptions C81_aware_off_by_sunset.
(** Under the sample sun (18:00 all year round) the round trip through UTC is 85 minutes off. *)
Theorem C81_aware_round_trip_refuted : exists a t', let t := 1714500000 in let utc := {| tz_id := 0; tz_off := Some 0%Z |} in
  dt_fromtimestamp b64 sample_sun true (Some utc) t (TEHRAN_LAT b64) (TEHRAN_LON b64) = Ok a /\
  dt_timestamp_aware b64 sample_sun utc a = Ok t' /\ 5000 < t' - t.
Proof. do 2 eexists. cbv zeta. split; [vm_compute; reflexivity|]. split; [vm_compute; reflexivity|]. vm_compute. reflexivity. Qed.
Print Assumptions C81_aware_round_trip_refuted.
Example C81_case : exists t, let a := mk_dt 181 3 5 3 25 9 0 None in
  plain_clock (dt_h a) (dt_mi a) (dt_s a) (dt_us a) /\ dt_timestamp_naive b64 sample_sun a = Ok t /\
  dt_fromtimestamp b64 sample_sun true None t (TEHRAN_LAT b64) (TEHRAN_LON b64) = Ok (mk_dt 181 3 5 3 25 9 1200 None).
Proof. eexists. cbv zeta. split; [unfold plain_clock; cbn; lia|]. split; [vm_compute; reflexivity|]. vm_compute. reflexivity. Qed.
