(** PropertiesGreg.v -- C01..C04: Gregorian conversions.

    The float rounding [rnd] ranges over every round-to-nearest arithmetic ([Nearest], Flt.v); [b64] is a
    concrete one (ties to even).  [idr] is exact rational arithmetic.  Dates are (year, month, day) with the
    hour, minute and second arguments 0; the fraction of the day is carried by the day argument. *)
From Coq Require Import ZArith QArith Qround Qabs List.
From Verif Require Import Base Flt QUtil BaseModel SpecGreg GregModel GregProofs GregProofs2 MeeusProofs MeeusFloat.
Local Open Scope Q_scope.

(** C01: consecutive 1 Januaries are 366 days apart after a leap year of the chosen rule, else 365. *)
Theorem C01_year_length : forall rnd alt y, Nearest rnd -> (-1000000 <= y < 1000000)%Z ->
  exists j j', jd_from_gregorian_date rnd true alt y 1 1 0 0 0 = Ok j /\
    jd_from_gregorian_date rnd true alt (y + 1) 1 1 0 0 0 = Ok j' /\
    (leap_rule alt y -> j' == j + 366) /\ (~ leap_rule alt y -> j' == j + 365).
Proof. exact year_length_float. Qed.
Print Assumptions C01_year_length.

(** C01 in exact arithmetic, with no bound on the year. *)
Theorem C01_year_length_all_years : forall alt y,
  exists j j', jd_from_gregorian_date idr true alt y 1 1 0 0 0 = Ok j /\
    jd_from_gregorian_date idr true alt (y + 1) 1 1 0 0 0 = Ok j' /\
    (leap_rule alt y -> j' == j + 366) /\ (~ leap_rule alt y -> j' == j + 365).
Proof. exact year_length_exact. Qed.
Print Assumptions C01_year_length_all_years.

(** C01, day by day: the calendar successor of a date is one Julian day later. *)
Theorem C01_next_day : forall rnd y m d y' m' d',
  Nearest rnd -> (-1000000 <= y)%Z -> (y' <= 1000000)%Z ->
  valid_gdate (leap_rule false) y m d -> next_gday (leap_rule false) (y, m, d) (y', m', d') ->
  exists j j', jd_from_gregorian_date rnd true false y m (inject_Z d) 0 0 0 = Ok j /\
    jd_from_gregorian_date rnd true false y' m' (inject_Z d') 0 0 0 = Ok j' /\ j' == j + 1.
Proof. exact next_day_float. Qed.
Print Assumptions C01_next_day.

Example C01_case : Nearest b64 /\ leap_rule false 2000 /\ ~ leap_rule false 1900 /\ leap_rule true 1900 /\
  exists j, jd_from_gregorian_date b64 true false 2000 1 1 0 0 0 = Ok j /\ j == 4903085 # 2.
Proof.
  split; [exact b64_nearest|].
  split; [apply (is_leap_g_rule false); reflexivity|].
  split; [intro H; apply (is_leap_g_rule false) in H; discriminate|].
  split; [apply (is_leap_g_rule true); reflexivity|]. eexists. split; [vm_compute; reflexivity|reflexivity].
Qed.
Example C01_case_next : next_gday (leap_rule false) (2000, 2, 29)%Z (2000, 2 + 1, 1)%Z.
Proof. apply nd_month; [|reflexivity]. apply ml29. apply (is_leap_g_rule false). reflexivity. Qed.

(** C02: the exact decoder inverts the exact encoder below JD 3442845, for days with any fraction that is a
    multiple of 1/4096 (exactly representable), in every round-to-nearest arithmetic.  With the 4|128 rule
    one day is excepted, see [C02_alt_rule_refuted]. *)
Theorem C02_exact_round_trip : forall rnd alt y m d k,
  Nearest rnd -> (-1000000 <= y <= 1000000)%Z ->
  valid_gdate (leap_rule false) y m d -> valid_gdate (leap_rule alt) y m d -> (0 <= k < 4096)%Z ->
  (alt = true -> ~ ((y < 0)%Z /\ (128 | y)%Z /\ m = 12%Z /\ d = 31%Z /\ k = 0%Z)) ->
  exists j, jd_from_gregorian_date rnd true alt y m (inject_Z d + (k # 4096)) 0 0 0 = Ok j /\
    (j < 3442845 -> exists q, date_exact rnd alt j = Some (y, m, q) /\ q == inject_Z d + (k # 4096)).
Proof. exact round_trip_float. Qed.
Print Assumptions C02_exact_round_trip.

(** C02 in exact arithmetic for every fraction with up to twelve decimals. *)
Theorem C02_exact_round_trip_decimals : forall alt y m d dl,
  (-1000000 <= y)%Z ->
  valid_gdate (leap_rule false) y m d -> valid_gdate (leap_rule alt) y m d -> 0 <= dl < 1 ->
  (exists k, dl * inject_Z (10 ^ 12) == inject_Z k) ->
  (alt = true -> ~ ((y < 0)%Z /\ (128 | y)%Z /\ m = 12%Z /\ d = 31%Z /\ dl == 0)) ->
  exists j, jd_from_gregorian_date idr true alt y m (inject_Z d + dl) 0 0 0 = Ok j /\
    (j < 3442845 -> exists q, date_exact idr alt j = Some (y, m, q) /\ q == inject_Z d + dl).
Proof. exact round_trip_exact. Qed.
Print Assumptions C02_exact_round_trip_decimals.

(** The year search loop terminates: the fuelled model never runs out. *)
Theorem C02_decoder_terminates : forall rnd alt jd,
  Nearest rnd -> Qabs jd <= 200000000 -> date_exact rnd alt jd <> None.
Proof. exact date_exact_total. Qed.
Print Assumptions C02_decoder_terminates.

(** With the 4|128 rule 31 December of year -128 decodes to 30 November. *)
Theorem C02_alt_rule_refuted : exists j,
  jd_from_gregorian_date b64 true true (-128) 12 31 0 0 0 = Ok j /\
  exists q, date_exact b64 true j = Some ((-128)%Z, 11%Z, q) /\ q == 30.
Proof. exact alt_refuted. Qed.
Print Assumptions C02_alt_rule_refuted.

Example C02_case : valid_gdate (leap_rule false) (-4) 2 29 /\
  exists j, jd_from_gregorian_date b64 true false (-4) 2 (29 + (2048 # 4096)) 0 0 0 = Ok j /\ j < 3442845 /\
  exists q, date_exact b64 false j = Some ((-4)%Z, 2%Z, q) /\ q == 59 # 2.
Proof.
  split; [|eexists; split; [vm_compute; reflexivity|split; [reflexivity|eexists; split; [vm_compute; reflexivity|reflexivity]]]].
  exists 29%Z. split; [apply ml29, (is_leap_g_rule false); reflexivity|split; discriminate].
Qed.

(** C03: beyond the doubling point the decoder answers a December "day" below 1 for every date of the years
    4715..9999 outside December and 1..3 January. *)
Theorem C03_beyond_doubling_refuted : forall rnd y m d k, Nearest rnd -> (4715 <= y <= 9999)%Z ->
  valid_gdate (leap_rule false) y m d -> (0 <= k < 4096)%Z -> (m <= 11)%Z -> (2 <= m \/ 4 <= d)%Z ->
  exists j, jd_from_gregorian_date rnd true false y m (inject_Z d + (k # 4096)) 0 0 0 = Ok j /\ 3442845 <= j /\
    exists q, date_exact rnd false j = Some (y, 12%Z, q) /\ q < 1.
Proof. exact beyond_doubling. Qed.
Print Assumptions C03_beyond_doubling_refuted.

Example C03_case : exists j, jd_from_gregorian_date b64 true false 5000 7 4 0 0 0 = Ok j /\
  exists q, date_exact b64 false j = Some (5000%Z, 12%Z, q) /\ q == -149.
Proof. eexists. split; [vm_compute; reflexivity|]. eexists. split; [vm_compute; reflexivity|]. reflexivity. Qed.

(** C04: rejection.  Whole days with nonnegative month and day are rejected exactly when they do not exist in
    the proleptic Gregorian calendar or lie in the reform gap. *)
Theorem C04_meeus_rejects_exactly : forall rnd alt y m d,
  Nearest rnd -> (Z.abs y <= 1000000)%Z -> (0 <= m)%Z -> (0 <= d)%Z ->
  (jd_from_gregorian_date rnd false alt y m (inject_Z d) 0 0 0 = Err AssertionError <->
   ~ valid_gdate (leap_rule false) y m d \/ in_reform_gap y m d).
Proof. exact meeus_reject. Qed.
Print Assumptions C04_meeus_rejects_exactly.

(** Consecutive days of the historical calendar, both accepted, are one Julian day apart. *)
Theorem C04_meeus_next_day : forall rnd y m d y' m' d' alt,
  Nearest rnd -> (Z.abs y < 1000000)%Z ->
  hist_date y m d -> next_hist (y, m, d) (y', m', d') ->
  valid_gdate (leap_rule false) y m d -> valid_gdate (leap_rule false) y' m' d' ->
  exists j j', jd_from_gregorian_date rnd false alt y m (inject_Z d) 0 0 0 = Ok j /\
               jd_from_gregorian_date rnd false alt y' m' (inject_Z d') 0 0 0 = Ok j' /\ j' == j + 1.
Proof. exact meeus_next. Qed.
Print Assumptions C04_meeus_next_day.

(** Accepted dates are ordered as their Julian days. *)
Theorem C04_meeus_order : forall rnd y m d y' m' d' alt,
  Nearest rnd -> (Z.abs y <= 1000000)%Z -> (Z.abs y' <= 1000000)%Z ->
  valid_gdate (leap_rule false) y m d -> valid_gdate (leap_rule false) y' m' d' ->
  ~ in_reform_gap y m d -> ~ in_reform_gap y' m' d' -> earlier y m d y' m' d' ->
  exists j j', jd_from_gregorian_date rnd false alt y m (inject_Z d) 0 0 0 = Ok j /\
               jd_from_gregorian_date rnd false alt y' m' (inject_Z d') 0 0 0 = Ok j' /\ j + 1 <= j'.
Proof. exact meeus_order. Qed.
Print Assumptions C04_meeus_order.

(** The Meeus decoder inverts the Meeus encoder on accepted dates. *)
Theorem C04_meeus_round_trip : forall rnd y m d k alt,
  Nearest rnd -> (Z.abs y <= 1000000)%Z -> (0 <= k < 4096)%Z ->
  valid_gdate (leap_rule false) y m d -> ~ in_reform_gap y m d ->
  exists j, jd_from_gregorian_date rnd false alt y m (inject_Z d + (k # 4096)) 0 0 0 = Ok j /\
            exists q, date_meeus rnd j = (y, m, q) /\ q == inject_Z d + (k # 4096).
Proof. exact meeus_round_trip. Qed.
Print Assumptions C04_meeus_round_trip.

(** 29 February 1500 existed but is rejected; noon of the non-existing 10 October 1582 is accepted and gets
    the Julian day of noon of 20 October. *)
Theorem C04_julian_leap_day_refuted :
  hist_date 1500 2 29 /\
  jd_from_gregorian_date b64 false false 1500 2 29 0 0 0 = Err AssertionError.
Proof.
  split; [|vm_compute; reflexivity]. split.
  - exists 29%Z. split; [apply ml29; exists 375%Z; reflexivity|split; discriminate].
  - intros [H _]. discriminate.
Qed.
Print Assumptions C04_julian_leap_day_refuted.

Theorem C04_gap_noon_refuted : exists j,
  jd_from_gregorian_date b64 false false 1582 10 (10 + (1#2)) 0 0 0 = Ok j /\
  jd_from_gregorian_date b64 false false 1582 10 (20 + (1#2)) 0 0 0 = Ok j.
Proof. eexists. split; [vm_compute; reflexivity|]. vm_compute. reflexivity. Qed.
Print Assumptions C04_gap_noon_refuted.

Example C04_case : next_hist (1582, 10, 4)%Z (1582, 10, 15)%Z /\
  (exists j, jd_from_gregorian_date b64 false false 1582 10 4 0 0 0 = Ok j /\ j == 4598319 # 2) /\
  (exists j, jd_from_gregorian_date b64 false false 1582 10 15 0 0 0 = Ok j /\ j == 4598321 # 2) /\
  exists q, date_meeus b64 (4598319 # 2) = (1582%Z, 10%Z, q) /\ q == 4.
Proof. split; [apply nh_reform|]. split; [|split]; eexists; (split; [vm_compute; reflexivity|reflexivity]). Qed.
