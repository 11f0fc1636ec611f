(** PropertiesBase.v -- C05, C40, C41, C46, C49..C53: numeric helpers. *)
From Coq Require Import ZArith QArith Qround Qabs List Bool String Morphisms.
From Verif Require Import Base Flt QUtil BaseModel SpecGreg SpecMisc GregModel GregProofs GregProofs2 MeeusFloat BaseProofs BaseProofs2
  MiscModel MiscProofs MiscProofs2.
Import ListNotations.
Local Open Scope Q_scope.

(** ** C05: exact and historical Julian days.  A JD is a binary fraction z / 2^31; every float JD up to four
    million with a resolution of 2^-31 day (40 microseconds) is one. *)
Theorem C05_exact_to_historical_and_back : forall rnd z j,
  Nearest rnd -> (Z.abs z <= 2 ^ 53 - 12 * 2 ^ 31)%Z ->
  meeus_from_exact rnd (z # 2147483648) = Ok j ->
  exists e, exact_from_meeus rnd j = Ok e /\ e == z # 2147483648.
Proof. intros rnd z j N Z H. exact (exact_meeus_inverse rnd _ j (near_proper rnd N) (shiftable_dyadic rnd z N Z) H). Qed.
Print Assumptions C05_exact_to_historical_and_back.

Theorem C05_historical_to_exact_and_back : forall rnd z j,
  Nearest rnd -> (Z.abs z <= 2 ^ 53 - 12 * 2 ^ 31)%Z ->
  exact_from_meeus rnd (z # 2147483648) = Ok j ->
  exists e, meeus_from_exact rnd j = Ok e /\ e == z # 2147483648.
Proof. intros rnd z j N Z H. exact (meeus_exact_inverse rnd _ j (near_proper rnd N) (shiftable_dyadic rnd z N Z) H). Qed.
Print Assumptions C05_historical_to_exact_and_back.

(** both directions for every rational JD, in exact arithmetic *)
Theorem C05_inverse_all_rationals : forall jd j,
  (meeus_from_exact idr jd = Ok j -> exists e, exact_from_meeus idr j = Ok e /\ e == jd) /\
  (exact_from_meeus idr jd = Ok j -> exists e, meeus_from_exact idr j = Ok e /\ e == jd).
Proof.
  intros jd j. split; intro H.
  - exact (exact_meeus_inverse idr jd j idr_proper (shiftable_idr jd) H).
  - exact (meeus_exact_inverse idr jd j idr_proper (shiftable_idr jd) H).
Qed.
Print Assumptions C05_inverse_all_rationals.

(** Errors: exact -> historical fails exactly on the reform gap; historical -> exact fails exactly on the day
    after 28 February of the twelve century years that are Julian but not Gregorian leap years. *)
Theorem C05_gap_rejected_exactly : forall rnd jd,
  (meeus_from_exact rnd jd = Err ValueError <-> 4598297 # 2 <= jd < 4598317 # 2) /\
  ((exists j, meeus_from_exact rnd jd = Ok j) \/ meeus_from_exact rnd jd = Err ValueError).
Proof. intros rnd jd. split; [exact (meeus_gap_iff rnd jd)|exact (meeus_total rnd jd)]. Qed.
Print Assumptions C05_gap_rejected_exactly.

Theorem C05_julian_leap_days_rejected_exactly : forall rnd jd alt, Nearest rnd ->
  (exact_from_meeus rnd jd = Err ValueError <->
   exists y j28, julian_only_leap y /\ jd_from_gregorian_date rnd false alt y 2 28 0 0 0 = Ok j28 /\ j28 + 1 <= jd < j28 + 2).
Proof. exact exact_err_iff. Qed.
Print Assumptions C05_julian_leap_days_rejected_exactly.

Theorem C05_both_increasing : forall rnd a b x y, Nearest rnd ->
  (Z.abs a <= 2 ^ 53 - 12 * 2 ^ 31)%Z -> (Z.abs b <= 2 ^ 53 - 12 * 2 ^ 31)%Z ->
  (a < b)%Z ->
  (meeus_from_exact rnd (a # 2147483648) = Ok x -> meeus_from_exact rnd (b # 2147483648) = Ok y -> x < y) /\
  (exact_from_meeus rnd (a # 2147483648) = Ok x -> exact_from_meeus rnd (b # 2147483648) = Ok y -> x < y).
Proof.
  intros rnd a b x y N A B L0. assert (L : (a # 2147483648) < (b # 2147483648)) by (unfold Qlt; cbn [Qnum Qden]; Lia.lia). split; intros H1 H2.
  - exact (meeus_increasing rnd _ _ x y (shiftable_dyadic rnd a N A) (shiftable_dyadic rnd b N B) L H1 H2).
  - exact (exact_increasing rnd _ _ x y (near_proper rnd N) (shiftable_dyadic rnd a N A) (shiftable_dyadic rnd b N B) L H1 H2).
Qed.
Print Assumptions C05_both_increasing.

(** The conversion maps the exact JD of a civil date to the historical JD of the same civil date, from
    1 March of the year -100 on. *)
Theorem C05_same_civil_date : forall rnd y m d k alt, Nearest rnd -> (y <= 1000000)%Z -> (0 <= k < 4096)%Z ->
  (-100 < y \/ (y = -100 /\ 3 <= m))%Z ->
  valid_gdate (leap_rule false) y m d -> ~ in_reform_gap y m d ->
  exists je jm j, jd_from_gregorian_date rnd true false y m (inject_Z d + (k # 4096)) 0 0 0 = Ok je /\
    jd_from_gregorian_date rnd false alt y m (inject_Z d + (k # 4096)) 0 0 0 = Ok jm /\
    meeus_from_exact rnd je = Ok j /\ j == jm.
Proof. exact same_date. Qed.
Print Assumptions C05_same_civil_date.

Example C05_case : exists j, meeus_from_exact b64 (4000001 # 2) = Ok j /\ j == 4000013 # 2 /\
  exists e, exact_from_meeus b64 j = Ok e /\ e == 4000001 # 2.
Proof.
  eexists. split; [vm_compute; reflexivity|]. split; [reflexivity|].
  eexists. split; [vm_compute; reflexivity|reflexivity].
Qed.
Example C05_case_rejected : julian_only_leap 1500 /\ exact_from_meeus b64 (4537983 # 2) = Err ValueError.
Proof.
  split; [|vm_compute; reflexivity]. split; [split; discriminate|]. split; [exists 15%Z; reflexivity|].
  intro H. apply Z.mod_divide in H; [discriminate H|discriminate].
Qed.

(** ** C40: integer division rounded half to even *)
Theorem C40_divide_and_round_half_even : forall a b, b <> 0%Z ->
  exists q, divide_and_round a b = Ok q /\ nearest_even a b q.
Proof. exact divide_and_round_nearest. Qed.
Print Assumptions C40_divide_and_round_half_even.

Example C40_case : divide_and_round 7 (-2) = Ok (-4)%Z /\ divide_and_round 5 2 = Ok 2%Z /\ divide_and_round (-7) 3 = Ok (-2)%Z.
Proof. repeat split. Qed.

(** ** C41: day fraction to clock time *)
Theorem C41_clock_time_valid_and_near : forall rnd dec h mi s, Nearest rnd ->
  hms_from_decimal_day rnd dec = (h, mi, s) ->
  (0 <= h <= 24)%Z /\ (0 <= mi <= 59)%Z /\ 0 <= s < 60 /\ (h = 24%Z -> mi = 0%Z /\ s == 0) /\
  Qabs ((inject_Z h * 3600 + inject_Z mi * 60 + s) - fmod1 rnd dec * 86400) < 2 # 1000.
Proof. intros rnd dec h mi s N. exact (hms_ok rnd N dec h mi s). Qed.
Print Assumptions C41_clock_time_valid_and_near.

Theorem C41_clock_time_microseconds : forall rnd dec h mi s us, Nearest rnd ->
  hmsu_from_decimal_day rnd dec = (h, mi, s, us) ->
  (0 <= h <= 24)%Z /\ (0 <= mi <= 59)%Z /\ (0 <= s <= 59)%Z /\ (0 <= us <= 999999)%Z /\
  (h = 24%Z -> mi = 0%Z /\ s = 0%Z /\ us = 0%Z) /\
  Qabs ((inject_Z h * 3600 + inject_Z mi * 60 + inject_Z s + (us # 1000000)) - fmod1 rnd dec * 86400) < 3 # 1000.
Proof. intros rnd dec h mi s us N. exact (hmsu_ok rnd N dec h mi s us). Qed.
Print Assumptions C41_clock_time_microseconds.

(** [fmod1] is the fractional part of a non-negative number of days. *)
Theorem C41_fraction_of_day : forall rnd dec, 0 <= dec -> fmod1 rnd dec == dec - inject_Z (Qfloor dec).
Proof. intros rnd dec H. exact (proj1 (fmod1_nonneg rnd dec H)). Qed.
Print Assumptions C41_fraction_of_day.

(** The tolerance is needed: 00:20:00 packed into a day fraction decodes to 00:19:59.9988.  Hour 24 does occur. *)
Theorem C41_exact_second_refuted : exists f, decimal_day_from_hms b64 0 20 0 0 = Ok f /\
  exists s, hms_from_decimal_day b64 f = (0%Z, 19%Z, s) /\ s == b64 (599988 # 10000).
Proof. eexists. split; [vm_compute; reflexivity|]. eexists. split; [vm_compute; reflexivity|]. reflexivity. Qed.
Print Assumptions C41_exact_second_refuted.
Example C41_case : exists s, hms_from_decimal_day b64 (b64 (999999999 # 1000000000)) = (24%Z, 0%Z, s) /\ s == 0.
Proof. eexists. split; [vm_compute; reflexivity|]. reflexivity. Qed.
Example C41_case_us : hmsu_from_decimal_day b64 (b64 (1 # 3)) = (8%Z, 0%Z, 0%Z, 0%Z).
Proof. vm_compute. reflexivity. Qed.

(** ** C46: the check on mutually exclusive flags accepts any odd number of flags, and none *)
Theorem C46_flags_accepted_iff_none_or_odd : forall l, xor_boolean l = true <->
  (count_occ bool_dec l true = 0 \/ Nat.Odd (count_occ bool_dec l true))%nat.
Proof. exact xor_boolean_count. Qed.
Print Assumptions C46_flags_accepted_iff_none_or_odd.
Theorem C46_three_flags_refuted : xor_boolean [true; true; true] = true /\
  forall a b c, xor_boolean [a; b; c] = false <-> (count_occ bool_dec [a; b; c] true = 2)%nat.
Proof. split; [reflexivity|]. intros [] [] []; cbn; split; congruence. Qed.
Print Assumptions C46_three_flags_refuted.
Example C46_case : xor_boolean [true; false; true] = false /\ xor_boolean [true; false; false] = true /\ xor_boolean [false; false] = true.
Proof. repeat split. Qed.

(** ** C49: angles, polynomials, interpolation (exact arithmetic) *)
Theorem C49_coterminal_angle : forall v,
  0 <= coterminal_angle idr v < 360 /\ exists k, coterminal_angle idr v == v + 360 * inject_Z k.
Proof. exact coterminal_ok. Qed.
Print Assumptions C49_coterminal_angle.
Theorem C49_horner_is_power_sum : forall x a, poly idr x a == power_sum x a.
Proof. exact poly_ok. Qed.
Print Assumptions C49_horner_is_power_sum.
Theorem C49_interpolation_exact_on_quadratics : forall a b c t n,
  let p x := a + b * x + c * x * x in
  interpolation_from_three idr (p (t - 1)) (p t) (p (t + 1)) n false == p (t + n).
Proof. exact interpolation_ok. Qed.
Print Assumptions C49_interpolation_exact_on_quadratics.
(** In binary64 a tiny negative angle gives 360 itself. *)
Theorem C49_float_360_refuted : coterminal_angle b64 (- (1 # 100000000000000000)) == 360.
Proof. vm_compute. reflexivity. Qed.
Print Assumptions C49_float_360_refuted.
Example C49_case : coterminal_angle idr (-(725)) == 355 /\ poly idr 2 [1; 2; 3] == 17 /\
  interpolation_from_three idr 1 4 9 (1#2) false == 25 # 4.
Proof. repeat split; reflexivity. Qed.

(** ** C50: degrees, minutes, seconds (exact arithmetic) *)
Theorem C50_dms_round_trip : forall c w dg mi s l, dms_from_decimal c w = Ok (dg, mi, s, l) ->
  (0 <= dg)%Z /\ (0 <= mi <= 59)%Z /\ 0 <= s < 60 /\
  (exists v, decimal_from_dms dg mi s l = Ok v /\ v == c) /\
  (upper w = "LAT"%string -> l = if Qltb c 0 then "S"%string else "N"%string) /\
  (upper w <> "LAT"%string -> l = if Qltb c 0 then "W"%string else "E"%string).
Proof. exact dms_spec. Qed.
Print Assumptions C50_dms_round_trip.
(** accepted words: abbreviations of latitude and longitude of at least three letters, in any case *)
Theorem C50_words_accepted : forall c w, (exists r, dms_from_decimal c w = Ok r) <->
  exists t, upper w = ("LAT" ++ t)%string /\ String.prefix t "ITUDE" = true \/
            upper w = ("LON" ++ t)%string /\ String.prefix t "GITUDE" = true.
Proof. exact dms_ok_iff. Qed.
Print Assumptions C50_words_accepted.
(** every longer abbreviation of "latitude" than "lat" yields a longitude letter *)
Theorem C50_latitude_letter_refuted : forall c t dg mi s l, t <> ""%string ->
  dms_from_decimal c ("LAT" ++ t) = Ok (dg, mi, s, l) -> l = "E"%string \/ l = "W"%string.
Proof.
  intros c t dg mi s l Ht H. destruct (dms_spec _ _ _ _ _ _ H) as (_ & _ & _ & _ & _ & X).
  rewrite X; [destruct (Qltb c 0); tauto|]. destruct t; [congruence|discriminate].
Qed.
Print Assumptions C50_latitude_letter_refuted.
Theorem C50_hours_of_degrees_round_trip : forall deg h m s, hms_from_degrees deg = (h, m, s) ->
  degrees_from_hms h m s == deg /\ (0 <= m <= 59)%Z /\ 0 <= s < 60 /\ (0 <= deg < 360 -> (0 <= h <= 23)%Z).
Proof. exact hms_degrees_ok. Qed.
Print Assumptions C50_hours_of_degrees_round_trip.
(** the sign comes from the letter alone: N and E give degrees + minutes/60 + seconds/3600 of the absolute number
    of degrees, S and W its opposite, other letters an error *)
Theorem C50_sign_from_letter : forall dg mi s l, decimal_from_dms dg mi s l =
  (let v := inject_Z (Z.abs dg) + inject_Z mi / 60 + s / 3600 in
   if String.eqb (upper l) "N" || String.eqb (upper l) "E" then Ok v
   else if String.eqb (upper l) "S" || String.eqb (upper l) "W" then Ok (- v) else Err AssertionError)%string.
Proof.
  intros dg mi s l. unfold decimal_from_dms. cbv zeta. cbn [existsb]. generalize (upper l). intros u.
  destruct (String.eqb_spec u "N"), (String.eqb_spec u "S"), (String.eqb_spec u "E"), (String.eqb_spec u "W");
    subst; try discriminate; reflexivity.
Qed.
Print Assumptions C50_sign_from_letter.
Example C50_case : exists s, dms_from_decimal (-(707 # 20)) "lon" = Ok (35%Z, 21%Z, s, "W"%string) /\ s == 0.
Proof. eexists. split; [vm_compute; reflexivity|]. reflexivity. Qed.
Example C50_case_lat : exists s, dms_from_decimal (-(707 # 20)) "Latitude" = Ok (35%Z, 21%Z, s, "W"%string) /\ s == 0.
Proof. eexists. split; [vm_compute; reflexivity|]. reflexivity. Qed.

(** ** C51: seconds to day, hour, minute, second (exact arithmetic) *)
Theorem C51_split_and_recombine : forall s d h mi sec, dhms_from_seconds idr s 0 = (d, h, mi, sec) ->
  (exists v, seconds_from_dhms idr d h mi sec 0 0 = Ok v /\ v == s) /\
  (0 <= mi <= 59)%Z /\ 0 <= sec < 60 /\ (d = 0 \/ d = 1)%Z /\ (d = 0%Z <-> s < 86400) /\
  ((0 <= h <= 23)%Z <-> 0 <= s < 172800).
Proof.
  intros s d h mi sec H. split; [exact (dhms_recombine _ _ _ _ _ H)|].
  destruct (dhms_ok _ _ _ _ _ H) as (_ & A & B & C & D & E & F & G & I).
  repeat (split; [assumption|]). exact (dhms_hour_range _ _ _ _ _ H).
Qed.
Print Assumptions C51_split_and_recombine.
Example C51_case : exists s, dhms_from_seconds idr (100000 + (1#4)) 0 = (1%Z, 3%Z, 46%Z, s) /\ s == 161 # 4.
Proof. eexists. split; [vm_compute; reflexivity|]. reflexivity. Qed.

(** ** C52: POSIX time stamps.  [n] days after 1 January 1970 and [t - 86400 n] seconds into the day. *)
Theorem C52_posix_timestamp : forall n y m d t, days_since_1970 n (y, m, d) -> (86400 * n <= t < 86400 * (n + 1))%Z ->
  exists fuel0, forall fuel, (fuel0 <= fuel)%nat ->
  ((m, d) <> (12, 31)%Z -> exists hh mi s, posix_timestamp fuel t = Some (Ok (y, m, d, hh, mi, s)) /\
     (0 <= hh < 24 /\ 0 <= mi < 60 /\ 0 <= s < 60 /\ hh * 3600 + mi * 60 + s = t - 86400 * n)%Z) /\
  ((m, d) = (12, 31)%Z -> posix_timestamp fuel t = Some (Err AssertionError)).
Proof. exact posix_ok. Qed.
Print Assumptions C52_posix_timestamp.
(** one second before the epoch decodes as 2 January 1970 *)
Theorem C52_negative_refuted : posix_timestamp 9 (-1) = Some (Ok (1970, 1, 2, 23, 59, 59)%Z).
Proof. vm_compute. reflexivity. Qed.
Print Assumptions C52_negative_refuted.
Example C52_case : posix_timestamp 99 951782400 = Some (Ok (2000, 2, 29, 0, 0, 0)%Z) /\
  posix_timestamp 99 (365 * 86400 - 1) = Some (Err AssertionError) /\
  days_since_1970 1 (1970, 1, 1 + 1)%Z.
Proof.
  split; [vm_compute; reflexivity|]. split; [vm_compute; reflexivity|].
  apply (ds_next 0 (1970, 1, 1)%Z); [apply ds_epoch|]. apply (nd_day _ 1970 1 1 31); [apply ml31; cbn; tauto|split; [discriminate|reflexivity]].
Qed.

(** ** C53: trimming trailing zeros *)
Theorem C53_trim : forall l, trimmed l (trim_hms l).
Proof. exact trim_ok. Qed.
Print Assumptions C53_trim.
Example C53_case : trim_hms [12; 0; 6; 0] = [12; 0; 6] /\ trim_hms [0; 0] = [].
Proof. split; reflexivity. Qed.
