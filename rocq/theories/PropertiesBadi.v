(** PropertiesBadi.v -- C06, C08..C11, C42, C43, C47, C55: the Badi calendar.

    Every theorem holds for every correctly rounding arithmetic [rnd] ([Nearest rnd]) and every sunset function
    [m] that puts the Tehran sunset in the evening ([evening rnd m], SpecBadi.v). *)
From Coq Require Import ZArith QArith Qround Qabs List Bool Lia Lqa.
From Verif Require Import Base Flt QUtil BaseModel MiscModel BadiModel SpecGreg GregModel GregProofs SpecBadi BadiProofs BadiProofs2 LongYear BadiProofs3 DecProofs BadiProofs4 LongProofs BadiProofs5.
Import ListNotations.
Local Open Scope Q_scope.

(** An admissible sunset: always at 18:00 local mean time. *)
Definition six_pm (_ _ _ : Q) : Q := 3 # 4.
Lemma six_pm_evening rnd : evening rnd six_pm.
Proof. intros H jd _ _. split; discriminate. Qed.
Example Badi_hypotheses_met : Nearest b64 /\ evening b64 six_pm.
Proof. exact (conj b64_nearest (six_pm_evening b64)). Qed.

(** ** C06: short and long dates *)
(** Both directions, with clock fields, whatever the trim switches: fields 0..3 of the clock agree
    ([same_clock]), the long form has vahid and year in 1..19 and kull-i-shay in -5..4. *)
Theorem C06_short_long_short : forall rnd m trim trim' d, Nearest rnd -> evening rnd m ->
  check_short rnd (year_table rnd m) d = Ok tt -> nth 0 (s_t d) 0 < 24 ->
  s_d d <= inject_Z (bmonth_len (leap_of rnd m (s_y d)) (s_m d)) ->
  exists l s, long_date_from_short_date rnd (year_table rnd m) trim d = Ok l /\
    short_date_from_long_date rnd (year_table rnd m) trim' l = Ok s /\
    (-5 <= l_k l <= 4 /\ 1 <= l_v l <= 19 /\ 1 <= l_y l <= 19)%Z /\
    ((l_k l - 1) * 361 + (l_v l - 1) * 19 + l_y l = s_y d)%Z /\
    s_y s = s_y d /\ s_m s = s_m d /\ s_d s = s_d d /\ same_clock (s_t s) (s_t d).
Proof. intros rnd m trim trim' d N EV. exact (short_long_short rnd N m EV trim trim' d). Qed.
Print Assumptions C06_short_long_short.

Theorem C06_long_short_long : forall rnd m trim trim' l, Nearest rnd -> evening rnd m ->
  (-1843 <= (l_k l - 1) * 361 + (l_v l - 1) * 19 + l_y l <= 1162)%Z ->
  check_long rnd (year_table rnd m) l = Ok tt -> nth 0 (l_t l) 0 < 24 ->
  l_d l <= inject_Z (bmonth_len (leap_of rnd m ((l_k l - 1) * 361 + (l_v l - 1) * 19 + l_y l)) (l_m l)) ->
  exists s l', short_date_from_long_date rnd (year_table rnd m) trim l = Ok s /\
    long_date_from_short_date rnd (year_table rnd m) trim' s = Ok l' /\
    s_y s = ((l_k l - 1) * 361 + (l_v l - 1) * 19 + l_y l)%Z /\
    l_k l' = l_k l /\ l_v l' = l_v l /\ l_y l' = l_y l /\ l_m l' = l_m l /\ l_d l' = l_d l /\ same_clock (l_t l') (l_t l).
Proof. intros rnd m trim trim' l N EV. exact (long_short_long rnd N m EV trim trim' l). Qed.
Print Assumptions C06_long_short_long.

(** The split of a year alone, for every year of the table. *)
Theorem C06_year_split : forall rnd y k v yy, Nearest rnd -> (-1843 <= y <= 1162)%Z -> long_year_parts rnd y = (k, v, yy) ->
  (y = (k - 1) * 361 + (v - 1) * 19 + yy /\ -5 <= k <= 4 /\ 1 <= v <= 19 /\ 1 <= yy <= 19)%Z.
Proof. intros rnd y k v yy N Y E. destruct (long_year_parts_ok rnd N y k v yy Y E) as (A & B & C & D). unfold long_year in A. lia. Qed.
Print Assumptions C06_year_split.

(** Day fractions on the last day of a month: (181, 1, 19.5) is a valid short date whose long form (19.5) is
    normalised to (181, 2, 18.5). *)
Theorem C06_fraction_of_last_day_refuted :
  let d := {| s_y := 181; s_m := 1; s_d := 39 # 2; s_t := [] |} in
  check_short b64 (year_table b64 six_pm) d = Ok tt /\
  exists l s, long_date_from_short_date b64 (year_table b64 six_pm) true d = Ok l /\
    short_date_from_long_date b64 (year_table b64 six_pm) true l = Ok s /\ s_m s = 2%Z /\ s_d s == 37 # 2.
Proof.
  cbv zeta. split; [vm_compute; reflexivity|]. do 2 eexists. split; [vm_compute; reflexivity|]. split; [vm_compute; reflexivity|].
  split; vm_compute; reflexivity.
Qed.
Print Assumptions C06_fraction_of_last_day_refuted.

Example C06_case : let d := {| s_y := -361; s_m := 0; s_d := 4; s_t := [23; 59; 119 # 2] |} in
  check_short b64 (year_table b64 six_pm) d = Ok tt /\ nth 0 (s_t d) 0 < 24 /\
  s_d d <= inject_Z (bmonth_len (leap_of b64 six_pm (s_y d)) (s_m d)) /\
  long_year_parts b64 (-361) = (-1, 19, 19)%Z /\ long_year_parts b64 1 = (1, 1, 1)%Z /\ long_year_parts b64 1162 = (4, 5, 3)%Z.
Proof.
  cbv zeta. cbn [s_y s_m s_d s_t nth]. repeat split; vm_compute; try reflexivity; discriminate.
Qed.

(** ** C08: the year table *)
(** It does not depend on the arithmetic or on the sunsets. *)
Theorem C08_table_independent : forall rnd m rnd' m' y, Nearest rnd -> evening rnd m -> Nearest rnd' -> evening rnd' m' ->
  year_table rnd m y = year_table rnd' m' y.
Proof.
  intros rnd m rnd' m' y N E N' E'. destruct (Z_le_gt_dec (-1843) y); [destruct (Z_le_gt_dec y 1162)|].
  - rewrite (year_table_ok rnd N m E), (year_table_ok rnd' N' m' E') by lia. reflexivity.
  - rewrite (year_table_none rnd m), (year_table_none rnd' m') by lia. reflexivity.
  - rewrite (year_table_none rnd m), (year_table_none rnd' m') by lia. reflexivity.
Qed.
Print Assumptions C08_table_independent.

Theorem C08_table_domain : forall rnd m y, Nearest rnd -> evening rnd m ->
  ((exists z, year_table rnd m y = Some z) <-> (-1843 <= y <= 1162)%Z).
Proof.
  intros rnd m y N E. rewrite <- (table_domain rnd N m E). destruct (year_table rnd m y) as [z|]; split; intro H.
  - discriminate.
  - exists z. reflexivity.
  - destruct H; discriminate.
  - exfalso. apply H. reflexivity.
Qed.
Print Assumptions C08_table_domain.

Theorem C08_year_length : forall rnd m y, Nearest rnd -> evening rnd m -> (-1843 <= y <= 1161)%Z ->
  exists a b, year_table rnd m y = Some a /\ year_table rnd m (y + 1) = Some b /\
   ((b - a = 365 /\ is_leap_badi (year_table rnd m) y = Ok false) \/ (b - a = 366 /\ is_leap_badi (year_table rnd m) y = Ok true))%Z.
Proof.
  intros rnd m y N E Y. destruct (table_len rnd N m E y Y) as (a & b & A & B & L). exists a, b. split; [exact A|]. split; [exact B|].
  unfold leap_of in L. rewrite (is_leap_ok rnd N m E) in * by exact Y. destruct (zleap y); [right|left]; (split; [lia|reflexivity]).
Qed.
Print Assumptions C08_year_length.

(** First and last entries; years 172..175 start on 20, 19, 19, 20 March 2015..2018 at sunset
    (the proleptic Gregorian ordinals of these days are 735677, 736042, 736407, 736773). *)
Theorem C08_table_values : forall rnd m, Nearest rnd -> evening rnd m ->
  year_table rnd m (-1843) = Some (-287)%Z /\ year_table rnd m 1 = Some 673220%Z /\ year_table rnd m 172 = Some 735677%Z /\
  year_table rnd m 173 = Some 736042%Z /\ year_table rnd m 174 = Some 736407%Z /\ year_table rnd m 175 = Some 736773%Z /\
  year_table rnd m 1161 = Some 1096902%Z /\ year_table rnd m 1162 = Some 1097268%Z.
Proof. intros rnd m N E. rewrite !(year_table_ok rnd N m E) by lia. vm_compute. repeat split. Qed.
Print Assumptions C08_table_values.

Example C08_case : year_table b64 six_pm 181 = Some 738964%Z /\ is_leap_badi (year_table b64 six_pm) 182 = Ok true.
Proof. vm_compute. split; reflexivity. Qed.

(** ** C09: day number to year *)
Theorem C09_year_of_day : forall rnd m r, Nearest rnd -> evening rnd m -> (-287 <= r <= 1096902)%Z ->
  exists y a b, badi_year_from_rd rnd (year_table rnd m) r = Ok y /\
    year_table rnd m y = Some a /\ year_table rnd m (y + 1) = Some b /\ (a <= r < b)%Z /\
    (forall y' a' b', year_table rnd m y' = Some a' -> year_table rnd m (y' + 1) = Some b' -> (a' <= r < b')%Z -> y' = y).
Proof. intros rnd m r N E. exact (year_lookup rnd N m E r). Qed.
Print Assumptions C09_year_of_day.

Theorem C09_out_of_range : forall rnd m r, Nearest rnd -> evening rnd m ->
  (badi_year_from_rd rnd (year_table rnd m) r = Err AssertionError <-> (r < -287 \/ 1096902 < r)%Z).
Proof.
  intros rnd m r N E. split; [|apply (year_from_rd_err rnd N m E)].
  intro H. destruct (Z_lt_ge_dec r (-287)); [lia|]. destruct (Z_lt_ge_dec 1096902 r); [lia|]. exfalso.
  destruct (year_lookup rnd N m E r ltac:(lia)) as (y & a & b & K & _). congruence.
Qed.
Print Assumptions C09_out_of_range.

(** Year 1161 has valid dates but every day of it after the first is out of range. *)
Theorem C09_last_year_lost_refuted : forall rnd m mo d r, Nearest rnd -> evening rnd m ->
  valid_bday (leap_of rnd m) 1161 mo d -> (mo, d) <> (1, 1)%Z ->
  year_table rnd m 1161 = Some r ->
  check_short rnd (year_table rnd m) (bd 1161 mo d) = Ok tt /\
  badi_year_from_rd rnd (year_table rnd m) (r + bday_of_year (leap_of rnd m 1161) mo d - 1) = Err AssertionError.
Proof.
  intros rnd m mo d r N E V NE R. split; [apply (valid_iff rnd N m E); [lia|exact V]|].
  rewrite (year_table_ok rnd N m E) in R by lia. assert (r = 1096902)%Z by (rewrite ystart_1161 in R; congruence). subst r.
  apply (year_from_rd_err rnd N m E). right. destruct V as [M D].
  unfold bday_of_year, bmonth_len in *. change (0 =? 0)%Z with true in *.
  destruct (Z.eqb_spec mo 0); [lia|]. destruct (Z.eqb_spec mo 19); [destruct (leap_of rnd m 1161); lia|].
  assert (~ (mo = 1 /\ d = 1)%Z) by (intros [-> ->]; apply NE; reflexivity). lia.
Qed.
Print Assumptions C09_last_year_lost_refuted.

Example C09_case : badi_year_from_rd b64 (year_table b64 six_pm) 736041 = Ok 172%Z /\
  badi_year_from_rd b64 (year_table b64 six_pm) 736042 = Ok 173%Z /\ valid_bday (leap_of b64 six_pm) 1161 19 19 /\
  badi_year_from_rd b64 (year_table b64 six_pm) 1097267 = Err AssertionError.
Proof. vm_compute. repeat split; discriminate. Qed.

(** ** C10: day of the year *)
Theorem C10_encoder_counts_days : forall rnd m y mo d, Nearest rnd -> evening rnd m -> (-1843 <= y <= 1161)%Z -> (0 <= mo <= 19)%Z ->
  exists k, days_before_month_enc (year_table rnd m) y mo = Ok k /\ (k + d = bday_of_year (leap_of rnd m y) mo d)%Z.
Proof. intros rnd m y mo d N E Y M. exact (enc_months rnd N m E y mo Y M d). Qed.
Print Assumptions C10_encoder_counts_days.
Theorem C10_decode_of_encode : forall leap mo d, (0 <= mo <= 19)%Z -> (1 <= d <= bmonth_len leap mo)%Z ->
  month_day_of_doy (bday_of_year leap mo d) (bmonth_len leap 0) = (mo, d) /\ (1 <= bday_of_year leap mo d <= if leap then 366 else 365)%Z.
Proof.
  intros leap mo d M D. destruct (dec_enc leap mo d M D) as [A B]. destruct leap; (split; [exact A|exact B]).
Qed.
Print Assumptions C10_decode_of_encode.
Theorem C10_encode_of_decode : forall (leap : bool) n mo d, (1 <= n <= if leap then 366 else 365)%Z ->
  month_day_of_doy n (bmonth_len leap 0) = (mo, d) ->
  (0 <= mo <= 19 /\ 1 <= d <= bmonth_len leap mo /\ bday_of_year leap mo d = n)%Z.
Proof. intros leap n mo d R E. destruct leap; apply enc_dec; assumption. Qed.
Print Assumptions C10_encode_of_decode.
Theorem C10_calendar_order : forall leap mo d mo' d', (0 <= mo <= 19)%Z -> (1 <= d <= bmonth_len leap mo)%Z ->
  (0 <= mo' <= 19)%Z -> (1 <= d' <= bmonth_len leap mo')%Z ->
  ((bmonth_pos mo < bmonth_pos mo' \/ (mo = mo' /\ d < d')) <-> bday_of_year leap mo d < bday_of_year leap mo' d')%Z.
Proof. exact earlier_doy. Qed.
Print Assumptions C10_calendar_order.
Example C10_case : bday_of_year true 0 5 = 347%Z /\ month_day_of_doy 347 5 = (0, 5)%Z /\ month_day_of_doy 347 4 = (19, 1)%Z /\
  bday_of_year false 19 19 = 365%Z.
Proof. repeat split. Qed.

(** ** C11: validity *)
Theorem C11_accepted_iff_valid : forall rnd m y mo d, Nearest rnd -> evening rnd m -> (-1843 <= y <= 1161)%Z ->
  (check_short rnd (year_table rnd m) (bd y mo d) = Ok tt <-> valid_bday (leap_of rnd m) y mo d) /\
  (check_short rnd (year_table rnd m) (bd y mo d) <> Ok tt -> check_short rnd (year_table rnd m) (bd y mo d) = Err AssertionError).
Proof.
  intros rnd m y mo d N E Y. split; [exact (valid_iff rnd N m E y mo d Y)|]. intro H. apply (invalid_error rnd N m E y mo d Y).
  rewrite <- (valid_iff rnd N m E y mo d Y). exact H.
Qed.
Print Assumptions C11_accepted_iff_valid.
(** Outside -1843..1162 every date is rejected. *)
Theorem C11_years_outside : forall rnd m d, (s_y d < -1843 \/ 1162 < s_y d)%Z -> check_short rnd (year_table rnd m) d = Err AssertionError.
Proof. intros rnd m d. exact (check_short_year rnd (year_table rnd m) d). Qed.
Print Assumptions C11_years_outside.
(** Year 1162: months 1..19 as usual, any date of month 0 raises KeyError. *)
Theorem C11_year_1162 : forall rnd m mo d, Nearest rnd -> evening rnd m ->
  check_short rnd (year_table rnd m) (bd 1162 mo d) =
  (if (mo =? 0)%Z then Err KeyError else if ((1 <=? mo) && (mo <=? 19) && (1 <=? d) && (d <=? 19))%Z then Ok tt else Err AssertionError).
Proof.
  intros rnd m mo d N E. rewrite (check_bd_1162 rnd N m E).
  destruct (Z.leb_spec 0 mo); destruct (Z.leb_spec mo 19); destruct (Z.eqb_spec mo 0); destruct (Z.leb_spec 1 mo); cbn [andb]; try lia; reflexivity.
Qed.
Print Assumptions C11_year_1162.
Example C11_case : check_short b64 (year_table b64 six_pm) (bd 182 0 5) = Ok tt /\
  check_short b64 (year_table b64 six_pm) (bd 181 0 5) = Err AssertionError /\
  check_short b64 (year_table b64 six_pm) (bd (-1843) 1 1) = Ok tt /\ check_short b64 (year_table b64 six_pm) (bd 1162 0 1) = Err KeyError.
Proof. vm_compute. repeat split. Qed.

(** ** C42: decoding finds the right day *)
(** [sp] is the sunset opening day (y, mo, d), [sq] the next one.  An instant of that day is decoded to the
    day and the time since [sp], unless the day is longer than 24 hours and the instant is in its last
    moments, more than 24 hours after [sp]: then the next date is reported. *)
Theorem C42_right_day : forall rnd m y mo d y' mo' d' jd sp sq, Nearest rnd -> evening rnd m ->
  (-1843 <= y <= 1160)%Z -> next_bday (leap_of rnd m) (y, mo, d) (y', mo', d') ->
  ~ In (y, mo, d) irregular_bdates -> to_jd rnd m (bd y mo d) = Ok sp -> to_jd rnd m (bd y' mo' d') = Ok sq ->
  is_float jd -> sp <= jd -> jd < sq ->
  exists fr, 0 <= fr < 1 /\
    ((jd < sp + 1 /\ of_jd rnd m jd = Ok (y, mo, d, fr) /\ (~ near_midnight jd -> fr == jd - sp)) \/
     (sp + 1 <= jd /\ of_jd rnd m jd = Ok (y', mo', d', fr) /\ Qabs (fr - (jd - sp - 1)) <= 1 # 1000000000)).
Proof. intros rnd m y mo d y' mo' d' jd sp sq N E. exact (of_jd_right_day rnd N m E y mo d y' mo' d' jd sp sq). Qed.
Print Assumptions C42_right_day.
Example C42_case : next_bday (leap_of b64 six_pm) (181, 19, 19)%Z (182, 1, 1)%Z /\ ~ In (181, 19, 19)%Z irregular_bdates /\
  exists sp sq, to_jd b64 six_pm (bd 181 19 19) = Ok sp /\ to_jd b64 six_pm (bd 182 1 1) = Ok sq /\ sp < b64 (sp + (1 # 4)) < sq /\
  exists fr, of_jd b64 six_pm (b64 (sp + (1 # 4))) = Ok (181, 19, 19, fr)%Z /\ fr == 1 # 4.
Proof.
  split; [apply nb_year|]. split.
  { unfold irregular_bdates, after_reform. cbn [skipped_bdates after_skipped reform_bdates app In]. intro I. repeat (destruct I as [I|I]; [congruence|]). exact I. }
  do 2 eexists. split; [vm_compute; reflexivity|]. split; [vm_compute; reflexivity|]. split; [split; vm_compute; reflexivity|].
  eexists. split; vm_compute; reflexivity.
Qed.

(** ** C43: encoding *)
(** The JD is the sunset of the civil day: day number [z + day of year - 1] of the proleptic Gregorian count,
    between 2:50 and 7:00 hours after noon UT less half a day... in numbers: E + 0.007 < j < E + 0.208. It is the
    sunset the oracle gives for Tehran midnight of that day ([n] is the Julian-Gregorian difference). *)
Theorem C43_value : forall rnd m y mo d z, Nearest rnd -> evening rnd m ->
  (-1843 <= y <= 1161)%Z -> valid_bday (leap_of rnd m) y mo d ->
  ~ In (y, mo, d) (skipped_bdates ++ reform_bdates ++ [after_reform]) -> year_table rnd m y = Some z ->
  let E := (z + bday_of_year (leap_of rnd m y) mo d + 1721422)%Z in
  exists j, to_jd rnd m (bd y mo d) = Ok j /\ is_float j /\ inject_Z E + (7 # 1000) < j < inject_Z E + (208 # 1000) /\
   exists n x, (0 <= n <= 12)%Z /\ Qabs (x - (inject_Z (E + n) - (1#2) - (51288701 # 360000000))) <= 1 # 100000000 /\
     Qabs (j - (x - inject_Z n + m x (TEHRAN_LAT rnd) (TEHRAN_LON rnd))) <= 1 # 10000000.
Proof. intros rnd m y mo d z N E. exact (to_jd_value rnd N m E y mo d z). Qed.
Print Assumptions C43_value.
Theorem C43_refused_exactly : forall rnd m y mo d, Nearest rnd -> evening rnd m ->
  (-1843 <= y <= 1161)%Z -> valid_bday (leap_of rnd m) y mo d ->
  (to_jd rnd m (bd y mo d) = Err ValueError <-> In (y, mo, d) (skipped_bdates ++ reform_bdates)).
Proof. intros rnd m y mo d N E. exact (to_jd_refused rnd N m E y mo d). Qed.
Print Assumptions C43_refused_exactly.
Theorem C43_increasing : forall rnd m y mo d y' mo' d' j j', Nearest rnd -> evening rnd m ->
  (-1843 <= y <= 1161)%Z -> (-1843 <= y' <= 1161)%Z -> valid_bday (leap_of rnd m) y mo d -> valid_bday (leap_of rnd m) y' mo' d' ->
  (y, mo, d) <> after_reform -> (y', mo', d') <> after_reform ->
  to_jd rnd m (bd y mo d) = Ok j -> to_jd rnd m (bd y' mo' d') = Ok j' -> (bearlier y mo d y' mo' d' <-> j < j').
Proof. intros rnd m y mo d y' mo' d' j j' N E. exact (to_jd_increasing rnd N m E y mo d y' mo' d' j j'). Qed.
Print Assumptions C43_increasing.
Theorem C43_one_day_apart : forall rnd m y mo d y' mo' d' j j', Nearest rnd -> evening rnd m ->
  (-1843 <= y <= 1161)%Z -> (y' <= 1161)%Z -> next_bday (leap_of rnd m) (y, mo, d) (y', mo', d') ->
  (y, mo, d) <> after_reform -> (y', mo', d') <> after_reform ->
  to_jd rnd m (bd y mo d) = Ok j -> to_jd rnd m (bd y' mo' d') = Ok j' -> 79 # 100 < j' - j < 121 # 100.
Proof.
  intros rnd m y mo d y' mo' d' j j' N E A B C D D' F G. destruct (to_jd_step rnd N m E y mo d y' mo' d' j j' A B C D D' F G) as [P Q].
  split; lra.
Qed.
Print Assumptions C43_one_day_apart.
(** The day after the reform gap is encoded more than ten days too early. *)
Theorem C43_after_reform_refuted : forall rnd m, Nearest rnd -> evening rnd m ->
  next_bday (leap_of rnd m) after_reform (-261, 12, 1)%Z /\
  exists j j', to_jd rnd m (bd (-261) 11 19) = Ok j /\ to_jd rnd m (bd (-261) 12 1) = Ok j' /\ j + (107 # 10) < j'.
Proof. intros rnd m N E. split; [apply (nb_month (leap_of rnd m) (-261) 11); lia|exact (to_jd_after_reform rnd N m E)]. Qed.
Print Assumptions C43_after_reform_refuted.
Example C43_case : valid_bday (leap_of b64 six_pm) 182 1 1 /\
  exists j j', to_jd b64 six_pm (bd 182 1 1) = Ok j /\ to_jd b64 six_pm (bd 182 1 2) = Ok j' /\ 1 - (1 # 1000000) < j' - j < 1 + (1 # 1000000) /\
  to_jd b64 six_pm (bd (-261) 11 9) = Err ValueError /\ to_jd b64 six_pm (bd (-544) 19 1) = Err ValueError.
Proof.
  split; [vm_compute; repeat split; discriminate|]. do 2 eexists. split; [vm_compute; reflexivity|]. split; [vm_compute; reflexivity|].
  split; [split; vm_compute; reflexivity|]. split; vm_compute; reflexivity.
Qed.

(** ** C47: timestamps *)
Theorem C47_timestamp_value : forall rnd m y mo d j, Nearest rnd -> evening rnd m -> (-1843 <= y <= 1161)%Z ->
  valid_bday (leap_of rnd m) y mo d -> to_jd rnd m (bd y mo d) = Ok j ->
  exists t, timestamp_from_badi_date rnd m (year_table rnd m) (bd y mo d) (TEHRAN_LAT rnd) (TEHRAN_LON rnd) = Ok t /\
    Qabs (t - (j - (4881171 # 2)) * 86400) <= 4 # 1000000 /\
    forall us short trim rtd, exists j', j' == j /\
      badi_date_from_timestamp rnd m (year_table rnd m) us short trim rtd t (TEHRAN_LAT rnd) (TEHRAN_LON rnd) =
      badi_date_from_jd rnd m (year_table rnd m) us short false trim rtd j' (TEHRAN_LAT rnd) (TEHRAN_LON rnd).
Proof. intros rnd m y mo d j N E. exact (timestamp_trip rnd N m E y mo d j). Qed.
Print Assumptions C47_timestamp_value.
Example C47_case : exists t, timestamp_from_badi_date b64 six_pm (year_table b64 six_pm) (bd 182 1 1) (TEHRAN_LAT b64) (TEHRAN_LON b64) = Ok t /\
  1742000000 < t < 1743000000 /\
  exists s, badi_date_from_timestamp b64 six_pm (year_table b64 six_pm) false true true false t (TEHRAN_LAT b64) (TEHRAN_LON b64) = Ok (Short s) /\
  s_y s = 182%Z /\ s_m s = 1%Z /\ s_d s == 1 /\ s_t s = [].
Proof.
  eexists. split; [vm_compute; reflexivity|]. split; [split; vm_compute; reflexivity|]. eexists. split; [vm_compute; reflexivity|].
  repeat split; vm_compute; reflexivity.
Qed.

(** ** C55: Naw-Ruz begins at sunset on 18, 19, 20 or 21 March of Gregorian year y + 1843 *)
(** [g] is the JD of midnight at the start of that March day; the sunset is between 15:36 and 20:39 Iran
    standard time (UT + 3:30 = 7/48 day) on that day. *)
Theorem C55_naw_ruz_in_march : forall rnd m y, Nearest rnd -> evening rnd m -> (-1843 <= y <= 1161)%Z ->
  exists D g j, (18 <= D <= 21)%Z /\ jd_from_gregorian_date rnd true false (y + 1843) 3 (inject_Z D) 0 0 0 = Ok g /\
    to_jd rnd m (bd y 1 1) = Ok j /\ g + (13 # 20) < j + (7 # 48) < g + (43 # 50).
Proof.
  intros rnd m y N E Y. destruct (naw_ruz_march rnd N m E y Y) as (D & g & j & A & B & _ & C & F). exists D, g, j. tauto.
Qed.
Print Assumptions C55_naw_ruz_in_march.
Example C55_case : exists g j, jd_from_gregorian_date b64 true false 2024 3 19 0 0 0 = Ok g /\ to_jd b64 six_pm (bd 181 1 1) = Ok j /\
  g + (37 # 50) < j + (7 # 48) < g + (19 # 25).
Proof. do 2 eexists. split; [vm_compute; reflexivity|]. split; [vm_compute; reflexivity|]. split; vm_compute; reflexivity. Qed.
