(** PropertiesConv.v -- conversions between Badi and Gregorian dates (C77 to C79). *)
From Coq Require Import ZArith QArith Qround Qabs List Bool Lia Lqa.
From Verif Require Import Base Flt BaseModel SpecGreg SpecConv BadiModel SpecBadi LongProofs GregModel ConvModel ConvProofs ConvProofs2 PropertiesBadi.
Import ListNotations.
Local Open Scope Q_scope.

(** ** C77: Badi dates as Gregorian dates (default coordinates) *)
(** The answer is a real civil date and a clock time, and together they are the Julian day of the Badi date, moved to the
    zone of Tehran, to 4.4 ms. Every supported date with any clock time is in the stated range of days. *)
Theorem C77_instant : forall rnd m us b j, Nearest rnd -> to_jd rnd m b = Ok j -> 1721101 <= j <= 2859999 ->
  exists Y M D c g, gregorian_date_from_badi_date rnd m (year_table rnd m) us true b (TEHRAN_LAT rnd) (TEHRAN_LON rnd) TEHRAN_ZONE = Ok (Some (Y, M, inject_Z D, c)) /\
    valid_gdate (leap_rule false) Y M D /\ midnight Y M D g /\ proper_clock c /\ (length c = if us then 4 else 3)%nat /\
    Qabs (g + clock_seconds c / 86400 - (j + (7 # 48))) < 1 # 20000000.
Proof. intros rnd m us b j N. exact (to_greg_instant rnd N m us b j). Qed.
Print Assumptions C77_instant.
(** Day k of the Badi year y falls k - 1 days after its Naw-Ruz, which falls between 18 and 21 March of the Gregorian year
    y + 1843; the day is opened by a sunset between 15:39 and 20:30. *)
Theorem C77_day : forall rnd m us y mo d, Nearest rnd -> evening rnd m -> (-1843 <= y <= 1161)%Z -> valid_bday (leap_of rnd m) y mo d ->
  ~ In (y, mo, d) (skipped_bdates ++ reform_bdates ++ [after_reform]) ->
  exists D0 q0 Y M D c, (18 <= D0 <= 21)%Z /\
    naw_ruz_g_date rnd m (year_table rnd m) false y (TEHRAN_LAT rnd) (TEHRAN_LON rnd) TEHRAN_ZONE = Ok (Some (y + 1843, 3, q0, []))%Z /\ Qfloor q0 = D0 /\
    gregorian_date_from_badi_date rnd m (year_table rnd m) us true (bd y mo d) (TEHRAN_LAT rnd) (TEHRAN_LON rnd) TEHRAN_ZONE = Ok (Some (Y, M, inject_Z D, c)) /\
    valid_gdate (leap_rule false) Y M D /\ days_after (y + 1843, 3, D0)%Z (Y, M, D) (bday_of_year (leap_of rnd m y) mo d - 1) /\
    proper_clock c /\ (length c = if us then 4 else 3)%nat /\ 56340 < clock_seconds c < 73800.
Proof. intros rnd m us y mo d N E. exact (to_greg_day rnd N m E us y mo d). Qed.
Print Assumptions C77_day.
Theorem C77_next_day : forall rnd m us y mo d y' mo' d', Nearest rnd -> evening rnd m -> (-1843 <= y)%Z -> (y' <= 1161)%Z ->
  next_bday (leap_of rnd m) (y, mo, d) (y', mo', d') ->
  ~ In (y, mo, d) (skipped_bdates ++ reform_bdates ++ [after_reform]) -> ~ In (y', mo', d') (skipped_bdates ++ reform_bdates ++ [after_reform]) ->
  exists Y M D c Y' M' D' c',
    gregorian_date_from_badi_date rnd m (year_table rnd m) us true (bd y mo d) (TEHRAN_LAT rnd) (TEHRAN_LON rnd) TEHRAN_ZONE = Ok (Some (Y, M, inject_Z D, c)) /\
    gregorian_date_from_badi_date rnd m (year_table rnd m) us true (bd y' mo' d') (TEHRAN_LAT rnd) (TEHRAN_LON rnd) TEHRAN_ZONE = Ok (Some (Y', M', inject_Z D', c')) /\
    next_gday (leap_rule false) (Y, M, D) (Y', M', D').
Proof. intros rnd m us y mo d y' mo' d' N E. exact (to_greg_next rnd N m E us y mo d y' mo' d'). Qed.
Print Assumptions C77_next_day.
(** The first day of Ridvan is in April, on the same day of the month as Naw-Ruz in March; with and without a clock. *)
Theorem C77_ridvan : forall rnd m y, Nearest rnd -> evening rnd m -> (-1843 <= y <= 1161)%Z ->
  exists D0 q0 q c0 c, (18 <= D0 <= 21)%Z /\
    naw_ruz_g_date rnd m (year_table rnd m) false y (TEHRAN_LAT rnd) (TEHRAN_LON rnd) TEHRAN_ZONE = Ok (Some (y + 1843, 3, q0, []))%Z /\ Qfloor q0 = D0 /\
    first_day_of_ridvan_g_date rnd m (year_table rnd m) false y (TEHRAN_LAT rnd) (TEHRAN_LON rnd) TEHRAN_ZONE = Ok (Some (y + 1843, 4, q, []))%Z /\ Qfloor q = D0 /\
    naw_ruz_g_date rnd m (year_table rnd m) true y (TEHRAN_LAT rnd) (TEHRAN_LON rnd) TEHRAN_ZONE = Ok (Some (y + 1843, 3, inject_Z D0, c0))%Z /\
    first_day_of_ridvan_g_date rnd m (year_table rnd m) true y (TEHRAN_LAT rnd) (TEHRAN_LON rnd) TEHRAN_ZONE = Ok (Some (y + 1843, 4, inject_Z D0, c))%Z /\
    proper_clock c0 /\ proper_clock c /\ 56340 < clock_seconds c0 < 73800 /\ 56340 < clock_seconds c < 73800.
Proof. intros rnd m y N E. exact (ridvan_april rnd N m E y). Qed.
Print Assumptions C77_ridvan.
(** The day after the reform gap is converted to a date eleven days before the next one. *)
Theorem C77_after_reform_refuted : next_bday (leap_of b64 six_pm) after_reform (-261, 12, 1)%Z /\
  exists c c', gregorian_date_from_badi_date b64 six_pm (year_table b64 six_pm) false true (bd (-261) 11 19) (TEHRAN_LAT b64) (TEHRAN_LON b64) TEHRAN_ZONE = Ok (Some (1582%Z, 10%Z, 4, c)) /\
  gregorian_date_from_badi_date b64 six_pm (year_table b64 six_pm) false true (bd (-261) 12 1) (TEHRAN_LAT b64) (TEHRAN_LON b64) TEHRAN_ZONE = Ok (Some (1582%Z, 10%Z, 15, c')).
Proof.
  split; [apply (nb_month (leap_of b64 six_pm) (-261) 11); lia|]. do 2 eexists. split; vm_compute; reflexivity.
Qed.
Print Assumptions C77_after_reform_refuted.
Example C77_case : exists c, gregorian_date_from_badi_date b64 six_pm (year_table b64 six_pm) false true (bd 181 19 19) (TEHRAN_LAT b64) (TEHRAN_LON b64) TEHRAN_ZONE = Ok (Some (2025%Z, 3%Z, 18, c)) /\ 18 * 3600 < clock_seconds c < 19 * 3600.
Proof. eexists. split; [vm_compute; reflexivity|split; vm_compute; reflexivity]. Qed.

(** ** C78: Gregorian dates (universal time) as Badi dates *)
(** From the sunset [sp] opening (y, mo, d) to the next, less a margin of a few milliseconds, a Gregorian date and time in
    universal time is converted to (y, mo, d) and the time since that sunset, to 4 ms. *)
Theorem C78_from_gregorian : forall rnd m us trim y mo d y' mo' d' sp sq Y M D h mi s g, Nearest rnd -> evening rnd m -> (-1843 <= y <= 1160)%Z ->
  next_bday (leap_of rnd m) (y, mo, d) (y', mo', d') -> ~ In (y, mo, d) irregular_bdates ->
  to_jd rnd m (bd y mo d) = Ok sp -> to_jd rnd m (bd y' mo' d') = Ok sq ->
  valid_gdate (leap_rule false) Y M D -> midnight Y M D g -> (0 <= h <= 23)%Z -> (0 <= mi <= 59)%Z -> 0 <= s < 60 ->
  let x := g + (inject_Z h * 3600 + inject_Z mi * 60 + s) / 86400 in
  sp + (1 # 100000000) <= x -> x <= sq - (1 # 100000000) -> x <= sp + 1 - (1 # 30000000) ->
  (forall k : Z, (1 # 50000000) <= Qabs (x + (51288701 # 360000000) + (1 # 2) - inject_Z k)) ->
  exists sd h' mi' s' u', badi_date_from_gregorian_date rnd m (year_table rnd m) us true trim false true Y M (inject_Z D) (inject_Z h) (inject_Z mi) s (TEHRAN_LAT rnd) (TEHRAN_LON rnd) = Ok (Short sd) /\
    s_y sd = y /\ s_m sd = mo /\ s_d sd = inject_Z d /\ same_clock (s_t sd) [inject_Z h'; inject_Z mi'; s'; inject_Z u'] /\
    (0 <= h' <= 23)%Z /\ (0 <= mi' <= 59)%Z /\ 0 <= s' < 60 /\ (0 <= u' <= 999999)%Z /\
    Qabs ((inject_Z h' * 3600 + inject_Z mi' * 60 + s' + (u' # 1000000)) - (x - sp) * 86400) < 4 # 1000.
Proof. intros rnd m us trim y mo d y' mo' d' sp sq Y M D h mi s g N E. exact (from_greg rnd N m E us trim y mo d y' mo' d' sp sq Y M D h mi s g). Qed.
Print Assumptions C78_from_gregorian.
(** There and back gives the same Badi day; because the first answer is local and the second function expects universal
    time, the clock reads 3:30. *)
Theorem C78_round_trip : forall rnd m us trim y mo d y' mo' d', Nearest rnd -> evening rnd m -> (-1843 <= y <= 1160)%Z ->
  next_bday (leap_of rnd m) (y, mo, d) (y', mo', d') ->
  ~ In (y, mo, d) irregular_bdates -> ~ In (y', mo', d') skipped_bdates -> ~ In (y', mo', d') reform_bdates ->
  exists Y M D h mi s sd h' mi' s' u',
    gregorian_date_from_badi_date rnd m (year_table rnd m) false true (bd y mo d) (TEHRAN_LAT rnd) (TEHRAN_LON rnd) TEHRAN_ZONE = Ok (Some (Y, M, inject_Z D, [inject_Z h; inject_Z mi; s])) /\
    badi_date_from_gregorian_date rnd m (year_table rnd m) us true trim false true Y M (inject_Z D) (inject_Z h) (inject_Z mi) s (TEHRAN_LAT rnd) (TEHRAN_LON rnd) = Ok (Short sd) /\
    s_y sd = y /\ s_m sd = mo /\ s_d sd = inject_Z d /\ same_clock (s_t sd) [inject_Z h'; inject_Z mi'; s'; inject_Z u'] /\
    (0 <= h' <= 23)%Z /\ (0 <= mi' <= 59)%Z /\ 0 <= s' < 60 /\ (0 <= u' <= 999999)%Z /\
    Qabs ((inject_Z h' * 3600 + inject_Z mi' * 60 + s' + (u' # 1000000)) - 12600) < 1 # 100.
Proof. intros rnd m us trim y mo d y' mo' d' N E. exact (round_trip rnd N m E us trim y mo d y' mo' d'). Qed.
Print Assumptions C78_round_trip.
Example C78_case : exists sd, badi_date_from_gregorian_date b64 six_pm (year_table b64 six_pm) false true true false true 2025 3 19 16 0 0 (TEHRAN_LAT b64) (TEHRAN_LON b64) = Ok (Short sd) /\
  s_y sd = 182%Z /\ s_m sd = 1%Z /\ s_d sd == 1 /\ nth 0 (s_t sd) 0 == 1.
Proof. eexists. split; [vm_compute; reflexivity|]. repeat split; vm_compute; reflexivity. Qed.

(** ** C79: utc_sunset *)
(** What is reported is the sunset in the zone of the coordinates: the clock of gregorian_date_from_badi_date. *)
Theorem C79_zone_time : forall rnd m y mo d, Nearest rnd -> evening rnd m -> (-1843 <= y <= 1161)%Z -> valid_bday (leap_of rnd m) y mo d ->
  ~ In (y, mo, d) (skipped_bdates ++ reform_bdates ++ [after_reform]) ->
  exists Y M D c c', gregorian_date_from_badi_date rnd m (year_table rnd m) false true (bd y mo d) (TEHRAN_LAT rnd) (TEHRAN_LON rnd) TEHRAN_ZONE = Ok (Some (Y, M, inject_Z D, c)) /\
    utc_sunset rnd m (year_table rnd m) (bd y mo d) (TEHRAN_LAT rnd) (TEHRAN_LON rnd) TEHRAN_ZONE = Ok c' /\ proper_clock c' /\ 56340 < clock_seconds c' < 73800 /\
    Qabs (clock_seconds c' - clock_seconds c) < 1 # 100.
Proof.
  intros rnd m y mo d N E Y V X. destruct (sunset_local rnd N m E y mo d Y V X) as (YY & M & D & c & c' & j & n & A & _ & _ & _ & B). exists YY, M, D, c, c'. split; assumption.
Qed.
Print Assumptions C79_zone_time.
(** The documented universal time of sunset is the fraction of the day since the midnight n + 1/2: the answer is three and
    a half hours later, on every day and for every sunset function. *)
Theorem C79_universal_time_refuted : forall rnd m y mo d, Nearest rnd -> evening rnd m -> (-1843 <= y <= 1161)%Z -> valid_bday (leap_of rnd m) y mo d ->
  ~ In (y, mo, d) (skipped_bdates ++ reform_bdates ++ [after_reform]) ->
  exists c' j (n : Z), utc_sunset rnd m (year_table rnd m) (bd y mo d) (TEHRAN_LAT rnd) (TEHRAN_LON rnd) TEHRAN_ZONE = Ok c' /\ to_jd rnd m (bd y mo d) = Ok j /\
    0 <= j - inject_Z n - (1 # 2) < 1 /\ Qabs (clock_seconds c' - ((j - inject_Z n - (1 # 2)) * 86400 + 12600)) < 1 # 100.
Proof.
  intros rnd m y mo d N E Y V X. destruct (sunset_local rnd N m E y mo d Y V X) as (YY & M & D & c & c' & j & n & A & J & B & C & U & _). exists c', j, n. repeat split; try assumption; apply B.
Qed.
Print Assumptions C79_universal_time_refuted.
Example C79_case : exists c, utc_sunset b64 six_pm (year_table b64 six_pm) (bd 182 1 1) (TEHRAN_LAT b64) (TEHRAN_LON b64) TEHRAN_ZONE = Ok c /\ nth 0 c 0 == 18.
Proof. eexists. split; vm_compute; reflexivity. Qed.
