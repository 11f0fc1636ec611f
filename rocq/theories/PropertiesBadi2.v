(** PropertiesBadi2.v -- C07, C42 (clock part), C43 (clock part), C44, C45. *)
From Coq Require Import ZArith QArith Qround Qabs List Bool Lia Lqa.
From Verif Require Import Base Flt QUtil BaseModel MiscModel BadiModel SunProofs SpecBadi BadiProofs BadiProofs2 DecProofs BadiProofs4 LongProofs BadiProofs5
  ClockProofs ClockProofs2 ClockProofs3 ClockProofs4 PropertiesBadi.
Import ListNotations.
Local Open Scope Q_scope.

(** ** C07: out of range times in a long date *)
(** No carry: date and clock are kept (same as C06). *)
Theorem C07_in_range_kept : forall rnd m trim k v yy mo d h mi s us, Nearest rnd -> evening rnd m ->
  (1 <= v <= 19)%Z -> (1 <= yy <= 19)%Z -> (-1843 <= (k - 1) * 361 + (v - 1) * 19 + yy <= 1161)%Z ->
  valid_bday (leap_of rnd m) ((k - 1) * 361 + (v - 1) * 19 + yy) mo d ->
  (0 <= h <= 23)%Z -> (0 <= mi <= 59)%Z -> 0 <= s < 60 -> (0 <= us <= 999999)%Z ->
  exists sd, short_date_from_long_date rnd (year_table rnd m) trim
      {| l_k := k; l_v := v; l_y := yy; l_m := mo; l_d := inject_Z d; l_t := [inject_Z h; inject_Z mi; s; inject_Z us] |} = Ok sd /\
    s_y sd = ((k - 1) * 361 + (v - 1) * 19 + yy)%Z /\ s_m sd = mo /\ s_d sd = inject_Z d /\
    same_clock (s_t sd) [inject_Z h; inject_Z mi; s; inject_Z us].
Proof.
  intros rnd m trim k v yy mo d h mi s us N E V YY Y VB H MI S U.
  change ((k - 1) * 361 + (v - 1) * 19 + yy)%Z with (long_year k v yy) in *.
  rewrite (short_of_long rnd N m E trim k v yy mo (inject_Z d) [inject_Z h; inject_Z mi; s; inject_Z us] V YY).
  - eexists. split; [reflexivity|]. cbn [s_y s_m s_d s_t]. repeat (split; [reflexivity|]). apply clock_of_same.
  - apply (check_clock rnd N m E); try assumption; lia.
  - cbn [nth]. change 24 with (inject_Z 24). rewrite <- Zlt_Qlt. lia.
  - cbn [nth]. change 60 with (inject_Z 60). rewrite <- Zlt_Qlt. lia.
  - cbn [nth]. apply S.
  - rewrite <- Zle_Qle. apply VB.
Qed.
Print Assumptions C07_in_range_kept.

(** Carries, on any day but the last of its month: the instant moves by 59 s for a second 60, by 59 more
    minutes when that carries on to the hour, and by 23 hours for an hour 24.  So it is kept exactly when
    there is no carry. *)
Theorem C07_carry_moves_instant : forall rnd m trim k v yy mo d h mi s, Nearest rnd -> evening rnd m ->
  let y := ((k - 1) * 361 + (v - 1) * 19 + yy)%Z in
  (-1843 <= y <= 1161)%Z -> (0 <= mo <= 19)%Z -> (1 <= d < bmonth_len (leap_of rnd m y) mo)%Z ->
  (0 <= h <= 24)%Z -> (0 <= mi <= 59)%Z -> (0 <= s <= 60)%Z ->
  exists d' h' mi' s' sd, short_date_from_long_date rnd (year_table rnd m) trim
      {| l_k := k; l_v := v; l_y := yy; l_m := mo; l_d := inject_Z d; l_t := [inject_Z h; inject_Z mi; inject_Z s] |} = Ok sd /\
    s_y sd = y /\ s_m sd = mo /\ s_d sd == inject_Z d' /\ same_clock (s_t sd) [inject_Z h'; inject_Z mi'; inject_Z s'] /\
    (d' * 86400 + h' * 3600 + mi' * 60 + s' = d * 86400 + h * 3600 + mi * 60 + s
       + (if s =? 60 then 59 else 0) + (if (s =? 60) && (mi =? 59) then 59 * 60 else 0)
       + (if (h =? 24) || ((h =? 23) && (mi =? 59) && (s =? 60)) then 23 * 3600 else 0))%Z /\
    (1 <= d' <= bmonth_len (leap_of rnd m y) mo /\ 0 <= h' <= 24 /\ 0 <= mi' <= 59 /\ 0 <= s' <= 59)%Z.
Proof. intros rnd m trim k v yy mo d h mi s N E. exact (carry_shift rnd N m E trim k v yy mo d h mi s). Qed.
Print Assumptions C07_carry_moves_instant.

(** Hour 24 on the last day of a month: instead of day 1 of the next month at 00:00 the answer is day 19 of
    the next numbered month at 23:00 (month 18 skips Ayyam-i-Ha), or 1 'Ala after Ayyam-i-Ha. *)
Theorem C07_hour_24_at_month_end : forall rnd m trim k v yy mo, Nearest rnd -> evening rnd m ->
  let y := ((k - 1) * 361 + (v - 1) * 19 + yy)%Z in
  (-1843 <= y <= 1160)%Z -> (0 <= mo <= 19)%Z ->
  exists sd, short_date_from_long_date rnd (year_table rnd m) trim
      {| l_k := k; l_v := v; l_y := yy; l_m := mo; l_d := inject_Z (bmonth_len (leap_of rnd m y) mo); l_t := [24] |} = Ok sd /\
    same_clock (s_t sd) [23] /\
    (if mo =? 0 then s_y sd = y /\ s_m sd = 19 /\ s_d sd == 1
     else if mo =? 19 then s_y sd = y + 1 /\ s_m sd = 1 /\ s_d sd == 19
     else s_y sd = y /\ s_m sd = mo + 1 /\ s_d sd == 19)%Z.
Proof.
  intros rnd m trim k v yy mo N E. cbv zeta. change ((k - 1) * 361 + (v - 1) * 19 + yy)%Z with (long_year k v yy). intros Y M.
  assert (V : valid_bday (leap_of rnd m) (long_year k v yy) mo (bmonth_len (leap_of rnd m (long_year k v yy)) mo)).
  { split; [exact M|]. unfold bmonth_len. destruct (mo =? 0)%Z; destruct (leap_of rnd m (long_year k v yy)); lia. }
  pose proof (long_24 rnd N m E trim k v yy mo (bmonth_len (leap_of rnd m (long_year k v yy)) mo) [24] ltac:(lia) ltac:(left; lia) V (same_clock_refl _)) as H.
  unfold carried in H. rewrite Z.ltb_irrefl in H. destruct (mo =? 0)%Z; [|destruct (mo =? 19)%Z]; cbv beta iota in H;
  destruct H as (sd & A & B & C & D & F); exists sd; (split; [exact A|]); (split; [exact F|]); (split; [exact B|]); (split; [exact C|]); exact D.
Qed.
Print Assumptions C07_hour_24_at_month_end.
Example C07_case : exists sd, short_date_from_long_date b64 (year_table b64 six_pm) true
    {| l_k := 1; l_v := 10; l_y := 10; l_m := 3; l_d := 5; l_t := [23; 59; 60] |} = Ok sd /\
  s_y sd = 181%Z /\ s_m sd = 3%Z /\ s_d sd == 6 /\ s_t sd = [b64 (b64 (23 + 1) - 1); b64 (b64 (59 + 1) - 1); b64 (60 - 1)] /\
  b64 (b64 (23 + 1) - 1) == 23 /\ (1 <= 5 < bmonth_len (leap_of b64 six_pm 181) 3)%Z.
Proof. eexists. split; [vm_compute; reflexivity|]. repeat split; vm_compute; reflexivity || discriminate. Qed.

(** ** C42: date and clock of an instant *)
(** Whatever the JD: a short date that is returned is a valid date with a valid clock time. *)
Theorem C42_result_valid : forall rnd m us trim jd sd, Nearest rnd -> evening rnd m ->
  badi_date_from_jd rnd m (year_table rnd m) us true false trim false jd (TEHRAN_LAT rnd) (TEHRAN_LON rnd) = Ok (Short sd) ->
  exists d h mi s u, (-1843 <= s_y sd <= 1161)%Z /\ s_d sd == inject_Z d /\ valid_bday (leap_of rnd m) (s_y sd) (s_m sd) d /\
    same_clock (s_t sd) [inject_Z h; inject_Z mi; s; inject_Z u] /\ (0 <= h <= 23 /\ 0 <= mi <= 59 /\ 0 <= u <= 999999)%Z /\ 0 <= s < 60.
Proof. intros rnd m us trim jd sd N E. exact (decode_valid rnd N m E us trim jd sd). Qed.
Print Assumptions C42_result_valid.
(** From the sunset [sp] opening day (y, mo, d) until 2 ms before the next: the date is that day and the clock is
    the time since [sp], to 3 ms. *)
Theorem C42_date_and_clock : forall rnd m (us trim : bool) y mo d y' mo' d' jd sp sq, Nearest rnd -> evening rnd m ->
  (-1843 <= y <= 1160)%Z -> next_bday (leap_of rnd m) (y, mo, d) (y', mo', d') ->
  ~ In (y, mo, d) irregular_bdates -> to_jd rnd m (bd y mo d) = Ok sp -> to_jd rnd m (bd y' mo' d') = Ok sq ->
  is_float jd -> ~ near_midnight jd -> sp <= jd -> jd < sq -> jd <= sp + 1 - (1 # 40000000) ->
  exists sd h mi s u, badi_date_from_jd rnd m (year_table rnd m) us true false trim false jd (TEHRAN_LAT rnd) (TEHRAN_LON rnd) = Ok (Short sd) /\
    s_y sd = y /\ s_m sd = mo /\ s_d sd = inject_Z d /\ same_clock (s_t sd) [inject_Z h; inject_Z mi; s; inject_Z u] /\
    (0 <= h <= 23)%Z /\ (0 <= mi <= 59)%Z /\ 0 <= s < 60 /\ (0 <= u <= 999999)%Z /\
    (if us then s == inject_Z (Qfloor s) else u = 0%Z) /\
    Qabs ((inject_Z h * 3600 + inject_Z mi * 60 + s + (u # 1000000)) - (jd - sp) * 86400) < 3 # 1000.
Proof. intros rnd m us trim y mo d y' mo' d' jd sp sq N E. exact (full_decode rnd N m E us trim y mo d y' mo' d' jd sp sq). Qed.
Print Assumptions C42_date_and_clock.
(** The last instant of 5 Jamal 181 is reported as 6 Jamal 23:00, that of 19 Jamal as 19 'Azamat 23:00. *)
Theorem C42_last_instant_refuted :
  (exists sp, to_jd b64 six_pm (bd 181 3 6) = Ok sp /\
   let jd := sp - (1 # 1073741824) in is_float jd /\
   exists sd, badi_date_from_jd b64 six_pm (year_table b64 six_pm) false true false true false jd (TEHRAN_LAT b64) (TEHRAN_LON b64) = Ok (Short sd) /\
     s_y sd = 181%Z /\ s_m sd = 3%Z /\ s_d sd == 6 /\ nth 0 (s_t sd) 0 == 23) /\
  (exists sp, to_jd b64 six_pm (bd 181 4 1) = Ok sp /\
   let jd := sp - (1 # 1073741824) in is_float jd /\
   exists sd, badi_date_from_jd b64 six_pm (year_table b64 six_pm) false true false true false jd (TEHRAN_LAT b64) (TEHRAN_LON b64) = Ok (Short sd) /\
     s_y sd = 181%Z /\ s_m sd = 4%Z /\ s_d sd == 19 /\ nth 0 (s_t sd) 0 == 23).
Proof.
  split; (eexists; split; [vm_compute; reflexivity|]; cbv zeta; split;
  [match goal with |- is_float ?x => apply (is_float_comp (b64 x)); [vm_compute; reflexivity|apply near_float, b64_nearest] end|];
  eexists; split; [vm_compute; reflexivity|]; repeat split; vm_compute; reflexivity).
Qed.
Print Assumptions C42_last_instant_refuted.
(** rtd=True: the day is rounded, up from noon of the day (half a day after sunset) on; the month is not
    adjusted, so the last day of a month becomes day 20. *)
Theorem C42_rounded_day : forall rnd m trim jd y mo d fr, Nearest rnd -> evening rnd m ->
  of_jd rnd m jd = Ok (y, mo, d, fr) -> 0 <= fr < 1 ->
  exists d', badi_date_from_jd rnd m (year_table rnd m) false true false trim true jd (TEHRAN_LAT rnd) (TEHRAN_LON rnd) = Ok (Short (bd y mo d')) /\
   (fr <= 499999 # 1000000 -> d' = d) /\ (500001 # 1000000 <= fr -> d' = (d + 1)%Z).
Proof. intros rnd m trim jd y mo d fr N E O F. exact (rtd_decode rnd N m E jd y mo d fr O F trim). Qed.
Print Assumptions C42_rounded_day.
Theorem C42_rounded_day_20_refuted : exists sp, to_jd b64 six_pm (bd 181 3 19) = Ok sp /\
  badi_date_from_jd b64 six_pm (year_table b64 six_pm) false true false true true (sp + (5 # 8)) (TEHRAN_LAT b64) (TEHRAN_LON b64) = Ok (Short (bd 181 3 20)).
Proof. eexists. split; [vm_compute; reflexivity|]. vm_compute. reflexivity. Qed.
Print Assumptions C42_rounded_day_20_refuted.
Example C42_clock_case : exists sp, to_jd b64 six_pm (bd 181 3 5) = Ok sp /\
  exists sd, badi_date_from_jd b64 six_pm (year_table b64 six_pm) false true false true false (sp + (3 # 16)) (TEHRAN_LAT b64) (TEHRAN_LON b64) = Ok (Short sd) /\
  s_m sd = 3%Z /\ s_d sd == 5 /\ s_t sd = [4; 30].
Proof. eexists. split; [vm_compute; reflexivity|]. eexists. split; [vm_compute; reflexivity|]. repeat split; vm_compute; reflexivity. Qed.

(** ** C43: clock times are added to the sunset *)
Theorem C43_clock_added : forall rnd m y mo d sp h mi s us, Nearest rnd -> evening rnd m ->
  (-1843 <= y <= 1161)%Z -> valid_bday (leap_of rnd m) y mo d -> to_jd rnd m (bd y mo d) = Ok sp ->
  (0 <= h <= 24)%Z -> (0 <= mi <= 59)%Z -> 0 <= s < 60 -> (0 <= us < 1000000)%Z -> us = 0%Z \/ s == inject_Z (Qfloor s) ->
  exists j, to_jd rnd m {| s_y := y; s_m := mo; s_d := inject_Z d; s_t := [inject_Z h; inject_Z mi; s; inject_Z us] |} = Ok j /\ is_float j /\
   Qabs (j - (sp + (inject_Z h * 3600 + inject_Z mi * 60 + s + (us # 1000000)) / 86400)) <= 1 # 400000000.
Proof. intros rnd m y mo d sp h mi s us N E. exact (enc_clock rnd N m E y mo d sp h mi s us). Qed.
Print Assumptions C43_clock_added.
Theorem C43_fraction_and_microseconds_refused : forall rnd m y mo d sp h mi s us, Nearest rnd -> evening rnd m ->
  (-1843 <= y <= 1161)%Z -> valid_bday (leap_of rnd m) y mo d -> to_jd rnd m (bd y mo d) = Ok sp ->
  (0 <= h <= 24)%Z -> (0 <= mi <= 59)%Z -> 0 <= s < 60 -> (0 < us < 1000000)%Z -> ~ s == inject_Z (Qfloor s) ->
  to_jd rnd m {| s_y := y; s_m := mo; s_d := inject_Z d; s_t := [inject_Z h; inject_Z mi; s; inject_Z us] |} = Err AssertionError.
Proof. intros rnd m y mo d sp h mi s us N E. exact (enc_clock_refused rnd N m E y mo d sp h mi s us). Qed.
Print Assumptions C43_fraction_and_microseconds_refused.
Example C43_clock_case : exists sp j, to_jd b64 six_pm (bd 181 0 4) = Ok sp /\
  to_jd b64 six_pm {| s_y := 181; s_m := 0; s_d := 4; s_t := [12; 30; 15; 250000] |} = Ok j /\ (521 # 1000) < j - sp < (522 # 1000).
Proof. do 2 eexists. split; [vm_compute; reflexivity|]. split; [vm_compute; reflexivity|]. split; vm_compute; reflexivity. Qed.

(** ** C44: day fractions *)
(** (y, mo, d + f) denotes the sunset opening day d when f is below 0.35753 and the sunset opening the next day when
    f is above 0.35754; the fraction is otherwise ignored.  (Years without an irregular date.) *)
Theorem C44_fraction_selects_sunset : forall rnd m y mo d y' mo' d' f j j', Nearest rnd -> evening rnd m ->
  (-1843 <= y <= 1161)%Z -> (y' <= 1161)%Z -> next_bday (leap_of rnd m) (y, mo, d) (y', mo', d') ->
  (forall p, In p irregular_bdates -> fst (fst p) <> y /\ fst (fst p) <> y') ->
  to_jd rnd m (bd y mo d) = Ok j -> to_jd rnd m (bd y' mo' d') = Ok j' -> 0 <= f < 1 ->
  exists k, to_jd rnd m {| s_y := y; s_m := mo; s_d := inject_Z d + f; s_t := [] |} = Ok k /\
   (f <= 35753 # 100000 -> k == j) /\ (35754 # 100000 <= f -> k == j').
Proof.
  intros rnd m y mo d y' mo' d' f j j' N E Y Y' NX I. apply (frac_day rnd N m E y mo d y' mo' d' f j j' Y Y' NX).
  - intro W. assert (A : forallb (fun y => existsb (fun p => Z.eqb (fst (fst p)) y) irregular_bdates) win_years = true) by reflexivity.
    rewrite forallb_forall in A. apply A in W. apply existsb_exists in W. destruct W as (p & P & Q). apply Z.eqb_eq in Q. destruct (I p P). contradiction.
  - intro W. assert (A : forallb (fun y => existsb (fun p => Z.eqb (fst (fst p)) y) irregular_bdates) win_years = true) by reflexivity.
    rewrite forallb_forall in A. apply A in W. apply existsb_exists in W. destruct W as (p & P & Q). apply Z.eqb_eq in Q. destruct (I p P). contradiction.
Qed.
Print Assumptions C44_fraction_selects_sunset.
(** Half a day after the start of 5 Jamal 181 is encoded half a day late, a quarter a quarter early. *)
Theorem C44_fraction_is_not_added_refuted : exists j a b, to_jd b64 six_pm (bd 181 3 5) = Ok j /\
  to_jd b64 six_pm {| s_y := 181; s_m := 3; s_d := 5 + (1 # 4); s_t := [] |} = Ok a /\
  to_jd b64 six_pm {| s_y := 181; s_m := 3; s_d := 5 + (1 # 2); s_t := [] |} = Ok b /\ a == j /\ (99 # 100) < b - j.
Proof. do 3 eexists. split; [vm_compute; reflexivity|]. split; [vm_compute; reflexivity|]. split; [vm_compute; reflexivity|]. split; vm_compute; reflexivity. Qed.
Print Assumptions C44_fraction_is_not_added_refuted.
Example C44_case : next_bday (leap_of b64 six_pm) (181, 3, 5)%Z (181, 3, 6)%Z /\
  (forall p, In p irregular_bdates -> fst (fst p) <> 181 /\ fst (fst p) <> 181)%Z.
Proof.
  split; [apply nb_day; [lia|vm_compute; split; [discriminate|reflexivity]]|].
  intros p P. assert (A : forallb (fun p => negb (Z.eqb (fst (fst p)) 181)) irregular_bdates = true) by reflexivity.
  rewrite forallb_forall in A. apply A in P. apply negb_true_iff, Z.eqb_neq in P. split; exact P.
Qed.

(** ** C45: packing a clock time *)
(** Hours, minutes and seconds are added as parts of a day; microseconds as millionths of a day. *)
Theorem C45_packed_day : forall rnd m ld, Nearest rnd ->
  check_long rnd (year_table rnd m) ld = Ok tt ->
  exists ld', date_from_kvymdhms rnd (year_table rnd m) false ld = Ok (Long ld') /\
    l_k ld' = l_k ld /\ l_v ld' = l_v ld /\ l_y ld' = l_y ld /\ l_m ld' = l_m ld /\ l_t ld' = [] /\
    Qabs (l_d ld' - (l_d ld + nth 0 (l_t ld) 0 / 24 + nth 1 (l_t ld) 0 / 1440 + nth 2 (l_t ld) 0 / 86400 + nth 3 (l_t ld) 0 / 1000000)) <= 6 # 10000000.
Proof. intros rnd m ld N. exact (pack_time rnd N m ld). Qed.
Print Assumptions C45_packed_day.
(** Half a second given as 500000 microseconds adds half a day; the last day of a month is carried in the short form. *)
Theorem C45_microseconds_refuted :
  (exists ld', date_from_kvymdhms b64 (year_table b64 six_pm) false {| l_k := 1; l_v := 10; l_y := 10; l_m := 3; l_d := 5; l_t := [0; 0; 0; 500000] |} = Ok (Long ld') /\ l_d ld' == 11 # 2) /\
  (exists sd, date_from_kvymdhms b64 (year_table b64 six_pm) true {| l_k := 1; l_v := 10; l_y := 10; l_m := 3; l_d := 19; l_t := [12] |} = Ok (Short sd) /\ s_m sd = 4%Z /\ s_d sd == 37 # 2).
Proof. split; eexists; (split; [vm_compute; reflexivity|]); repeat split; vm_compute; reflexivity. Qed.
Print Assumptions C45_microseconds_refuted.
Example C45_case : check_long b64 (year_table b64 six_pm) {| l_k := 1; l_v := 10; l_y := 10; l_m := 3; l_d := 5; l_t := [6; 30; 15] |} = Ok tt.
Proof. vm_compute. reflexivity. Qed.
