(** PropertiesLim.v -- C98: the class attributes min, max, longmin and longmax. *)
From Coq Require Import ZArith QArith Qround Qabs List Bool Lia Lqa String.
From Coq Require Import ZifyBool.
From Verif Require Import Base Flt QUtil BaseModel MiscModel BadiModel BaseProofs SunProofs SpecBadi BadiProofs BadiProofs2 BadiProofs3 DecProofs BadiProofs4 LongYear LongProofs BadiProofs5
  TduModel DateModel SpecDate TduProofs TduProofs2 TduProofs3 DateProofs SampleSun PropertiesBadi PropertiesDate PropertiesDate2
  TimeModel SpecTime TimeProofs PropertiesTime PropertiesDt StrfModel PropertiesStrf2 LimModel SpecLim.
Import ListNotations.
Local Open Scope Z_scope.

Lemma limits_built rnd m : Nearest rnd -> evening rnd m ->
  date_min rnd m = Ok (DShort (-1842) 1 1) /\ date_max rnd m = Ok (DShort 1161 19 19) /\
  date_longmin rnd m = Ok (DLong (-5) 18 1 1 1) /\ date_longmax rnd m = Ok (DLong 4 5 2 19 19).
Proof.
  intros N E. split; [|split; [|split]].
  - apply (new_short rnd N m E). vm_compute. repeat split; discriminate.
  - apply (new_short rnd N m E). vm_compute. repeat split; discriminate.
  - apply (new_long rnd N m E); [lia|lia|]. vm_compute. repeat split; discriminate.
  - apply (new_long rnd N m E); [lia|lia|]. vm_compute. repeat split; discriminate.
Qed.
Lemma okb (b : bool) : Ok b = Ok true <-> b = true.
Proof. split; congruence. Qed.
Ltac cmp := unfold date_le, date_lt, time_le, time_lt, dt_le, dt_lt; cbn [date_cmp bind cmp_tuple];
  repeat match goal with |- context[?a =? ?b] => destruct (Z.eqb_spec a b) end;
  repeat match goal with |- context[?a <? ?b] => destruct (Z.ltb_spec a b) end; cbn [Z.leb Z.ltb Z.compare]; rewrite ?okb.

(** The four dates are days of the calendar, the long ones the same days as the short ones, and _MAXORDINAL is the number of
    the last. *)
Theorem C98_same_days : forall rnd m, Nearest rnd -> evening rnd m -> naw_ruz_order rnd m ->
  exists lo hi llo lhi, date_min rnd m = Ok lo /\ date_max rnd m = Ok hi /\ date_longmin rnd m = Ok llo /\ date_longmax rnd m = Ok lhi /\
    supported rnd m lo (-1842) 1 1 /\ supported rnd m llo (-1842) 1 1 /\ supported rnd m hi 1161 19 19 /\ supported rnd m lhi 1161 19 19 /\
    toordinal rnd m lo = Ok 78 /\ toordinal rnd m llo = Ok 78 /\ toordinal rnd m hi = Ok MAXORDINAL /\ toordinal rnd m lhi = Ok MAXORDINAL.
Proof.
  intros rnd m N E O. destruct (limits_built rnd m N E) as (A & B & C & D). do 4 eexists. rewrite A, B, C, D. do 4 (split; [reflexivity|]).
  assert (V : forall y mo d, okd y mo d -> -1842 <= y -> forall a, denotes a y mo d -> supported rnd m a y mo d).
  { intros y mo d K Y a H. split; [exact H|]. split; [unfold okd in K; lia|]. exact (ok_valid rnd N m E y mo d K). }
  assert (K1 : okd (-1842) 1 1) by (vm_compute; repeat split; discriminate). assert (K2 : okd 1161 19 19) by (vm_compute; repeat split; discriminate).
  do 2 (split; [apply V; [exact K1|lia|cbn; lia]|]). do 2 (split; [apply V; [exact K2|lia|cbn; lia]|]).
  split; [rewrite (toord_ok rnd N m E O _ (-1842) 1 1); [vm_compute; reflexivity|cbn; lia|exact K1]|].
  split; [rewrite (toord_ok rnd N m E O _ (-1842) 1 1); [vm_compute; reflexivity|cbn; lia|exact K1]|].
  split; (rewrite (toord_ok rnd N m E O _ 1161 19 19); [vm_compute; reflexivity|cbn; lia|exact K2]).
Qed.
Print Assumptions C98_same_days.

(** A short date compares between date.min and date.max unless its year is -1843 or 1162, which the constructor takes, or it
    is in Ayyam-i-Ha of the first year, whose days compare lower than its first day. *)
Theorem C98_dates : forall rnd m args a lo hi, Nearest rnd -> evening rnd m -> date_new rnd m args = Ok a -> is_short a = true ->
  date_min rnd m = Ok lo -> date_max rnd m = Ok hi ->
  (-1843 <= year_of a <= 1162) /\
  (date_le lo a = Ok true <-> ~ year_of a = -1843 /\ ~ (year_of a = -1842 /\ ayyam_i_ha a)) /\
  (date_le a hi = Ok true <-> ~ year_of a = 1162).
Proof.
  intros rnd m args a lo hi N E H S A B. destruct (limits_built rnd m N E) as (A' & B' & _). rewrite A' in A. rewrite B' in B. injection A as <-. injection B as <-.
  destruct args as [|y [|mo [|d [|mo' [|d' [|? ?]]]]]]; try discriminate.
  - pose proof (proj1 (date_new3 rnd m y mo d N E) (ex_intro _ a H)) as V. cbn [date_new] in H. destruct (check_short _ _ _); [|discriminate]. cbn [bind] in H. injection H as <-.
    assert (d <= 19). { unfold bmonth_len in V. destruct (mo =? 0); [|lia]. destruct (leap_of rnd m y); lia. }
    cbn [year_of ayyam_i_ha]. split; [lia|]. cmp; lia.
  - cbn [date_new] in H. destruct (check_long _ _ _); [|discriminate]. injection H as <-. discriminate.
Qed.
Print Assumptions C98_dates.

(** The long form takes the days of every year of the Kull-i-Shays -6 to 5, up to 684 years before longmin and 644 years after
    longmax; only Ayyam-i-Ha is confined to the years of the table.  They compare as they should with longmin and longmax,
    but for Ayyam-i-Ha of the first year. *)
Theorem C98_long_dates : forall rnd m args a lo hi, Nearest rnd -> evening rnd m -> date_new rnd m args = Ok a -> is_short a = false ->
  date_longmin rnd m = Ok lo -> date_longmax rnd m = Ok hi ->
  (-2526 <= year_of a <= 1805) /\
  (date_le lo a = Ok true <-> -1842 <= year_of a /\ ~ (year_of a = -1842 /\ ayyam_i_ha a)) /\
  (date_le a hi = Ok true <-> year_of a <= 1161).
Proof.
  intros rnd m args a lo hi N E H S A B. destruct (limits_built rnd m N E) as (_ & _ & A' & B'). rewrite A' in A. rewrite B' in B. injection A as <-. injection B as <-.
  destruct args as [|k [|v [|y [|mo [|d [|? ?]]]]]]; try discriminate.
  - cbn [date_new] in H. destruct (check_short _ _ _); [|discriminate]. injection H as <-. discriminate.
  - pose proof (proj1 (date_new5 rnd m k v y mo d N E) (ex_intro _ a H)) as V. cbn [date_new] in H. destruct (check_long _ _ _); [|discriminate]. cbn [bind] in H. injection H as <-.
    assert (d <= 19). { unfold bmonth_len in V. destruct (mo =? 0); [|lia]. destruct (leap_of rnd m _); lia. }
    cbn [year_of ayyam_i_ha]. unfold long_year in V. split; [lia|]. cmp; lia.
Qed.
Print Assumptions C98_long_dates.
Theorem C98_long_years_refuted : forall rnd m k v y mo d, Nearest rnd -> evening rnd m -> -6 <= k <= 5 -> 1 <= v <= 19 -> 1 <= y <= 19 -> 1 <= mo <= 19 -> 1 <= d <= 19 ->
  date_new rnd m [k; v; y; mo; d] = Ok (DLong k v y mo d).
Proof.
  intros rnd m k v y mo d N E K V Y M D. destruct (proj2 (date_new5 rnd m k v y mo d N E)) as (a & H).
  - split; [lia|]. split; [lia|]. unfold bmonth_len. replace (mo =? 0) with false by lia. split; [lia|lia].
  - rewrite H. cbn [date_new] in H. destruct (check_long _ _ _); [|discriminate]. cbn [bind] in H. congruence.
Qed.
Print Assumptions C98_long_years_refuted.

(** A naive time is never earlier than time.min.  It is not later than time.max exactly when it is at most 24:00:03, and
    hour 24 has 59 more minutes. *)
Theorem C98_times : forall h mi s us fold a lo hi, time_new h mi s us None fold = Ok a -> time_min = Ok lo -> time_max = Ok hi ->
  time_le lo a = Ok true /\ (time_le a hi = Ok true <-> ~ (h = 24 /\ (0 < mi \/ 3 < s \/ s = 3 /\ 0 < us))).
Proof.
  intros h mi s us fold a lo hi H A B. injection A as <-. injection B as <-. 
  assert (V : valid_clock h mi s us).
  { destruct (C56_time_constructor h mi s us None fold) as [_ [_ F]]. unfold time_new in H. rewrite check_fields in H.
    destruct (clock_ok h mi s us) eqn:Q; [apply clock_ok_spec; exact Q|discriminate]. }
  unfold time_new in H. destruct (check_time_fields _ _ _ _ _); [|discriminate]. injection H as <-. unfold valid_clock in V.
  unfold time_le, time_cmp. cbn [t_tz t_h t_mi t_s t_us same_tz]. split; cmp; lia.
Qed.
Print Assumptions C98_times.

(** A naive datetime of a short date in the supported years is earlier than datetime.min exactly in Ayyam-i-Ha of the first
    year, and later than datetime.max exactly on the last day, at any time but 00:00. *)
Theorem C98_datetimes : forall rnd m args h mi s us fold a lo hi, Nearest rnd -> evening rnd m -> dt_new rnd m args h mi s us None fold = Ok a ->
  is_short (dt_d a) = true -> -1842 <= year_of (dt_d a) <= 1161 -> dt_min rnd m = Ok lo -> dt_max rnd m = Ok hi ->
  (dt_le rnd m lo a = Ok true <-> ~ (year_of (dt_d a) = -1842 /\ ayyam_i_ha (dt_d a))) /\
  (dt_le rnd m a hi = Ok true <-> ~ (year_of (dt_d a) = 1161 /\ last_day (dt_d a) /\ (0 < h \/ 0 < mi \/ 0 < s \/ 0 < us))).
Proof.
  intros rnd m args h mi s us fold a lo hi N E H S Y A B.
  apply C56_datetime_constructor in H. destruct H as (d & H & V & F & ->). cbn [dt_d] in *.
  destruct (limits_built rnd m N E) as (A' & B' & _). 
  apply C56_datetime_constructor in A. destruct A as (? & A & _ & _ & ->). unfold date_min in A'. assert (x = DShort (-1842) 1 1) by congruence. subst x.
  apply C56_datetime_constructor in B. destruct B as (? & B & _ & _ & ->). unfold date_max in B'. assert (x = DShort 1161 19 19) by congruence. subst x.
  destruct args as [|y [|mo [|dd [|mo' [|d' [|? ?]]]]]]; try discriminate.
  - pose proof (proj1 (date_new3 rnd m y mo dd N E) (ex_intro _ d H)) as W. cbn [date_new] in H. destruct (check_short _ _ _); [|discriminate]. cbn [bind] in H. injection H as <-.
    assert (dd <= 19). { unfold bmonth_len in W. destruct (mo =? 0); [|lia]. destruct (leap_of rnd m y); lia. }
    cbn [year_of ayyam_i_ha last_day] in *. unfold valid_clock in V.
    unfold dt_le, dt_cmp. cbn [dt_tz same_tz dt_fields ymd dt_d dt_h dt_mi dt_s dt_us]. split; cmp; lia.
  - cbn [date_new] in H. destruct (check_long _ _ _); [|discriminate]. injection H as <-. discriminate.
Qed.
Print Assumptions C98_datetimes.

(** timezone.min and timezone.max are zones the class could make, but zones up to a minute further off can be made too. *)
Theorem C98_zones : forall utc, z_off utc = 0 -> 
  timezone_new utc (z_off zone_min) None = Ok zone_min /\ timezone_new utc (z_off zone_max) None = Ok zone_max /\ z_off zone_min = - z_off zone_max /\
  forall o name z, timezone_new utc o name = Ok z ->
    z_off z = o /\ z_off zone_min - MINUTE < o < z_off zone_max + MINUTE.
Proof.
  intros utc U. split; [reflexivity|]. split; [reflexivity|]. split; [reflexivity|]. intros o name z H. unfold timezone_new in H.
  unfold zone_min, zone_max, MINUTE. cbn [z_off]. unfold DAY in H.
  destruct name as [n|]; [|destruct (Z.eqb_spec o 0) as [->|]; [injection H as <-; lia|]];
    (destruct (_ && _) eqn:Q; [|discriminate]); injection H as <-; cbn [z_off]; lia.
Qed.
Print Assumptions C98_zones.
Theorem C98_zones_refuted : forall utc o, z_off zone_max < o < z_off zone_max + MINUTE ->
  (exists z, timezone_new utc o None = Ok z /\ z_off z = o) /\ (exists z, timezone_new utc (- o) None = Ok z /\ z_off z = - o).
Proof.
  intros utc o O. unfold zone_max, MINUTE in O. cbn [z_off] in O. unfold timezone_new, DAY. replace (o =? 0) with false by lia. replace (- o =? 0) with false by lia.
  split; (destruct (_ && _) eqn:Q; [eexists; split; [reflexivity|reflexivity]|lia]).
Qed.
Print Assumptions C98_zones_refuted.

Example C98_case : date_new b64 sample_sun [-1842; 0; 1] = Ok (DShort (-1842) 0 1) /\ date_le (DShort (-1842) 1 1) (DShort (-1842) 0 1) = Ok false /\
  date_new b64 sample_sun [1162; 1; 1] = Ok (DShort 1162 1 1) /\ date_le (DShort 1162 1 1) (DShort 1161 19 19) = Ok false /\
  date_new b64 sample_sun [5; 19; 19; 19; 19] = Ok (DLong 5 19 19 19 19) /\ year_of (DLong 5 19 19 19 19) = 1805 /\
  date_min b64 sample_sun = Ok (DShort (-1842) 1 1) /\ date_longmax b64 sample_sun = Ok (DLong 4 5 2 19 19) /\
  time_new 24 59 60 999999 None 0 = Ok (mk_time 24 59 60 999999 None) /\ time_max = Ok (mk_time 24 0 3 0 None) /\
  dt_max b64 sample_sun = Ok (mk_dt 1161 19 19 0 0 0 0 None) /\ dt_new b64 sample_sun [1161; 19; 19] 12 0 0 0 None 0 = Ok (mk_dt 1161 19 19 12 0 0 0 None) /\
  z_off zone_max = 86340000000 /\ timezone_new zone_max 86399999999 None = Ok {| z_off := 86399999999; z_name := None |}.
Proof. vm_compute. tauto. Qed.
