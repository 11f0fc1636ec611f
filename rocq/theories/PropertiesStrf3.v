(** PropertiesStrf3.v -- C61: time tuples of dates and datetimes. *)
From Coq Require Import ZArith QArith Qround Qabs List Bool Lia Lqa String.
From Coq Require Import ZifyBool ZifyNat ZifyN.
From Verif Require Import Base Flt QUtil BaseModel MiscModel BadiModel BaseProofs SunProofs SpecBadi BadiProofs BadiProofs2 BadiProofs3 DecProofs BadiProofs4 LongYear LongProofs BadiProofs5
  ClockProofs3 ClockProofs4 TduModel DateModel SpecDate TduProofs TduProofs2 TduProofs3 DateProofs SampleSun PropertiesBadi PropertiesDate PropertiesDate2
  TimeModel SpecTime TimeProofs PropertiesTime PropertiesDt TextModel SpecText TextProofs PropertiesText StrfModel SpecStrf StrfProofs PropertiesStrf PropertiesStrf2.
Import ListNotations.
Local Open Scope Z_scope.
Ltac Zify.zify_post_hook ::= Z.div_mod_to_equations.

Lemma doy_eq leap mo d : 0 <= mo <= 19 -> zdbm leap mo + d = bday_of_year leap mo d.
Proof.
  intro M. unfold zdbm, bday_of_year, bmonth_len, b2z. destruct (Z.eqb_spec mo 0); [lia|]. destruct (Z.ltb_spec mo 19), (Z.eqb_spec mo 19); try lia. cbn [Z.eqb]. destruct leap; lia.
Qed.
Lemma doy_range leap mo d : 0 <= mo <= 19 -> 1 <= d <= bmonth_len leap mo -> 1 <= bday_of_year leap mo d <= 366.
Proof. intros M D. unfold bday_of_year, bmonth_len in *. cbn [Z.eqb]. destruct (Z.eqb_spec mo 0), (Z.eqb_spec mo 19); destruct leap; lia. Qed.

Section Tuple.
Variable rnd : Q -> Q.
Hypothesis N : Nearest rnd.
Variable m : Q -> Q -> Q -> Q.
Hypothesis EV : evening rnd m.
Hypothesis O : naw_ruz_order rnd m.
Let T := year_table rnd m.

Lemma check_int_clock y mo d h mi s : okd y mo d -> 0 <= h <= 23 -> 0 <= mi <= 59 -> 0 <= s <= 59 ->
  check_short rnd T {| s_y := y; s_m := mo; s_d := inject_Z d; s_t := [inject_Z h; inject_Z mi; inject_Z s] |} = Ok tt.
Proof.
  intros K H MI S. pose proof (ok_check rnd N m EV y mo d K) as C. unfold check_short in *. cbn [bd s_y s_m s_d s_t] in *. fold T in C.
  destruct (passert _) as [[]|]; [|discriminate]. cbn [bind] in *.
  pose proof (proj1 (mdt_iff rnd N m EV y mo d) C) as (M & D & L).
  unfold check_mdt in *. cbn [get_hms nth] in *. destruct (passert ((0 <=? mo) && _)) as [[]|]; [|discriminate]. cbn [bind] in *.
  destruct (if mo =? 0 then _ else _) as [cyc|]; [|discriminate]. cbn [bind] in *. destruct (passert (Qleb 1 _ && _)) as [[]|]; [|discriminate]. cbn [bind] in *.
  assert (CT : check_time (inject_Z h) (inject_Z mi) (inject_Z s) 0 60 = Ok tt).
  { unfold check_time. change 0%Q with (inject_Z 0). change 25%Q with (inject_Z 25). change 60%Q with (inject_Z 60). rewrite !Qleb_Z, !Qltb_Z.
    replace ((0 <=? h) && (h <? 25)) with true by lia. replace ((0 <=? mi) && (mi <? 60)) with true by lia. replace ((0 <=? s) && (s <? 60)) with true by lia. reflexivity. }
  rewrite CT. cbn [bind].
  assert (F : forall z, Qeqb (fmod1 rnd (inject_Z z)) 0 = true).
  { intro z. pose proof (fmod1_Z rnd z) as Z0. unfold nonzero in Z0. apply negb_false_iff in Z0. exact Z0. }
  rewrite !F. cbn [passert]. destruct (nonzero (inject_Z h)), (nonzero (inject_Z mi)), (nonzero (inject_Z s)); reflexivity.
Qed.

Definition zw (y mo d : Z) : Z := (zord y mo d + 1) mod 7.
Lemma build_tuple a y mo d h mi s dst zi : denotes a y mo d -> okd y mo d -> 0 <= h <= 24 -> 0 <= mi <= 59 -> 0 <= s <= 60 ->
  is_short a = true \/ (h <= 23 /\ s <= 59) ->
  build_struct_time rnd m a h mi s dst zi = struct_time rnd m (b_date a ++ [h; mi; s; zw y mo d; bday_of_year (leap_of rnd m y) mo d; dst]) zi.
Proof.
  intros D K H MI S F. pose proof K as (KY & KM & KD).
  assert (X : forall (y' mo' d' : Z), y' = y -> mo' = mo -> d' = d -> (let* wday := day_of_week rnd m y' mo' d' in let* before := days_before_month rnd m y' mo' in
     struct_time rnd m (b_date a ++ [h; mi; s; wday; before + d'; dst]) zi) = struct_time rnd m (b_date a ++ [h; mi; s; zw y mo d; bday_of_year (leap_of rnd m y) mo d; dst]) zi).
  { intros y' mo' d' -> -> ->. rewrite (dow_ok rnd N m EV O) by lia. cbn [bind]. rewrite (dbm_z rnd N m EV) by lia. cbn [bind].
    rewrite doy_eq by lia. rewrite (leap_of_ok rnd N m EV) by lia. reflexivity. }
  unfold build_struct_time. destruct a as [y' mo' d'|k v yy mo' d'].
  - destruct D as (-> & -> & ->). cbn [bind]. apply X; reflexivity.
  - destruct D as (V & YY & L & -> & ->). destruct F as [F|[F1 F2]]; [discriminate|].
    assert (LY : long_year k v yy = y) by (unfold long_year; lia).
    pose proof (short_of_long rnd N m EV false k v yy mo (inject_Z d) [inject_Z h; inject_Z mi; inject_Z s] V YY) as SL. rewrite LY in SL. cbn [nth] in SL.
    rewrite SL; [|apply check_int_clock; [exact K|lia|lia|lia]|change 24%Q with (inject_Z 24); rewrite <- Zlt_Qlt; lia|change 60%Q with (inject_Z 60); rewrite <- Zlt_Qlt; lia|
      change 60%Q with (inject_Z 60); rewrite <- Zlt_Qlt; lia|rewrite (leap_of_ok rnd N m EV) by lia; rewrite <- Zle_Qle; lia].
    cbn [bind s_y s_m s_d]. rewrite Qfloor_Z. apply X; reflexivity.
Qed.
Lemma tuple_accepted a y mo d h mi s wd yd dst zi : denotes a y mo d -> okd y mo d -> -1842 <= y -> 0 <= h <= 24 -> 0 <= mi <= 59 -> 0 <= s <= 60 -> -1 <= dst <= 1 ->
  good_offset (option_map zi_tz zi) -> exists x, struct_time rnd m (b_date a ++ [h; mi; s; wd; yd; dst]) zi = Ok x.
Proof.
  intros D K Y H MI S DS G. pose proof K as (KY & KM & KD). apply C54_struct_time_accepts; [exact N|exact EV|]. split; [|exact G].
  unfold struct_tuple, struct_fields_ok. rewrite <- (leap_of_ok rnd N m EV) in KD by lia. destruct a as [y' mo' d'|k v yy mo' d'].
  - destruct D as (-> & -> & ->). left. exists y, mo, d, h, mi, s, wd, yd, dst. split; [reflexivity|]. lia.
  - destruct D as (V & YY & L & -> & ->). right. exists k, v, yy, mo, d, h, mi, s, wd, yd, dst. split; [reflexivity|].
    replace (361 * (k - 1) + 19 * (v - 1) + yy) with y by lia. lia.
Qed.
Lemma items_split s (l : list Z) x : removelast (st_items s) = removelast (l ++ [x]) -> last (st_items s) 0 = x -> st_items s = l ++ [x].
Proof.
  intros R E. rewrite removelast_last in R. rewrite <- R, <- E. apply app_removelast_last. unfold st_items. destruct (st_kv s) as [[? ?]|]; discriminate.
Qed.
End Tuple.

(** C61 (dates): the tuple of a date is its own fields, midnight, its weekday, its day of the year and dst unknown. *)
Theorem C61_date_timetuple : forall rnd m a y mo d, Nearest rnd -> evening rnd m -> naw_ruz_order rnd m -> supported rnd m a y mo d ->
  exists s w, date_timetuple rnd m a = Ok s /\ weekday rnd m a = Ok w /\
    st_items s = b_date a ++ [0; 0; 0; w; bday_of_year (leap_of rnd m y) mo d; -1] /\ st_zone s = None /\ st_gmtoff s = None.
Proof.
  intros rnd m a y mo d N E O S. destruct (sup_ok rnd m a y mo d N E S) as (D & K & Y).
  unfold date_timetuple. rewrite (build_tuple rnd N m E O a y mo d 0 0 0 (-1) None D K) by (try lia; right; lia).
  destruct (tuple_accepted rnd N m E a y mo d 0 0 0 (zw y mo d) (bday_of_year (leap_of rnd m y) mo d) (-1) None D K Y) as (x & X); try lia; [intros ? ?; discriminate|].
  exists x, (zw y mo d). split; [exact X|]. split; [apply (weekday_ok rnd N m E O a y mo d D K)|].
  destruct (C54_struct_time_items rnd m _ _ _ X) as (I1 & I2 & I3 & I4).
  split; [|split; [exact I3|exact I4]].
  change [0; 0; 0; zw y mo d; bday_of_year (leap_of rnd m y) mo d; -1] with ([0; 0; 0; zw y mo d; bday_of_year (leap_of rnd m y) mo d] ++ [-1]) in *.
  rewrite app_assoc in *. apply items_split; [exact I1|]. rewrite I2. apply last_last.
Qed.
Print Assumptions C61_date_timetuple.

(** What the dst item says: the answer of the zone, else [d]. *)
Definition dst_flag (zi : option zinfo) (d : Z) : Z := match zi with Some {| zi_dst := Some t |} => if t =? 0 then 0 else 1 | _ => d end.

(** C61 (datetimes): the tuple of a datetime is its fields, its weekday and its day of the year; the zone fills the dst
    flag, the name and the offset in seconds.  For the long form the clock must be below 24 hours and 60 seconds. *)
Theorem C61_timetuple : forall rnd m a zi y mo d, Nearest rnd -> evening rnd m -> naw_ruz_order rnd m -> supported rnd m (dt_d a) y mo d -> valid_dt_clock a ->
  option_map zi_tz zi = dt_tz a -> is_short (dt_d a) = true \/ (dt_h a <= 23 /\ dt_s a <= 59) ->
  exists s w, dt_timetuple rnd m a zi = Ok s /\ weekday rnd m (dt_d a) = Ok w /\
    st_items s = b_date (dt_d a) ++ [dt_h a; dt_mi a; dt_s a; w; bday_of_year (leap_of rnd m y) mo d; dst_flag zi (-1)] /\
    st_zone s = match zi with Some z => zi_name z | None => None end /\
    st_gmtoff s = match offset (dt_tz a) with Some o => if o =? 0 then None else Some (rnd (o # 1000000)) | None => None end.
Proof.
  intros rnd m a zi y mo d N E O S (C & _ & G) Z F. destruct (sup_ok rnd m (dt_d a) y mo d N E S) as (D & K & Y). unfold valid_clock in C.
  unfold dt_timetuple. rewrite (build_tuple rnd N m E O (dt_d a) y mo d _ _ _ (-1) zi D K) by (try lia; exact F).
  destruct (tuple_accepted rnd N m E (dt_d a) y mo d (dt_h a) (dt_mi a) (dt_s a) (zw y mo d) (bday_of_year (leap_of rnd m y) mo d) (-1) zi D K Y) as (x & X); try lia; [rewrite Z; exact G|].
  exists x, (zw y mo d). split; [exact X|]. split; [apply (weekday_ok rnd N m E O (dt_d a) y mo d D K)|].
  destruct (C54_struct_time_items rnd m _ _ _ X) as (I1 & I2 & I3 & I4).
  split; [|split; [exact I3|rewrite <- Z; exact I4]].
  assert (LS : forall q, b_date (dt_d a) ++ [dt_h a; dt_mi a; dt_s a; zw y mo d; bday_of_year (leap_of rnd m y) mo d; q] = (b_date (dt_d a) ++ [dt_h a; dt_mi a; dt_s a; zw y mo d; bday_of_year (leap_of rnd m y) mo d]) ++ [q]) by (intro q; rewrite <- app_assoc; reflexivity).
  rewrite LS in *. rewrite last_last in I2. rewrite removelast_last in I1. apply items_split; [rewrite removelast_last; exact I1|]. rewrite I2. unfold dst_flag. destruct zi as [[z n [t|]]|]; reflexivity.
Qed.
Print Assumptions C61_timetuple.

(** C61 (UTC): utctimetuple is the tuple of the datetime moved back by its offset, with dst 0; a naive datetime, or one at
    offset zero, is not moved. *)
Theorem C61_utctimetuple : forall rnd m a l o, Nearest rnd -> evening rnd m -> naw_ruz_order rnd m -> on_line rnd m a l -> steady_dt a -> valid_dt_clock a ->
  offset (dt_tz a) = Some o -> o <> 0 -> forall s, dt_utctimetuple rnd m a = Ok s ->
  exists b y mo d w, on_line rnd m b (l - o) /\ plain_clock (dt_h b) (dt_mi b) (dt_s b) (dt_us b) /\ supported rnd m (dt_d b) y mo d /\ weekday rnd m (dt_d b) = Ok w /\
    is_short (dt_d b) = is_short (dt_d a) /\ st_items s = b_date (dt_d b) ++ [dt_h b; dt_mi b; dt_s b; w; bday_of_year (leap_of rnd m y) mo d; 0] /\ st_zone s = None /\ st_gmtoff s = None.
Proof.
  intros rnd m a l o N E O H ST (C & _ & G) OF NZ s R. unfold dt_utctimetuple in R. rewrite (utcoffset_ok _ G) in R. cbn [bind] in R. rewrite OF in R. replace (o =? 0) with false in R by lia.
  unfold dt_sub_td in R. destruct (dt_add rnd m a (- o)) as [b|] eqn:B; [|discriminate]. cbn [bind] in R.
  destruct (C25_add rnd m a l (- o) b N E O H ST B) as (L & P & TZ & F & _). replace (l + - o) with (l - o) in L by lia. pose proof L as (y & mo & d & r & S & _ & _).
  destruct (sup_ok rnd m (dt_d b) y mo d N E S) as (D & K & Y). unfold plain_clock in P.
  rewrite (build_tuple rnd N m E O (dt_d b) y mo d _ _ _ 0 None D K) in R by (try lia; right; lia).
  exists b, y, mo, d, (zw y mo d). split; [exact L|]. split; [exact P|]. split; [exact S|]. split; [apply (weekday_ok rnd N m E O (dt_d b) y mo d D K)|]. split; [exact F|].
  destruct (C54_struct_time_items rnd m _ _ _ R) as (I1 & I2 & I3 & I4). split; [|split; [exact I3|exact I4]].
  assert (LS : forall q, b_date (dt_d b) ++ [dt_h b; dt_mi b; dt_s b; zw y mo d; bday_of_year (leap_of rnd m y) mo d; q] = (b_date (dt_d b) ++ [dt_h b; dt_mi b; dt_s b; zw y mo d; bday_of_year (leap_of rnd m y) mo d]) ++ [q]) by (intro q; rewrite <- app_assoc; reflexivity).
  rewrite LS in *. apply items_split; [exact I1|]. rewrite I2. apply last_last.
Qed.
Print Assumptions C61_utctimetuple.
Lemma add_shape rnd m a l td b : Nearest rnd -> evening rnd m -> naw_ruz_order rnd m -> on_line rnd m a l -> dt_add rnd m a td = Ok b ->
  plain_clock (dt_h b) (dt_mi b) (dt_s b) (dt_us b) /\ exists y mo d, supported rnd m (dt_d b) y mo d.
Proof.
  intros N E O H A. destruct (line_ok rnd m a l N E O H) as (y & mo & d & S & D & K & Y & T & L).
  rewrite (dt_add_date rnd m a td _ T) in A. destruct (date_add rnd m (dt_d a) ((dt_clock a + td) / 86400000000)) as [d0|e] eqn:B; [|discriminate].
  assert (Q : b = clock_of ((dt_clock a + td) mod 86400000000) d0 (dt_tz a)) by congruence. subst b.
  destruct (add_inv rnd m _ y mo d _ d0 N E O D K B) as (y' & mo' & d' & K' & Y' & Z' & _ & D' & F).
  destruct (clock_of_ok ((dt_clock a + td) mod 86400000000) d0 (dt_tz a) ltac:(lia)) as [C P]. split; [exact P|]. exists y', mo', d'.
  split; [exact D'|split; [unfold okd in K'; lia|apply (ok_valid rnd N m E), K']].
Qed.
(** It is defined whenever the shifted datetime is (the days refused by addition, C25, are the only ones missing). *)
Theorem C61_utctimetuple_defined : forall rnd m a l o b, Nearest rnd -> evening rnd m -> naw_ruz_order rnd m -> on_line rnd m a l -> valid_dt_clock a ->
  offset (dt_tz a) = Some o -> dt_add rnd m a (- o) = Ok b -> o <> 0 -> exists s, dt_utctimetuple rnd m a = Ok s.
Proof.
  intros rnd m a l o b N E O H (C & _ & G) OF B NZ. unfold dt_utctimetuple. rewrite (utcoffset_ok _ G). cbn [bind]. rewrite OF. replace (o =? 0) with false by lia.
  unfold dt_sub_td. rewrite B. cbn [bind]. destruct (add_shape rnd m a l (- o) b N E O H B) as (P & y & mo & d & S).
  destruct (sup_ok rnd m (dt_d b) y mo d N E S) as (D & K & Y). unfold plain_clock in P.
  rewrite (build_tuple rnd N m E O (dt_d b) y mo d _ _ _ 0 None D K) by (try lia; right; lia).
  apply (tuple_accepted rnd N m E (dt_d b) y mo d); try assumption; try lia. intros ? ?; discriminate.
Qed.
Print Assumptions C61_utctimetuple_defined.
Theorem C61_utctimetuple_unmoved : forall rnd m a y mo d, Nearest rnd -> evening rnd m -> naw_ruz_order rnd m -> supported rnd m (dt_d a) y mo d -> valid_dt_clock a ->
  offset (dt_tz a) = None \/ offset (dt_tz a) = Some 0 -> is_short (dt_d a) = true \/ (dt_h a <= 23 /\ dt_s a <= 59) ->
  exists s w, dt_utctimetuple rnd m a = Ok s /\ weekday rnd m (dt_d a) = Ok w /\
    st_items s = b_date (dt_d a) ++ [dt_h a; dt_mi a; dt_s a; w; bday_of_year (leap_of rnd m y) mo d; 0].
Proof.
  intros rnd m a y mo d N E O S (C & _ & G) OF F. destruct (sup_ok rnd m (dt_d a) y mo d N E S) as (D & K & Y). unfold valid_clock in C.
  unfold dt_utctimetuple. rewrite (utcoffset_ok _ G). cbn [bind].
  assert (U : (match offset (dt_tz a) with Some o => if o =? 0 then Ok a else dt_sub_td rnd m a o | None => Ok a end) = Ok a) by (destruct OF as [-> | ->]; reflexivity).
  rewrite U. cbn [bind]. rewrite (build_tuple rnd N m E O (dt_d a) y mo d _ _ _ 0 None D K) by (try lia; exact F).
  destruct (tuple_accepted rnd N m E (dt_d a) y mo d (dt_h a) (dt_mi a) (dt_s a) (zw y mo d) (bday_of_year (leap_of rnd m y) mo d) 0 None D K Y) as (x & X); try lia; [intros ? ?; discriminate|].
  exists x, (zw y mo d). split; [exact X|]. split; [apply (weekday_ok rnd N m E O (dt_d a) y mo d D K)|].
  destruct (C54_struct_time_items rnd m _ _ _ X) as (I1 & I2 & _).
  assert (LS : forall q, b_date (dt_d a) ++ [dt_h a; dt_mi a; dt_s a; zw y mo d; bday_of_year (leap_of rnd m y) mo d; q] = (b_date (dt_d a) ++ [dt_h a; dt_mi a; dt_s a; zw y mo d; bday_of_year (leap_of rnd m y) mo d]) ++ [q]) by (intro q; rewrite <- app_assoc; reflexivity).
  rewrite LS in *. apply items_split; [exact I1|]. rewrite I2. apply last_last.
Qed.
Print Assumptions C61_utctimetuple_unmoved.

(** Refuted for long forms at hour 24: the tuple keeps the day but carries the weekday and day of year of the next day. *)
Theorem C61_long_hour_24_refuted : forall rnd m a y mo d s, Nearest rnd -> evening rnd m -> naw_ruz_order rnd m -> supported rnd m (dt_d a) y mo d ->
  is_short (dt_d a) = false -> dt_h a = 24 -> dt_mi a = 0 -> dt_s a = 0 -> d < bmonth_len (leap_of rnd m y) mo ->
  dt_timetuple rnd m a None = Ok s -> dt_tz a = None ->
  exists w, weekday rnd m (dt_d a) = Ok w /\ st_mday s = d /\ st_wday s = (w + 1) mod 7 /\ st_yday s = bday_of_year (leap_of rnd m y) mo d + 1.
Proof.
  intros rnd m a y mo d s N E O S F H24 M0 S0 DL R TZ. destruct (sup_ok rnd m (dt_d a) y mo d N E S) as (D & K & Y). pose proof K as (KY & KM & KD).
  exists (zw y mo d). split; [apply (weekday_ok rnd N m E O (dt_d a) y mo d D K)|].
  unfold dt_timetuple in R. rewrite H24, M0, S0 in R. unfold build_struct_time in R. destruct (dt_d a) as [|k v yy mo' d']; [discriminate|].
  destruct D as (V & YY & L & -> & ->). assert (LY : long_year k v yy = y) by (unfold long_year; lia).
  destruct (carry_shift rnd N m E false k v yy mo d 24 0 0) as (d' & h' & mi' & s' & sd' & X & Y1 & M1 & D1 & _ & SE & R1); try (rewrite ?LY; lia).
  rewrite X in R. cbn [bind] in R. rewrite Y1, M1, LY in R.
  assert (D2 : Qfloor (s_d sd') = d + 1).
  { rewrite (Qfloor_comp _ _ D1), Qfloor_Z. change (0 =? 60) with false in SE. change (24 =? 24) with true in SE. cbn [orb andb] in SE. unfold secs in SE. lia. }
  rewrite D2 in R. rewrite (dow_ok rnd N m E O) in R by lia. cbn [bind] in R. rewrite (dbm_z rnd N m E) in R by lia. cbn [bind] in R.
  destruct (C54_struct_time_items rnd m _ _ _ R) as (I1 & _). cbn [b_date app removelast] in I1. unfold st_items in I1.
  destruct (st_kv s) as [[k0 v0]|]; [|discriminate]. cbn [app removelast] in I1. 
  assert (A1 : st_mday s = d) by congruence. assert (A2 : st_wday s = (zord y mo (d + 1) + 1) mod 7) by congruence. assert (A3 : st_yday s = zdbm (zleap y) mo + (d + 1)) by congruence.
  split; [exact A1|]. rewrite <- (doy_eq _ mo d KM). rewrite (leap_of_ok rnd N m E) by lia. rewrite A2, A3. split; [|lia].
  unfold zw, zord, zrd. generalize (fudge y). lia.
Qed.
Print Assumptions C61_long_hour_24_refuted.

Example C61_case : forall rnd (N : Nearest rnd),
  let a := {| dt_d := DLong 1 10 10 3 7; dt_h := 13; dt_mi := 5; dt_s := 9; dt_us := 0; dt_tz := Some {| tz_id := 1; tz_off := Some 12600000000 |}; dt_fold := 0 |} in
  supported rnd sample_sun (dt_d a) 181 3 7 /\ valid_dt_clock a /\ dt_h a <= 23 /\ bday_of_year (leap_of rnd sample_sun 181) 3 7 = 45 /\
  option_map zi_tz (Some {| zi_tz := {| tz_id := 1; tz_off := Some 12600000000 |}; zi_name := Some (str "IRST"); zi_dst := Some 0 |}) = dt_tz a.
Proof.
  intros rnd N a. split; [sup|]. split; [split; [cbn; unfold valid_clock; lia|split; [left; reflexivity|intros o OO; inversion OO; lia]]|]. cbn. repeat split; lia.
Qed.
