(** LocalProofs.v -- proofs about LocalModel.v and the time stamps of long form datetimes. *)
From Coq Require Import ZArith QArith Qround Qabs List Bool Lia Lqa Setoid Morphisms.
From Coq Require Import ZifyBool ZifyNat ZifyN.
From Verif Require Import Base Flt QUtil BaseModel MiscModel BadiModel BaseProofs SunProofs SpecBadi BadiProofs BadiProofs2 BadiProofs3 DecProofs BadiProofs4 LongYear LongProofs BadiProofs5
  ClockProofs3 ClockProofs4 TduModel DateModel SpecDate TduProofs TduProofs2 TduProofs3 DateProofs SampleSun PropertiesBadi PropertiesDate PropertiesDate2
  TimeModel TsModel LocalModel SpecTime SpecTs TimeProofs PropertiesTime PropertiesDt PropertiesDt2.
Import ListNotations.
Local Open Scope Q_scope.
Ltac Zify.zify_post_hook ::= Z.div_mod_to_equations.

Lemma trunc_near x : - (1) < x - inject_Z (Qtrunc x) < 1.
Proof.
  unfold Qtrunc. destruct (Qleb 0 x).
  - pose proof (Qfloor_le x). pose proof (Qlt_floor x) as B. rewrite inject_Z_plus in B. change (inject_Z 1) with 1 in B. split; lra.
  - pose proof (Qle_ceiling x). pose proof (Qceiling_lt x) as B. unfold Z.sub in B. rewrite inject_Z_plus in B. change (inject_Z (- (1))) with (- (1)) in B. split; lra.
Qed.
(** timedelta(seconds=td.total_seconds()) is td, within a day *)
Lemma td_seconds_ok rnd o : Nearest rnd -> (- 86400000000 < o < 86400000000)%Z -> td_seconds rnd (fdiv rnd (inject_Z o) 1000000) = o.
Proof.
  intros N O. unfold td_seconds, fdiv, fmul.
  assert (OQ : -86400 < inject_Z o * (1 # 1000000) < 86400).
  { assert (A : inject_Z (-86400000000) < inject_Z o < inject_Z 86400000000) by (rewrite <- !Zlt_Qlt; lia).
    change (inject_Z (-86400000000)) with (-86400000000) in A. change (inject_Z 86400000000) with 86400000000 in A. split; lra. }
  assert (E : inject_Z o / 1000000 == inject_Z o * (1 # 1000000)) by (unfold Qdiv; reflexivity).
  pose proof (near_k rnd N 17 (inject_Z o / 1000000) (1 # 137438953472) ltac:(rewrite E; apply Qabs_le_iff; change (2 ^ 17) with 131072; split; lra) ltac:(discriminate)) as A.
  set (x := rnd (inject_Z o / 1000000)) in *. clearbody x. rewrite E in A. pose proof (trunc_near x) as T. set (t := Qtrunc x) in *.
  pose proof (near_k rnd N 20 (1000000 * (x - inject_Z t)) (1 # 17179869184) ltac:(apply Qabs_le_iff; change (2 ^ 20) with 1048576; split; lra) ltac:(discriminate)) as B.
  set (g := rnd _) in *. pose proof (rne_err g) as R. apply Qabs_le_iff in R.
  assert (L : inject_Z (o - t * 1000000 - 1) < inject_Z (rne g) < inject_Z (o - t * 1000000 + 1)).
  { unfold Z.sub. rewrite !inject_Z_plus, !inject_Z_opp, !inject_Z_mult. change (inject_Z 1000000) with 1000000. change (inject_Z 1) with 1. split; lra. }
  rewrite <- !Zlt_Qlt in L. lia.
Qed.

(** the stamp of a date with a clock, [w] further microseconds added; members after the fourth are not read *)
Lemma stamp_added rnd m y mo d sp h mi s us w tl : Nearest rnd -> evening rnd m -> (-1843 <= y <= 1161)%Z -> valid_bday (leap_of rnd m) y mo d -> to_jd rnd m (bd y mo d) = Ok sp ->
  (0 <= h <= 24)%Z -> (0 <= mi <= 59)%Z -> (0 <= s <= 59)%Z -> (0 <= us < 1000000)%Z -> (0 <= w < 1000000)%Z ->
  exists t, timestamp_from_badi_date rnd m (year_table rnd m)
              {| s_y := y; s_m := mo; s_d := inject_Z d; s_t := inject_Z h :: inject_Z mi :: inject_Z s :: inject_Z us :: tl |} (TEHRAN_LAT rnd) (TEHRAN_LON rnd) = Ok t /\
    Qabs (fadd rnd t (fdiv rnd (inject_Z w) 1000000) - (stamp_of sp + inject_Z (h * 3600 + mi * 60 + s) + (us + w # 1000000))) <= 1 # 4000.
Proof.
  intros N E Y V SP H MI S U W.
  assert (SQ : 0 <= inject_Z s < 60) by (change 0 with (inject_Z 0); change 60 with (inject_Z 60); rewrite <- Zle_Qle, <- Zlt_Qlt; lia).
  destruct (enc_clock rnd N m E y mo d sp h mi (inject_Z s) us Y V SP H MI SQ U ltac:(right; rewrite Qfloor_Z; reflexivity)) as (j & J & JF & JE).
  unfold timestamp_from_badi_date.
  assert (TL : jd_from_badi_date rnd m (year_table rnd m) {| s_y := y; s_m := mo; s_d := inject_Z d; s_t := inject_Z h :: inject_Z mi :: inject_Z s :: inject_Z us :: tl |} (TEHRAN_LAT rnd) (TEHRAN_LON rnd) = Ok j) by exact J.
  rewrite TL. cbn [bind]. eexists. split; [reflexivity|]. destruct (jd_size rnd N m E y mo d sp Y V SP) as [_ SR].
  assert (HQ : 0 <= inject_Z h <= 24) by (change 0 with (inject_Z 0); change 24 with (inject_Z 24); rewrite <- !Zle_Qle; lia).
  assert (MQ : 0 <= inject_Z mi <= 59) by (change 0 with (inject_Z 0); change 59 with (inject_Z 59); rewrite <- !Zle_Qle; lia).
  assert (UQ : 0 <= (us # 1000000) < 1) by (unfold Qle, Qlt; cbn [Qnum Qden]; lia).
  assert (WQ : 0 <= (w # 1000000) < 1) by (unfold Qle, Qlt; cbn [Qnum Qden]; lia).
  setoid_replace ((inject_Z h * 3600 + inject_Z mi * 60 + inject_Z s + (us # 1000000)) / 86400)
    with ((inject_Z h * 3600 + inject_Z mi * 60 + inject_Z s + (us # 1000000)) * (1 # 86400)) in JE by (unfold Qdiv; reflexivity).
  apply Qabs_le_iff in JE. pose proof (ts_near rnd j N JF ltac:(split; lra)) as T. apply Qabs_le_iff in T. set (t0 := round12 rnd _) in *.
  unfold fadd, fdiv, stamp_of.
  pose proof (near_k rnd N 1 (w # 1000000) (1 # 9007199254740992) ltac:(apply Qabs_le_iff; change (2 ^ 1) with 2; split; lra) ltac:(discriminate)) as A.
  assert (AQ : rnd (inject_Z w / 1000000) == rnd (w # 1000000)) by (apply near_proper; [exact N|]; rewrite (Qmake_Qdiv w 1000000); reflexivity).
  rewrite <- AQ in A. set (u := rnd (inject_Z w / 1000000)) in *.
  pose proof (near_k rnd N 37 (t0 + u) (1 # 131072) ltac:(change (2 ^ 37) with 137438953472; apply Qabs_le_iff; split; lra) ltac:(discriminate)) as B.
  assert (SUM : (us + w # 1000000) == (us # 1000000) + (w # 1000000)) by (unfold Qeq, Qplus; cbn [Qnum Qden]; lia).
  rewrite SUM, !inject_Z_plus, !inject_Z_mult. change (inject_Z 3600) with 3600. change (inject_Z 60) with 60. apply Qabs_le_iff. split; lra.
Qed.

Lemma bmonth_19 leap mo : (4 <= bmonth_len leap mo <= 19)%Z.
Proof. unfold bmonth_len. destruct (mo =? 0)%Z, leap; lia. Qed.
(** a day's sunset is within a day of the day's number *)
Lemma sunset_near rnd m y mo d : Nearest rnd -> evening rnd m -> (-1843 <= y <= 1161)%Z -> valid_bday (leap_of rnd m) y mo d ->
  ~ In (y, mo, d) (skipped_bdates ++ reform_bdates ++ [after_reform]) ->
  exists sp, to_jd rnd m (bd y mo d) = Ok sp /\ inject_Z (ystart y + 1721422) < sp < inject_Z (ystart y + 1721422 + 367).
Proof.
  intros N E Y V I. destruct (C43_value rnd m y mo d (ystart y) N E Y V I (year_table_ok rnd N m E y ltac:(lia))) as (j & J & _ & B & _).
  exists j. split; [exact J|]. destruct V as [M D].
  assert (R : (1 <= bday_of_year (leap_of rnd m y) mo d <= 366)%Z).
  { unfold bday_of_year, bmonth_len in *. change (0 =? 0)%Z with true. cbv iota. destruct (leap_of rnd m y); destruct (Z.eqb_spec mo 0); destruct (Z.eqb_spec mo 19); try lia. }
  assert (A1 : inject_Z (ystart y + 1721422 + 1) <= inject_Z (ystart y + bday_of_year (leap_of rnd m y) mo d + 1721422)) by (rewrite <- Zle_Qle; lia).
  assert (A2 : inject_Z (ystart y + bday_of_year (leap_of rnd m y) mo d + 1721422) <= inject_Z (ystart y + 1721422 + 366)) by (rewrite <- Zle_Qle; lia).
  replace (ystart y + 1721422 + 367)%Z with (ystart y + 1721422 + 366 + 1)%Z by lia.
  rewrite inject_Z_plus in A1. rewrite (inject_Z_plus (ystart y + 1721422 + 366) 1). change (inject_Z 1) with 1 in *. split; lra.
Qed.

(** whatever the datetime, a local zone that is returned has the offset of LOCAL, which is not zero *)
Lemma local_zone rnd m utc lat lon off id a z : Nearest rnd -> local_timezone rnd m utc lat lon off id a = Ok z ->
  (off <> 0 /\ - 86400000000 < off < 86400000000)%Z /\ z = {| tz_id := id; tz_off := Some off |}.
Proof.
  intros N H. unfold local_timezone in H.
  destruct (match dt_tz a with None => _ | Some _ => _ end) as [ts|]; [|discriminate]. cbn [bind] in H.
  destruct (badi_date_from_timestamp _ _ _ _ _ _ _ _ _ _) as [b|]; [|discriminate]. cbn [bind] in H.
  destruct (local_struct rnd m off b) as [[]|] eqn:S; [|discriminate]. cbn [bind] in H.
  destruct (Z.eqb_spec off 0) as [|NZ]; [discriminate|].
  assert (R : (- 86400000000 < off < 86400000000)%Z).
  { unfold local_struct in S. destruct (match b with Short _ => _ | Long _ => _ end) as [[[y mo] d]|] in S; [|discriminate]. cbn [bind] in S.
    destruct (day_of_week rnd m y mo d); [|discriminate]. cbn [bind] in S. destruct (days_before_month rnd m y mo); [|discriminate]. cbn [bind] in S.
    destruct (match b with Short _ => _ | Long _ => _ end) as [args hms] in S. destruct (get_hms hms) as [[[h mi] s] u].
    destruct (dt_newf rnd m args h mi s 0 _ 0) as [x|] eqn:X; [|discriminate]. cbn [bind] in S.
    assert (TX : dt_tz x = Some {| tz_id := -1; tz_off := Some off |}).
    { revert X. unfold dt_newf. destruct (passert _); [|intro; discriminate]. cbn [bind]. destruct (create_time rnd h mi s 0) as [[[[? ?] ?] ?]|]; [|intro; discriminate]. cbn [bind].
      destruct (date_new rnd m args); [|intro; discriminate]. cbn [bind]. destruct (check_time _ _ _ _ _); [|intro; discriminate]. cbn [bind]. destruct (passert _); [|intro; discriminate]. cbn [bind].
      intro X. injection X as <-. reflexivity. }
    rewrite TX in S. unfold utcoffset, check_offset in S. cbn [tz_off] in S. unfold DAY in S.
    match type of S with context [if ?c then _ else _] => destruct c eqn:G end; [lia|cbn [bind] in S; discriminate S]. }
  cbv zeta in H. rewrite (td_seconds_ok rnd off N R) in H. unfold DAY in H.
  replace ((- (86400000000 - 1) <=? off)%Z && (off <=? 86400000000 - 1)%Z)%bool with true in H by lia. injection H as <-.
  split; [split; assumption|reflexivity].
Qed.

(** from the datetime to UTC and to the target *)
Lemma shift_zone rnd m a l z x o b : Nearest rnd -> evening rnd m -> naw_ruz_order rnd m -> on_line rnd m a l -> calm_dt a ->
  valid_clock (dt_h a) (dt_mi a) (dt_s a) (dt_us a) -> (- 86400000000 < x < 86400000000)%Z -> tz_off z = Some o -> (- 86400000000 < o < 86400000000)%Z ->
  (let* u := dt_sub_td rnd m a x in
   let* u := dt_replace rnd m u None None None None None None None None None (Some (Some z)) None in
   zone_fromutc rnd m z u) = Ok b ->
  on_line rnd m b (l - x + o) /\ dt_tz b = Some z /\ is_short (dt_d b) = is_short (dt_d a) /\ plain_clock (dt_h b) (dt_mi b) (dt_s b) (dt_us b).
Proof.
  intros N E O H CA VC GX OZ GO A. assert (ST : steady_dt a) by (intros y mo d D; apply (CA y mo d y D); lia).
  assert (CKA : (0 <= dt_clock a <= 91000000000)%Z) by (unfold valid_clock in VC; unfold dt_clock, clock_us; lia).
  destruct (dt_sub_td rnd m a x) as [u|] eqn:U; [|discriminate]. cbn [bind] in A. unfold dt_sub_td in U. destruct (C25_add rnd m a l (- x) u N E O H ST U) as (LU & PU & TU & FU & _).
  destruct (dt_replace rnd m u None None None None None None None None None (Some (Some z)) None) as [w|] eqn:W; [|discriminate]. cbn [bind] in A.
  destruct (C48_datetime_replace _ _ _ _ _ _ _ _ _ _ _ _ _ _ _ W) as (Q1 & Q2 & Q3 & Q4 & Q5 & _ & Q7). cbn [dflt] in *.
  assert (QD : dt_d w = dt_d u).
  { destruct LU as (y1 & mo1 & d1 & _ & S1 & _). pose proof (C48_replace_nothing rnd m (dt_d u) y1 mo1 d1 N E S1). congruence. }
  assert (LW : on_line rnd m w (l + - x)). { destruct LU as (y1 & mo1 & d1 & r & S1 & R1 & L1). exists y1, mo1, d1, r. rewrite QD. split; [exact S1|]. split; [exact R1|]. rewrite L1. unfold dt_clock. congruence. }
  unfold zone_fromutc in A. rewrite Q5, OZ, Z.eqb_refl in A.
  assert (SW : steady_dt w) by (apply (near_steady rnd m a w l (l + - x) N E H LW); [exact CA|lia|exact CKA|unfold plain_clock in PU; unfold dt_clock, clock_us; rewrite Q1, Q2, Q3, Q4; lia]).
  destruct (C25_add rnd m w _ o b N E O LW SW A) as (LB & PB & TB & FB & _).
  replace (l - x + o)%Z with (l + - x + o)%Z by lia. split; [exact LB|]. split; [congruence|]. split; [congruence|exact PB].
Qed.
