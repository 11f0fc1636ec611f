(** PropertiesLocal.v -- C91 (time stamps of long form datetimes) and C92 (the local time zone). *)
From Coq Require Import ZArith QArith Qround Qabs List Bool Lia Lqa Setoid Morphisms.
From Coq Require Import ZifyBool ZifyNat ZifyN.
From Verif Require Import Base Flt QUtil BaseModel MiscModel BadiModel BaseProofs SunProofs SpecBadi BadiProofs BadiProofs2 TduModel DateModel SpecDate TduProofs TduProofs2 TduProofs3 DateProofs SampleSun PropertiesBadi PropertiesDate PropertiesDate2
  TimeModel TsModel LocalModel SpecTime SpecTs TimeProofs PropertiesTime PropertiesDt PropertiesDt2 LocalProofs.
Import ListNotations.
Local Open Scope Q_scope.
Ltac Zify.zify_post_hook ::= Z.div_mod_to_equations.

(** ** C91: timestamp() of naive long form datetimes *)
(** The stamp of (k, v, y, mo, d) at h:mi:s.us is that of day [y] of month [v] of the year [k], at [mo] hours, [d]
    minutes, [h] seconds and [mi] + [us] microseconds.  Every supported long form datetime gets one. *)
Theorem C91_long_misread : forall rnd m a k v y mo d year, Nearest rnd -> evening rnd m -> dt_d a = DLong k v y mo d -> supported rnd m (dt_d a) year mo d ->
  valid_clock (dt_h a) (dt_mi a) (dt_s a) (dt_us a) ->
  exists sp t, to_jd rnd m (bd k v y) = Ok sp /\ dt_timestamp_naive rnd m a = Ok t /\
    Qabs (t - (stamp_of sp + inject_Z (mo * 3600 + d * 60 + dt_h a) + (dt_mi a + dt_us a # 1000000))) <= 1 # 4000.
Proof.
  intros rnd m a k v y mo d year N E A S (H & MI & SS & U). rewrite A in S. destruct S as ((V & YY & L & _ & _) & Y & (M & D)).
  assert (KR : (-5 <= k <= 4)%Z) by lia.
  assert (VB : valid_bday (leap_of rnd m) k v y) by (unfold valid_bday, bmonth_len; destruct (Z.eqb_spec v 0); lia).
  destruct (sunset_near rnd m k v y N E ltac:(lia) VB) as (sp & SP & _).
  { unfold after_reform. cbn [skipped_bdates reform_bdates app In]. intro I. repeat (destruct I as [I|I]; [injection I; lia|]). exact I. }
  pose proof (bmonth_19 (leap_of rnd m year) mo).
  destruct (stamp_added rnd m k v y sp mo d (dt_h a) (dt_mi a) (dt_us a) [inject_Z (dt_s a); inject_Z (dt_us a)] N E ltac:(lia) VB SP ltac:(lia) ltac:(lia) ltac:(lia) ltac:(lia) ltac:(lia)) as (t & T & TE).
  exists sp. eexists. split; [exact SP|]. unfold dt_timestamp_naive, dt_mktime, dt_tuple. rewrite A, T. cbn [bind]. split; [reflexivity|exact TE].
Qed.
Print Assumptions C91_long_misread.

(** So the stamp does not tell when the datetime is: except in the years -1 to 2 it is more than 300 days off the
    stamp of the same datetime in short form. *)
Theorem C91_long_refuted : forall rnd m a b year mo d, Nearest rnd -> evening rnd m -> supported rnd m (dt_d a) year mo d -> is_short (dt_d a) = false ->
  valid_clock (dt_h a) (dt_mi a) (dt_s a) (dt_us a) -> (dt_s a <= 59)%Z -> ~ (-1 <= year <= 2)%Z ->
  ~ In (year, mo, d) (skipped_bdates ++ reform_bdates ++ [after_reform]) ->
  dt_d b = DShort year mo d -> (dt_h b, dt_mi b, dt_s b, dt_us b) = (dt_h a, dt_mi a, dt_s a, dt_us a) ->
  exists t t', dt_timestamp_naive rnd m a = Ok t /\ dt_timestamp_naive rnd m b = Ok t' /\ inject_Z (300 * 86400) < Qabs (t - t').
Proof.
  intros rnd m a b year mo d N E S SH VC S59 YX I B C. injection C as C1 C2 C3 C4.
  destruct (dt_d a) as [|k v y mo' d'] eqn:A; [discriminate|]. pose proof S as ((V & YY & L & -> & ->) & Y & VB).
  destruct (C91_long_misread rnd m a k v y mo d year N E A ltac:(rewrite A; exact S) VC) as (sp & t & SP & T & TE). destruct VC as (H & MI & SS & U).
  assert (KR : (-5 <= k <= 4)%Z) by lia.
  assert (VK : valid_bday (leap_of rnd m) k v y) by (unfold valid_bday, bmonth_len; destruct (Z.eqb_spec v 0); lia).
  destruct (sunset_near rnd m k v y N E ltac:(lia) VK) as (sp0 & SP0 & R0).
  { unfold after_reform. cbn [skipped_bdates reform_bdates app In]. intro Q. repeat (destruct Q as [Q|Q]; [injection Q; lia|]). exact Q. }
  assert (sp0 = sp) by congruence. subst sp0.
  destruct (sunset_near rnd m year mo d N E ltac:(lia) VB I) as (sq & SQ & R1).
  destruct (stamp_added rnd m year mo d sq (dt_h a) (dt_mi a) (dt_s a) (dt_us a) (dt_us a) [] N E ltac:(lia) VB SQ ltac:(lia) ltac:(lia) ltac:(lia) ltac:(lia) ltac:(lia)) as (t0 & T0 & T0E).
  exists t. eexists. split; [exact T|]. split; [unfold dt_timestamp_naive, dt_mktime, dt_tuple; rewrite B, C1, C2, C3, C4, T0; cbn [bind]; reflexivity|].
  set (t' := fadd rnd t0 _) in *. clearbody t'. unfold stamp_of in *. apply Qabs_le_iff in TE. apply Qabs_le_iff in T0E.
  assert (F1 : 0 <= (dt_mi a + dt_us a # 1000000) <= 2) by (unfold Qle; cbn [Qnum Qden]; lia).
  assert (F2 : 0 <= (dt_us a + dt_us a # 1000000) <= 2) by (unfold Qle; cbn [Qnum Qden]; lia).
  destruct VB as [M D].
  assert (DR : (1 <= d <= 19)%Z) by (pose proof (bmonth_19 (leap_of rnd m year) mo); lia).
  assert (G1 : inject_Z 0 <= inject_Z (mo * 3600 + d * 60 + dt_h a) <= inject_Z 70000) by (rewrite <- !Zle_Qle; lia).
  assert (G2 : inject_Z 0 <= inject_Z (dt_h a * 3600 + dt_mi a * 60 + dt_s a) <= inject_Z 91000) by (rewrite <- !Zle_Qle; lia).
  change (inject_Z 0) with 0 in *. change (inject_Z 70000) with 70000 in *. change (inject_Z 91000) with 91000 in *. change (inject_Z (300 * 86400)) with 25920000.
  assert (FAR : (k + 2 <= year \/ year <= k - 2)%Z) by lia. destruct FAR as [FAR|FAR].
  - pose proof (ystart_mono k year ltac:(lia) ltac:(lia)) as MO.
    assert (Q : inject_Z (ystart k + 1721422 + 367) + 363 <= inject_Z (ystart year + 1721422)) by (change 363 with (inject_Z 363); rewrite <- inject_Z_plus, <- Zle_Qle; lia).
    apply (Qlt_le_trans _ (t' - t)); [lra|]. rewrite Qabs_Qminus. apply Qle_Qabs.
  - pose proof (ystart_mono year k ltac:(lia) ltac:(lia)) as MO.
    assert (Q : inject_Z (ystart year + 1721422 + 367) + 363 <= inject_Z (ystart k + 1721422)) by (change 363 with (inject_Z 363); rewrite <- inject_Z_plus, <- Zle_Qle; lia).
    apply (Qlt_le_trans _ (t - t')); [lra|]. apply Qle_Qabs.
Qed.
Print Assumptions C91_long_refuted.
(** 1 Baha 182 at 06:30: the stamp of the long form is that of 11 'Azamat of the year 1... *)
Example C91_case : let a := {| dt_d := DLong 1 10 11 1 1; dt_h := 6; dt_mi := 30; dt_s := 0; dt_us := 0; dt_tz := None; dt_fold := 0 |} in
  supported b64 sample_sun (dt_d a) 182 1 1 /\ ~ In (182, 1, 1)%Z (skipped_bdates ++ reform_bdates ++ [after_reform]) /\
  exists t t', dt_timestamp_naive b64 sample_sun a = Ok t /\ dt_timestamp_naive b64 sample_sun (mk_dt 182 1 1 6 30 0 0 None) = Ok t' /\
    t < -3950000000 /\ 1742400000 < t'.
Proof.
  cbv zeta. split; [sup|]. split.
  { unfold after_reform. cbn [skipped_bdates reform_bdates app In]. intro I. repeat (destruct I as [I|I]; [congruence|]). exact I. }
  do 2 eexists. split; [vm_compute; reflexivity|]. split; [vm_compute; reflexivity|]. split; vm_compute; reflexivity.
Qed.

(** ** C92: astimezone() and naive datetimes *)
(** A naive datetime is taken to be in the zone LOCAL: converted to any zone, its wall clock moves by the difference
    of the offsets; in either form.  [i1] and [i2] are the identities of the zone objects made on the way, [off] the
    offset of LOCAL. *)
Theorem C92_naive_is_local : forall rnd m utc lat lon off i1 i2 a l z o b, Nearest rnd -> evening rnd m -> naw_ruz_order rnd m -> on_line rnd m a l -> calm_dt a -> valid_dt_clock a ->
  dt_tz a = None -> tz_off z = Some o -> (- 86400000000 < o < 86400000000)%Z -> tz_id z <> i2 ->
  dt_astimezone_any rnd m utc lat lon off i1 i2 a (Some z) = Ok b ->
  on_line rnd m b (l - off + o) /\ dt_tz b = Some z /\ is_short (dt_d b) = is_short (dt_d a).
Proof.
  intros rnd m utc lat lon off i1 i2 a l z o b N E O H CA (VC & _) TA OZ GO I A. unfold dt_astimezone_any in A. cbn [bind] in A. rewrite TA in A.
  destruct (local_timezone rnd m utc lat lon off i2 a) as [my|] eqn:L; [|discriminate]. cbn [bind] in A. destruct (local_zone _ _ _ _ _ _ _ _ _ N L) as ((_ & R) & ->). cbn [tz_off tz_id] in A.
  destruct (Z.eqb_spec (tz_id z) i2) as [|_]; [contradiction|].
  destruct (shift_zone rnd m a l z off o b N E O H CA VC R OZ GO A) as (B1 & B2 & B3 & _). split; [exact B1|]. split; assumption.
Qed.
Print Assumptions C92_naive_is_local.

(** Without an argument the target is LOCAL: a naive datetime keeps its date and clock, an aware one its instant. *)
Theorem C92_to_local : forall rnd m utc lat lon off i1 i2 a l b, Nearest rnd -> evening rnd m -> naw_ruz_order rnd m -> on_line rnd m a l -> calm_dt a -> valid_dt_clock a ->
  i1 <> i2 -> (forall z, dt_tz a = Some z -> tz_id z <> i1 /\ tz_off z <> None) ->
  dt_astimezone_any rnd m utc lat lon off i1 i2 a None = Ok b ->
  offset (dt_tz b) = Some off /\ is_short (dt_d b) = is_short (dt_d a) /\
  on_line rnd m b (match offset (dt_tz a) with Some x => l - x + off | None => l end).
Proof.
  intros rnd m utc lat lon off i1 i2 a l b N E O H CA (VC & _ & G) I ID A. unfold dt_astimezone_any in A.
  destruct (local_timezone rnd m utc lat lon off i1 a) as [z|] eqn:L1; [|discriminate]. cbn [bind] in A. destruct (local_zone _ _ _ _ _ _ _ _ _ N L1) as ((_ & R) & ->). cbn [tz_id] in A.
  destruct (dt_tz a) as [z0|] eqn:TA.
  - destruct (ID z0 eq_refl) as [I0 O0]. cbn [offset]. destruct (tz_off z0) as [x|] eqn:X; [|contradiction]. cbn [bind] in A. rewrite X in A.
    destruct (Z.eqb_spec i1 (tz_id z0)) as [Q|_]; [congruence|].
    destruct (shift_zone rnd m a l {| tz_id := i1; tz_off := Some off |} x off b N E O H CA VC (G x X) eq_refl R A) as (B1 & B2 & B3 & _).
    split; [rewrite B2; reflexivity|]. split; assumption.
  - destruct (local_timezone rnd m utc lat lon off i2 a) as [my|] eqn:L2; [|discriminate]. cbn [bind] in A. destruct (local_zone _ _ _ _ _ _ _ _ _ N L2) as (_ & ->). cbn [tz_off tz_id] in A.
    destruct (Z.eqb_spec i1 i2) as [|_]; [contradiction|].
    destruct (shift_zone rnd m a l {| tz_id := i1; tz_off := Some off |} off off b N E O H CA VC R eq_refl R A) as (B1 & B2 & B3 & _).
    split; [rewrite B2; reflexivity|]. split; [assumption|]. cbn [offset]. replace l with (l - off + off)%Z by lia. exact B1.
Qed.
Print Assumptions C92_to_local.

(** Where LOCAL is at offset zero there is no answer at all: astimezone() raises for every datetime, and so does the
    conversion of a naive one to any zone. *)
Theorem C92_zero_offset_refuted : forall rnd m utc lat lon i1 i2 a target, Nearest rnd -> target = None \/ dt_tz a = None ->
  exists e, dt_astimezone_any rnd m utc lat lon 0 i1 i2 a target = Err e.
Proof.
  intros rnd m utc lat lon i1 i2 a target N C.
  assert (Z0 : forall i, exists e, local_timezone rnd m utc lat lon 0 i a = Err e).
  { intro i. destruct (local_timezone rnd m utc lat lon 0 i a) as [z|e] eqn:L; [|exists e; reflexivity]. destruct (local_zone _ _ _ _ _ _ _ _ _ N L) as ((NZ & _) & _). congruence. }
  unfold dt_astimezone_any. destruct target as [z|].
  - destruct C as [C|C]; [discriminate|]. cbn [bind]. rewrite C. destruct (Z0 i2) as [e Q]. rewrite Q. exists e. reflexivity.
  - destruct (Z0 i1) as [e Q]. rewrite Q. exists e. reflexivity.
Qed.
Print Assumptions C92_zero_offset_refuted.
Example C92_case : let utc := {| tz_id := 0; tz_off := Some 0%Z |} in let any := dt_astimezone_any b64 sample_sun utc (TEHRAN_LAT b64) (TEHRAN_LON b64) in
  any 12600000000%Z 7%Z 8%Z (mk_dt 181 18 19 23 0 0 0 None) None = Ok (mk_dt 181 18 19 23 0 0 0 (mk_tz 7 12600000000)) /\
  any 12600000000%Z 7%Z 8%Z (mk_dt 181 18 19 23 0 0 0 (mk_tz 0 0)) None = Ok (mk_dt 181 0 1 2 30 0 0 (mk_tz 7 12600000000)) /\
  any 12600000000%Z 7%Z 8%Z {| dt_d := DLong 1 10 11 1 1; dt_h := 6; dt_mi := 30; dt_s := 0; dt_us := 0; dt_tz := None; dt_fold := 0 |} (Some utc) =
    Ok {| dt_d := DLong 1 10 11 1 1; dt_h := 3; dt_mi := 0; dt_s := 0; dt_us := 0; dt_tz := mk_tz 0 0; dt_fold := 0 |} /\
  any 0%Z 7%Z 8%Z (mk_dt 181 18 19 23 0 0 0 None) (Some utc) = Err TypeError /\
  any 0%Z 7%Z 8%Z (mk_dt 181 18 19 23 0 0 0 (mk_tz 0 0)) None = Err TypeError.
Proof. cbv zeta. repeat match goal with |- _ /\ _ => split end; match goal with |- _ = ?y => vm_cast_no_check (@eq_refl _ y) end. Qed.
