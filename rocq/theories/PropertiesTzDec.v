(** PropertiesTzDec.v -- C51: days, hours, minutes and seconds of a time zone as a part of a revolution, and back. *)
From Coq Require Import ZArith QArith Qround Qabs List Bool Lia Lqa.
From Verif Require Import Base Flt QUtil BaseModel SpecGreg SpecMisc GregModel GregProofs GregProofs2 MiscModel MiscProofs TzDecModel.
Local Open Scope Q_scope.

(** In exact arithmetic the two conversions are inverse, for every clock of two days. *)
Theorem C51_zone_round_trip : forall d h mi sec, (0 <= d <= 1)%Z -> (0 <= h <= 23)%Z -> (0 <= mi <= 59)%Z -> 0 <= sec < 60 ->
  exists q sec', tz_decimal_from_dhms idr d h mi sec = Ok q /\ q * 86400 == inject_Z (d * 86400 + h * 3600 + mi * 60) + sec /\
    tz_dhms_from_decimal idr q = (d, h, mi, sec') /\ sec' == sec.
Proof.
  intros d h mi sec D H M S. unfold tz_decimal_from_dhms, seconds_from_dhms. cbn [Z.ltb Z.compare bind]. set (s := fadd idr _ _).
  assert (ES : s == inject_Z (d * 86400 + h * 3600 + mi * 60) + sec) by (unfold s, fadd, fmul, idr; ring). clearbody s.
  unfold tz_dhms_from_decimal. set (q := fdiv idr s 86400). assert (EQ : fmul idr q 86400 == s) by (unfold q, fmul, fdiv, idr; field).
  destruct (dhms_from_seconds idr (fmul idr q 86400) 0) as [[[d' h'] mi'] sec'] eqn:R.
  destruct (dhms_ok _ _ _ _ _ R) as (E & M' & S' & D' & C & H0 & H1 & _).
  exists q, sec'. split; [reflexivity|]. split; [unfold fmul, idr in EQ; rewrite EQ; exact ES|].
  rewrite EQ, ES in E, C, H0, H1. rewrite R. clear R EQ ES.
  set (K := (d * 86400 + h * 3600 + mi * 60)%Z) in *. set (K' := (d' * 86400 + h' * 3600 + mi' * 60)%Z) in *.
  assert (KB : (0 <= K <= 172740)%Z) by lia.
  assert (QB : 0 <= inject_Z K /\ inject_Z K <= 172740) by (split; [change 0 with (inject_Z 0)|change 172740 with (inject_Z 172740)]; rewrite <- Zle_Qle; lia).
  assert (L1 : (K' < K + 60)%Z) by (rewrite Zlt_Qlt, inject_Z_plus; change (inject_Z 60) with 60; lra).
  assert (L2 : (K < K' + 60)%Z) by (rewrite Zlt_Qlt, inject_Z_plus; change (inject_Z 60) with 60; lra).
  assert (KK : K' = K) by lia. rewrite KK in E. specialize (H0 ltac:(lra)). specialize (H1 ltac:(lra)).
  assert (d' = d /\ h' = h /\ mi' = mi) as (-> & -> & ->) by lia. split; [reflexivity|lra].
Qed.
Print Assumptions C51_zone_round_trip.

(** Refuted for Python floats: 13 minutes come back as 12 minutes and 59.99... seconds. *)
Theorem C51_zone_round_trip_refuted : exists q sec', tz_decimal_from_dhms b64 0 0 13 0 = Ok q /\ tz_dhms_from_decimal b64 q = (0, 0, 12, sec')%Z /\ 59 < sec' < 60.
Proof. eexists _, _. split; [vm_compute; reflexivity|]. split; [vm_compute; reflexivity|]. split; reflexivity. Qed.
Print Assumptions C51_zone_round_trip_refuted.
Example C51_zone_case : exists q sec', tz_decimal_from_dhms idr 1 3 30 (1 # 2) = Ok q /\ tz_dhms_from_decimal idr q = (1, 3, 30, sec')%Z /\ sec' == 1 # 2.
Proof. eexists _, _. split; [vm_compute; reflexivity|]. split; [vm_compute; reflexivity|]. reflexivity. Qed.
