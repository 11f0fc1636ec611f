(** ClockProofs2.v -- clock times in the encoder, day fractions, carries. *)
From Coq Require Import ZArith QArith Qround Qabs List Bool Lia Lqa Setoid Morphisms.
From Coq Require Import ZifyBool ZifyNat ZifyN.
From Verif Require Import Base Flt QUtil BaseModel MiscModel BadiModel BaseProofs BaseProofs2 MiscProofs SunProofs SpecMisc SpecBadi BadiProofs BadiProofs2 LongYear BadiProofs3 DecProofs BadiProofs4 LongProofs BadiProofs5 ClockProofs.
Import ListNotations.
Local Open Scope Q_scope.
Ltac Zify.zify_post_hook ::= Z.div_mod_to_equations.

Section Clock2.
Variable rnd : Q -> Q.
Hypothesis N : Nearest rnd.
#[local] Instance prop_rnd10 : Proper (Qeq ==> Qeq) rnd.
Proof. intros a b E. apply near_proper; [exact N|exact E]. Qed.
Variable m : Q -> Q -> Q -> Q.
Hypothesis EV : evening rnd m.
Notation LAT := (TEHRAN_LAT rnd).
Notation LON := (TEHRAN_LON rnd).
Notation T := (year_table rnd m).

(** ** decoding: date and clock of an instant *)
Lemma full_decode (us trim : bool) y mo d y' mo' d' jd sp sq : (-1843 <= y <= 1160)%Z -> next_bday (leap_of rnd m) (y, mo, d) (y', mo', d') ->
  ~ In (y, mo, d) irregular_bdates -> to_jd rnd m (bd y mo d) = Ok sp -> to_jd rnd m (bd y' mo' d') = Ok sq ->
  is_float jd -> ~ near_midnight jd -> sp <= jd -> jd < sq -> jd <= sp + 1 - (1 # 40000000) ->
  exists sd h mi s u, badi_date_from_jd rnd m T us true false trim false jd LAT LON = Ok (Short sd) /\
    s_y sd = y /\ s_m sd = mo /\ s_d sd = inject_Z d /\ same_clock (s_t sd) [inject_Z h; inject_Z mi; s; inject_Z u] /\
    (0 <= h <= 23)%Z /\ (0 <= mi <= 59)%Z /\ 0 <= s < 60 /\ (0 <= u <= 999999)%Z /\
    (if us then s == inject_Z (Qfloor s) else u = 0%Z) /\
    Qabs ((inject_Z h * 3600 + inject_Z mi * 60 + s + (u # 1000000)) - (jd - sp) * 86400) < 3 # 1000.
Proof.
  intros Y NX I SP SQ FJ NM A B C.
  destruct (of_jd_right_day rnd N m EV y mo d y' mo' d' jd sp sq Y NX I SP SQ FJ A B) as (fr & F & [(_ & O & FE)|(L & _)]); [|exfalso; lra].
  specialize (FE NM). destruct (hms_from_decimal_day rnd fr) as [[h mi] s] eqn:HM.
  assert (M1 : fmod1 rnd fr == fr).
  { destruct (fmod1_nonneg rnd fr ltac:(lra)) as [M1 _]. rewrite M1. rewrite (Qfloor_spec fr 0); [ring| |]; [change (inject_Z 0) with 0; lra|change (inject_Z (0 + 1)) with 1; lra]. }
  assert (H24 : h <> 24%Z).
  { intros ->. apply (hour24_late rnd N) in HM. rewrite M1 in HM. lra. }
  pose proof (hms_ok rnd N _ _ _ _ HM) as (Hh & Hm & Hs & _ & HE).
  assert (HU : hmsu_from_decimal_day rnd fr = (h, mi, Qfloor s, partial_second_to_microsecond rnd s)) by (unfold hmsu_from_decimal_day; rewrite HM; reflexivity).
  pose proof (hmsu_ok rnd N _ _ _ _ _ HU) as (_ & _ & Hf & Hu & _ & UE).
  destruct (decode_clock rnd N m EV us trim jd y mo d fr h mi s O HM ltac:(lia)) as (sd & E & E1 & E2 & E3 & SC).
  rewrite M1, FE in HE, UE. destruct us.
  - exists sd, h, mi, (inject_Z (Qfloor s)), (partial_second_to_microsecond rnd s). rewrite Qfloor_Z.
    repeat split; try assumption; try lia; try reflexivity; try (change 0 with (inject_Z 0); rewrite <- Zle_Qle; lia).
    change 60 with (inject_Z 60). rewrite <- Zlt_Qlt. lia.
  - exists sd, h, mi, s, 0%Z. repeat split; try assumption; try lia; try lra.
    + intros i Hi. rewrite (SC i Hi). do 4 (destruct i as [|i]; [reflexivity|]). lia.
    + apply Qabs_Qlt_condition in HE. apply Qabs_Qlt_condition. setoid_replace (0 # 1000000) with 0 by reflexivity. lra.
Qed.

(** a decoded short date is valid, whatever the switches us and trim *)
Lemma decode_valid (us trim : bool) jd sd : badi_date_from_jd rnd m T us true false trim false jd LAT LON = Ok (Short sd) ->
  exists d h mi s u, (-1843 <= s_y sd <= 1161)%Z /\ s_d sd == inject_Z d /\ valid_bday (leap_of rnd m) (s_y sd) (s_m sd) d /\
    same_clock (s_t sd) [inject_Z h; inject_Z mi; s; inject_Z u] /\ (0 <= h <= 23 /\ 0 <= mi <= 59 /\ 0 <= u <= 999999)%Z /\ 0 <= s < 60.
Proof.
  intro E. destruct (of_jd rnd m jd) as [[[[y mo] d] fr]|e] eqn:O.
  2:{ exfalso. revert E. unfold badi_date_from_jd. destruct (passert _); cbn [bind]; [|discriminate]. unfold of_jd in O. rewrite O. cbn [bind]. discriminate. }
  destruct (of_jd_valid rnd N m EV _ _ _ _ _ O) as (Y & V & V1).
  destruct (hms_from_decimal_day rnd fr) as [[h mi] s] eqn:HM.
  pose proof (hms_ok rnd N _ _ _ _ HM) as (Hh & Hm & Hs & _ & HE). pose proof (micro_range rnd N _ _ _ _ HM) as U.
  destruct (Z.eq_dec h 24) as [->|NE].
  - pose proof (decode_24 rnd N m EV us trim jd y mo d fr mi s O HM) as K.
    assert (VC : let '(y', mo', d') := carried (leap_of rnd m y) y mo d in (-1843 <= y' <= 1161)%Z /\ valid_bday (leap_of rnd m) y' mo' d').
    { unfold carried. destruct V as [M D]. assert (BL : forall a b, (b <> 0)%Z -> bmonth_len a b = 19%Z) by (intros a b B; unfold bmonth_len; destruct (Z.eqb_spec b 0); [contradiction|reflexivity]).
      destruct (Z.ltb_spec d (bmonth_len (leap_of rnd m y) mo)); [split; [lia|split; lia]|].
      destruct (Z.eqb_spec mo 0) as [->|N0]; [split; [lia|split; [lia|rewrite BL by lia; lia]]|].
      rewrite BL in * by assumption.
      destruct (Z.eqb_spec mo 19) as [->|N19].
      - assert (y <> 1161)%Z by (intros ->; destruct (V1 eq_refl); lia). split; [lia|]. split; [lia|]. rewrite BL by lia. lia.
      - split; [lia|]. split; [lia|]. rewrite BL by lia. lia. }
    destruct (carried _ _ _ _) as [[y' mo'] d']. destruct K as (sd' & E' & K1 & K2 & K3 & K4). destruct VC as [VC1 VC2].
    assert (sd' = sd) by congruence. subst sd'. exists d', 23%Z, 0%Z, 0, 0%Z. rewrite K1, K2.
    repeat split; try apply VC2; try lia; try exact K3; try discriminate.
    intros i I. rewrite (K4 i I). do 4 (destruct i as [|i]; [reflexivity|]). lia.
  - destruct (decode_clock rnd N m EV us trim jd y mo d fr h mi s O HM ltac:(lia)) as (sd' & E' & K1 & K2 & K3 & K4).
    assert (sd' = sd) by congruence. subst sd'. rewrite K1, K2, K3.
    exists d, h, mi, (if us then inject_Z (Qfloor s) else s), (if us then partial_second_to_microsecond rnd s else 0%Z).
    assert (FS : 0 <= inject_Z (Qfloor s) < 60).
    { assert (HU : hmsu_from_decimal_day rnd fr = (h, mi, Qfloor s, partial_second_to_microsecond rnd s)) by (unfold hmsu_from_decimal_day; rewrite HM; reflexivity).
      pose proof (hmsu_ok rnd N _ _ _ _ _ HU) as (_ & _ & Hf & _). split; [change 0 with (inject_Z 0); rewrite <- Zle_Qle; lia|change 60 with (inject_Z 60); rewrite <- Zlt_Qlt; lia]. }
    split; [exact Y|]. split; [reflexivity|]. split; [exact V|]. split; [|destruct us; (split; [lia|assumption])].
    intros i I. rewrite (K4 i I). destruct us; do 4 (destruct i as [|i]; [reflexivity|]); lia.
Qed.

(** ** rounded days (rtd) *)
Lemma rtd_day d fr : (1 <= d <= 19)%Z -> 0 <= fr < 1 ->
  (fr <= 499999 # 1000000 -> rne (fadd rnd (inject_Z d) fr) = d) /\
  (500001 # 1000000 <= fr -> rne (fadd rnd (inject_Z d) fr) = (d + 1)%Z).
Proof.
  intros D F. assert (DQ : 1 <= inject_Z d <= 19) by (change 1 with (inject_Z 1); change 19 with (inject_Z 19); rewrite <- !Zle_Qle; lia).
  assert (A : Qabs (inject_Z d + fr) <= 8388608) by (apply Qabs_le_iff; split; lra).
  pose proof (near23 rnd N _ A) as B. unfold fadd. set (x := rnd (inject_Z d + fr)) in *.
  pose proof (rne_err x) as R. apply Qabs_le_iff in R. destruct R as [R1 R2]. split; intro G.
  - assert (rne x < d + 1)%Z by byQ. assert (d - 1 < rne x)%Z by byQ. lia.
  - assert (rne x < d + 2)%Z by byQ. assert (d < rne x)%Z by byQ. lia.
Qed.
Lemma rtd_decode jd y mo d fr : of_jd rnd m jd = Ok (y, mo, d, fr) -> 0 <= fr < 1 -> forall trim,
  exists d', badi_date_from_jd rnd m T false true false trim true jd LAT LON = Ok (Short (bd y mo d')) /\
   (fr <= 499999 # 1000000 -> d' = d) /\ (500001 # 1000000 <= fr -> d' = (d + 1)%Z).
Proof.
  intros O F trim. destruct (of_jd_valid rnd N m EV _ _ _ _ _ O) as (Y & [M D] & _).
  assert (D19 : (1 <= d <= 19)%Z) by (unfold bmonth_len in D; destruct (mo =? 0)%Z; destruct (leap_of rnd m y); lia).
  unfold badi_date_from_jd. cbn [xor_boolean]. change (xor_boolean [false; false; true]) with true. cbn [passert bind].
  unfold of_jd in O. rewrite O. cbn [bind]. eexists. split; [reflexivity|]. apply rtd_day; assumption.
Qed.
End Clock2.
