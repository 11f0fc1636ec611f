(** TsProofs.v -- proofs about time stamps. *)
From Coq Require Import ZArith QArith Qround Qabs List Bool Lia Lqa Setoid Morphisms.
From Coq Require Import ZifyBool ZifyNat ZifyN.
From Verif Require Import Base Flt QUtil BaseModel MiscModel BadiModel DateModel TimeModel TsModel BaseProofs BaseProofs2 MiscProofs SunProofs SpecMisc SpecBadi SpecDate SpecTime SpecTs
  BadiProofs BadiProofs2 LongYear BadiProofs3 DecProofs BadiProofs4 LongProofs BadiProofs5 ClockProofs ClockProofs2 ClockProofs3 DateProofs TimeProofs.
Import ListNotations.
Local Open Scope Q_scope.
Ltac Zify.zify_post_hook ::= Z.div_mod_to_equations.

Section Ts.
Variable rnd : Q -> Q.
Hypothesis N : Nearest rnd.
#[local] Instance prop_rnd_ts : Proper (Qeq ==> Qeq) rnd.
Proof. intros a b E. apply near_proper; [exact N|exact E]. Qed.
Variable m : Q -> Q -> Q -> Q.
Hypothesis EV : evening rnd m.
Notation LAT := (TEHRAN_LAT rnd).
Notation LON := (TEHRAN_LON rnd).
Notation T := (year_table rnd m).

Lemma bind_ok {A B} (x : res A) (f : A -> res B) b : bind x f = Ok b -> exists a, x = Ok a /\ f a = Ok b.
Proof. destruct x as [a|e]; cbn [bind]; [|discriminate]. intro H. exists a. split; [reflexivity|exact H]. Qed.

Definition clock_len (b : bdate) : nat := match b with Short s => List.length (s_t s) | Long l => List.length (l_t l) end.
Lemma short_len d sd : short_date_from_long_date rnd T false d = Ok sd -> List.length (s_t sd) = 4%nat.
Proof.
  unfold short_date_from_long_date. destruct (get_hms (l_t d)) as [[[hh mm] ss] us]. intro H. apply bind_ok in H as (dm & _ & H).
  destruct (if Qleb 60 ss then _ else _) as [a b] in H. destruct (if Qleb 60 a then _ else _) as [e f] in H. destruct (if Qleb 24 e then _ else _) as [g h] in H.
  destruct (if Qltb (inject_Z dm) g then _ else _) as [i j] in H. destruct (if (19 <? i)%Z then _ else _) as [k l] in H.
  apply bind_ok in H as (_ & _ & H). injection H as <-. reflexivity.
Qed.
Lemma decoded_len short jd lat lon b : badi_date_from_jd rnd m T true short false false false jd lat lon = Ok b ->
  clock_len b = 4%nat /\ (if short then exists s, b = Short s else exists l, b = Long l).
Proof.
  unfold badi_date_from_jd. intro H. apply bind_ok in H as (_ & _ & H). apply bind_ok in H as ([[[y mo] d] fr] & _ & H). cbv iota in H.
  destruct (hms_from_decimal_day rnd fr) as [[h mi] s]. apply bind_ok in H as (l & _ & H).
  unfold kvymdhms_from_b_date in H. apply bind_ok in H as (_ & _ & H).
  destruct (match trim_hms (l_t l) with [] => _ | _ => _ end) as [[a b0] c] in H. destruct (sec_microsec_from_seconds rnd c) as [e f]. destruct short.
  - apply bind_ok in H as (sd & S & H). injection H as <-. split; [|eexists; reflexivity]. cbn [clock_len]. exact (short_len _ _ S).
  - injection H as <-. split; [reflexivity|eexists; reflexivity].
Qed.

Lemma floor_eq q z : q == inject_Z z -> Qfloor q = z.
Proof. intro H. rewrite (Qfloor_comp _ _ H). apply Qfloor_Z. Qed.
Lemma clock_fields l h mi s u : List.length l = 4%nat -> same_clock l [inject_Z h; inject_Z mi; inject_Z s; inject_Z u] -> map Qfloor l = [h; mi; s; u].
Proof.
  intros L SC. destruct l as [|a [|b [|c [|d [|e l]]]]]; try discriminate L. cbn [map].
  pose proof (SC 0%nat ltac:(lia)) as A. pose proof (SC 1%nat ltac:(lia)) as B. pose proof (SC 2%nat ltac:(lia)) as C. pose proof (SC 3%nat ltac:(lia)) as D. cbn [nth] in A, B, C, D.
  rewrite (floor_eq _ _ A), (floor_eq _ _ B), (floor_eq _ _ C), (floor_eq _ _ D). reflexivity.
Qed.

Lemma ok_of y mo d : (-1843 <= y <= 1161)%Z -> valid_bday (leap_of rnd m) y mo d -> okd y mo d.
Proof. intros Y (A & B). rewrite (leap_of_ok rnd N m EV) in B by exact Y. unfold okd. lia. Qed.

(** the part of the two constructors after the decoding *)
Definition date_part (short : bool) (b : bdate) : res pdate := date_new rnd m (firstn (if short then 3 else 5)%nat (bdate_fields b)).
Definition dt_part (short : bool) (tzi : option tz) (b : bdate) : res pdt :=
  let n := (if short then 3 else 5)%nat in
  match skipn n (bdate_fields b) with
  | [h; mi; s; us] => dt_new rnd m (firstn n (bdate_fields b)) h mi (Z.min s 59) us tzi 0
  | _ => Err IndexError
  end.
Lemma date_part_short sd y mo d : s_y sd = y -> s_m sd = mo -> s_d sd == inject_Z d -> okd y mo d -> date_part true (Short sd) = Ok (DShort y mo d).
Proof. intros A B C K. unfold date_part. cbn [bdate_fields app firstn]. rewrite A, B, (floor_eq _ _ C). apply (new_short rnd N m EV), K. Qed.
Lemma date_part_long k v yy mo d l : (1 <= v <= 19)%Z -> (1 <= yy <= 19)%Z -> okd (long_year k v yy) mo d ->
  date_part false (Long {| l_k := k; l_v := v; l_y := yy; l_m := mo; l_d := inject_Z d; l_t := l |}) = Ok (DLong k v yy mo d).
Proof. intros V Y K. unfold date_part. cbn [bdate_fields app firstn l_k l_v l_y l_m l_d]. rewrite Qfloor_Z. apply (new_long rnd N m EV); assumption. Qed.

Lemma clock_ok_iff h mi s us : (0 <= h <= 24)%Z -> (0 <= mi <= 59)%Z -> (0 <= s <= 59)%Z -> (0 <= us <= 999999)%Z -> clock_ok h mi s us = true.
Proof. unfold clock_ok. intros. lia. Qed.
Lemma dt_part_ok (short : bool) b tzi p h mi s us :
  date_part short b = Ok p -> skipn (if short then 3 else 5)%nat (bdate_fields b) = [h; mi; s; us] ->
  (0 <= h <= 24)%Z -> (0 <= mi <= 59)%Z -> (0 <= s <= 59)%Z -> (0 <= us <= 999999)%Z ->
  dt_part short tzi b = Ok {| dt_d := p; dt_h := h; dt_mi := mi; dt_s := s; dt_us := us; dt_tz := tzi; dt_fold := 0 |}.
Proof.
  intros P K H M S U. unfold dt_part. cbv zeta. rewrite K. rewrite dt_new_eq. rewrite Z.min_l by lia. rewrite (clock_ok_iff _ _ _ _ H M S U). change (true && ((0 =? 0) || (0 =? 1))%Z) with true.
  unfold date_part in P. rewrite P. reflexivity.
Qed.

Lemma floor_second s : 0 <= s < 60 -> (0 <= Qfloor s <= 59)%Z.
Proof.
  intros [A B]. split; [apply (Qfloor_resp_le 0 s A)|]. pose proof (Qfloor_le s) as C.
  assert (D : inject_Z (Qfloor s) < inject_Z 60) by (change (inject_Z 60) with 60; lra). rewrite <- Zlt_Qlt in D. lia.
Qed.

(** decoding below hour 24, or in the long form *)
Lemma from_decoded (short : bool) tzi jd y mo d fr h mi s : of_jd rnd m jd = Ok (y, mo, d, fr) -> hms_from_decimal_day rnd fr = (h, mi, s) ->
  (short = true -> (h < 24)%Z) ->
  exists p, denotes p y mo d /\ is_short p = short /\
    bind (badi_date_from_jd rnd m T false short false true false jd LAT LON) (date_part short) = Ok p /\
    bind (badi_date_from_jd rnd m T true short false false false jd LAT LON) (dt_part short tzi) =
    Ok {| dt_d := p; dt_h := h; dt_mi := mi; dt_s := Qfloor s; dt_us := partial_second_to_microsecond rnd s; dt_tz := tzi; dt_fold := 0 |}.
Proof.
  intros O HM H24. destruct (of_jd_valid rnd N m EV _ _ _ _ _ O) as (Y & V & _). pose proof (ok_of y mo d Y V) as K.
  destruct (hms_ok rnd N _ _ _ _ HM) as (Hh & Hm & Hs & _ & _). pose proof (micro_range rnd N _ _ _ _ HM) as MR. pose proof (floor_second s Hs) as FS.
  destruct short.
  - specialize (H24 eq_refl). exists (DShort y mo d). split; [cbn; tauto|]. split; [reflexivity|].
    destruct (decode_clock rnd N m EV false true jd y mo d fr h mi s O HM H24) as (sd & E & A & B & C & _). rewrite E. cbn [bind]. split.
    { apply date_part_short; try assumption. rewrite C. reflexivity. }
    destruct (decode_clock rnd N m EV true false jd y mo d fr h mi s O HM H24) as (sd' & E' & A' & B' & C' & SC). rewrite E'. cbn [bind].
    destruct (decoded_len true _ _ _ _ E') as [L _]. cbn [clock_len] in L.
    apply dt_part_ok; try assumption; try lia.
    + apply date_part_short; try assumption. rewrite C'. reflexivity.
    + cbn [bdate_fields app skipn]. apply clock_fields; assumption.
  - destruct (decode_long rnd N m EV false false true jd y mo d fr h mi s O HM) as (k & v & yy & l & L & R & SC & E). cbv zeta iota in E.
    destruct (decode_long rnd N m EV true false false jd y mo d fr h mi s O HM) as (k' & v' & yy' & l' & L' & R' & SC' & E'). cbv zeta iota in E'.
    assert (KK : (k' = k /\ v' = v /\ yy' = yy)%Z) by (unfold long_year in *; lia). destruct KK as (-> & -> & ->).
    exists (DLong k v yy mo d). split; [cbn; unfold long_year in L; lia|]. split; [reflexivity|]. rewrite E, E'. cbn [bind]. rewrite <- L in K. split.
    { apply date_part_long; try lia; try assumption. }
    destruct (decoded_len false _ _ _ _ E') as [LN _]. cbn [clock_len l_t] in LN.
    apply dt_part_ok; try assumption; try lia.
    + apply date_part_long; try lia; try assumption.
    + cbn [bdate_fields app skipn l_t]. apply clock_fields; assumption.
Qed.

(** the float Julian date of a stamp *)
Lemma stamp_jd t : -70000000000 <= t <= 70000000000 ->
  let jd := fadd rnd (fdiv rnd t 86400) POSIX_EPOCH in
  is_float jd /\ Qabs (jd - (t / 86400 + (4881171 # 2))) <= 1 # 2500000000.
Proof.
  intros R. cbv zeta. unfold fadd, fdiv, POSIX_EPOCH. split; [apply near_float, N|].
  setoid_replace (t / 86400) with (t * (1 # 86400)) by (unfold Qdiv; reflexivity).
  pose proof (near_k rnd N 20 (t * (1 # 86400)) (1 # 17179869184) ltac:(change (2 ^ 20) with 1048576; apply Qabs_le_iff; split; lra) ltac:(discriminate)) as A.
  set (q := rnd (t * (1 # 86400))) in *.
  pose proof (near_k rnd N 22 (q + (4881171 # 2)) (1 # 4294967296) ltac:(change (2 ^ 22) with 4194304; apply Qabs_le_iff; split; lra) ltac:(discriminate)) as B.
  apply Qabs_le_iff. split; lra.
Qed.

Lemma jd_day (short : bool) tzi y mo d y' mo' d' sp sq jd : (-1843 <= y <= 1160)%Z -> next_bday (leap_of rnd m) (y, mo, d) (y', mo', d') ->
  ~ In (y, mo, d) irregular_bdates -> to_jd rnd m (bd y mo d) = Ok sp -> to_jd rnd m (bd y' mo' d') = Ok sq ->
  is_float jd -> ~ near_midnight jd -> sp <= jd -> jd < sq -> jd <= sp + 1 - (1 # 40000000) ->
  exists p h mi s u, denotes p y mo d /\ is_short p = short /\
    bind (badi_date_from_jd rnd m T false short false true false jd LAT LON) (date_part short) = Ok p /\
    bind (badi_date_from_jd rnd m T true short false false false jd LAT LON) (dt_part short tzi) =
      Ok {| dt_d := p; dt_h := h; dt_mi := mi; dt_s := s; dt_us := u; dt_tz := tzi; dt_fold := 0 |} /\
    plain_clock h mi s u /\ Qabs ((clock_us h mi s u # 1000000) - (jd - sp) * 86400) < 3 # 1000.
Proof.
  intros Y NX I SP SQ FJ NMJ L1 L2 L3.
  destruct (of_jd_right_day rnd N m EV y mo d y' mo' d' jd sp sq Y NX I SP SQ FJ L1 L2) as (fr & F & [(_ & O & FE)|(L & _)]); [|exfalso; lra].
  specialize (FE NMJ). destruct (hms_from_decimal_day rnd fr) as [[h mi] s] eqn:HM.
  assert (M1 : fmod1 rnd fr == fr).
  { destruct (fmod1_nonneg rnd fr ltac:(lra)) as [M1 _]. rewrite M1. rewrite (Qfloor_spec fr 0); [ring| |]; [change (inject_Z 0) with 0; lra|change (inject_Z (0 + 1)) with 1; lra]. }
  assert (H24 : h <> 24%Z).
  { intros ->. apply (hour24_late rnd N) in HM. rewrite M1 in HM. lra. }
  pose proof (hms_ok rnd N _ _ _ _ HM) as (Hh & Hm & Hs & _ & HE).
  assert (HU : hmsu_from_decimal_day rnd fr = (h, mi, Qfloor s, partial_second_to_microsecond rnd s)) by (unfold hmsu_from_decimal_day; rewrite HM; reflexivity).
  pose proof (hmsu_ok rnd N _ _ _ _ _ HU) as (_ & _ & Hf & Hu & _ & UE).
  destruct (from_decoded short tzi jd y mo d fr h mi s O HM ltac:(lia)) as (p & P1 & P2 & P3 & P4).
  exists p, h, mi, (Qfloor s), (partial_second_to_microsecond rnd s). split; [exact P1|]. split; [exact P2|]. split; [exact P3|]. split; [exact P4|].
  split; [unfold plain_clock; lia|]. rewrite M1, FE in UE.
  set (u := partial_second_to_microsecond rnd s) in *. set (f := Qfloor s) in *.
  assert (CU : (clock_us h mi f u # 1000000) == inject_Z h * 3600 + inject_Z mi * 60 + inject_Z f + (u # 1000000)).
  { unfold clock_us, Qeq, Qplus, Qmult, inject_Z. cbn [Qnum Qden]. lia. }
  rewrite CU. exact UE.
Qed.
Lemma next_sizes y mo d y' mo' d' sp sq : (-1843 <= y <= 1160)%Z -> next_bday (leap_of rnd m) (y, mo, d) (y', mo', d') ->
  to_jd rnd m (bd y mo d) = Ok sp -> to_jd rnd m (bd y' mo' d') = Ok sq ->
  valid_bday (leap_of rnd m) y mo d /\ 1699980 <= sp <= 2900001 /\ 1699980 <= sq <= 2900001 /\ is_float sp.
Proof.
  intros Y NX SP SQ.
  assert (VV : valid_bday (leap_of rnd m) y mo d /\ (-1843 <= y' <= 1161)%Z /\ valid_bday (leap_of rnd m) y' mo' d').
  { pose proof (next_valid _ _ _ _ _ _ _ NX) as Q. unfold valid_bday. repeat split; lia. }
  destruct VV as (V & Y' & V'). destruct (jd_size rnd N m EV y mo d sp ltac:(lia) V SP) as [FP RP]. destruct (jd_size rnd N m EV y' mo' d' sq Y' V' SQ) as [FQ RQ]. tauto.
Qed.

Lemma stamp_day (short : bool) tzi y mo d y' mo' d' sp sq t : (-1843 <= y <= 1160)%Z -> next_bday (leap_of rnd m) (y, mo, d) (y', mo', d') ->
  ~ In (y, mo, d) irregular_bdates -> to_jd rnd m (bd y mo d) = Ok sp -> to_jd rnd m (bd y' mo' d') = Ok sq ->
  stamp_of sp + (1 # 10000) <= t -> t <= stamp_of sq - (1 # 10000) -> t <= stamp_of sp + 86400 - (1 # 400) -> ~ midnight_stamp t ->
  exists p h mi s u, denotes p y mo d /\ is_short p = short /\
    date_fromtimestamp rnd m short t LAT LON = Ok p /\
    dt_fromtimestamp rnd m short tzi t LAT LON = Ok {| dt_d := p; dt_h := h; dt_mi := mi; dt_s := s; dt_us := u; dt_tz := tzi; dt_fold := 0 |} /\
    plain_clock h mi s u /\ Qabs ((clock_us h mi s u # 1000000) - (t - stamp_of sp)) < 4 # 1000.
Proof.
  intros Y NX I SP SQ T1 T2 T3 NM. destruct (next_sizes _ _ _ _ _ _ _ _ Y NX SP SQ) as (_ & RP & RQ & _). unfold stamp_of in *.
  destruct (stamp_jd t ltac:(split; lra)) as [FJ JE]. unfold date_fromtimestamp, dt_fromtimestamp, badi_date_from_timestamp.
  set (jd := fadd rnd (fdiv rnd t 86400) POSIX_EPOCH) in *.
  assert (NMJ : ~ near_midnight jd).
  { intros [k K]. apply NM. exists k. apply Qabs_Qlt_condition in K. apply Qabs_le_iff in JE. apply Qabs_Qlt_condition. split; lra. }
  apply Qabs_le_iff in JE. setoid_replace (t / 86400) with (t * (1 # 86400)) in JE by (unfold Qdiv; reflexivity).
  destruct (jd_day short tzi y mo d y' mo' d' sp sq jd Y NX I SP SQ FJ NMJ ltac:(lra) ltac:(lra) ltac:(lra)) as (p & h & mi & s & u & P1 & P2 & P3 & P4 & P5 & P6).
  exists p, h, mi, s, u. split; [exact P1|]. split; [exact P2|]. split; [exact P3|]. split; [exact P4|]. split; [exact P5|].
  apply Qabs_Qlt_condition in P6. apply Qabs_Qlt_condition. split; lra.
Qed.

(** a sunset is not near midnight *)
Lemma sunset_midnight y mo d sp : (-1843 <= y <= 1161)%Z -> valid_bday (leap_of rnd m) y mo d -> to_jd rnd m (bd y mo d) = Ok sp -> ~ near_midnight sp.
Proof.
  intros Y [M D] J [k K]. rewrite (leap_of_ok rnd N m EV) in D by exact Y.
  pose proof (to_jd_henc rnd N m EV y mo d Y M D) as H. destruct (henc_spec y mo d) as [h|] eqn:HS; [|congruence]. destruct H as (RH & k' & K' & KE & _).
  assert (k' = sp) by congruence. subst k'. pose proof (AE_range rnd N m (band rnd N m EV) h RH) as A. rewrite <- KE in A. apply Qabs_Qlt_condition in K.
  set (e := EX h) in *. assert (B1 : inject_Z e < inject_Z k) by lra. assert (B2 : inject_Z k < inject_Z (e + 1)) by (rewrite inject_Z_plus; change (inject_Z 1) with 1; lra).
  rewrite <- Zlt_Qlt in B1, B2. lia.
Qed.
Lemma near_midnight_comp a b : a == b -> near_midnight a -> near_midnight b.
Proof. intros E [k K]. exists k. rewrite <- E. exact K. Qed.

(** datetime -> timestamp -> datetime, whole seconds *)
Lemma stamp_trip (short : bool) a y mo d y' mo' d' sp sq c : (-1843 <= y <= 1160)%Z -> next_bday (leap_of rnd m) (y, mo, d) (y', mo', d') ->
  ~ In (y, mo, d) irregular_bdates -> to_jd rnd m (bd y mo d) = Ok sp -> to_jd rnd m (bd y' mo' d') = Ok sq ->
  dt_d a = DShort y mo d -> plain_clock (dt_h a) (dt_mi a) (dt_s a) (dt_us a) -> dt_us a = 0%Z -> c = (dt_h a * 3600 + dt_mi a * 60 + dt_s a)%Z ->
  stamp_of sp + inject_Z c < stamp_of sq - (1 # 1000) -> c = 0%Z \/ ~ midnight_stamp (stamp_of sp + inject_Z c) ->
  exists t p h mi s u, dt_timestamp_naive rnd m a = Ok t /\ denotes p y mo d /\ is_short p = short /\
    date_fromtimestamp rnd m short t LAT LON = Ok p /\
    dt_fromtimestamp rnd m short None t LAT LON = Ok {| dt_d := p; dt_h := h; dt_mi := mi; dt_s := s; dt_us := u; dt_tz := None; dt_fold := 0 |} /\
    plain_clock h mi s u /\ (Z.abs (clock_us h mi s u - c * 1000000) < 4000)%Z.
Proof.
  intros Y NX I SP SQ D (H & MI & S & _) U0 C T2 NM. destruct (next_sizes _ _ _ _ _ _ _ _ Y NX SP SQ) as (V & RP & RQ & FP).
  assert (SQ' : 0 <= inject_Z (dt_s a) < 60) by (change 0 with (inject_Z 0); change 60 with (inject_Z 60); rewrite <- Zle_Qle, <- Zlt_Qlt; lia).
  destruct (enc_clock rnd N m EV y mo d sp (dt_h a) (dt_mi a) (inject_Z (dt_s a)) (dt_us a) ltac:(lia) V SP ltac:(lia) MI SQ' ltac:(lia) ltac:(left; exact U0)) as (j & J & JF & JE).
  assert (J0 : c = 0%Z -> j = sp).
  { intro Z0. assert (E0 : dt_h a = 0%Z /\ dt_mi a = 0%Z /\ dt_s a = 0%Z) by lia. destruct E0 as (A1 & A2 & A3). rewrite A1, A2, A3, U0 in J.
    assert (X : to_jd rnd m {| s_y := y; s_m := mo; s_d := inject_Z d; s_t := [inject_Z 0; inject_Z 0; inject_Z 0; inject_Z 0] |} = to_jd rnd m (bd y mo d)).
    { unfold to_jd, jd_from_badi_date. rewrite (check_short_clock rnd N m y mo (inject_Z d) [inject_Z 0; inject_Z 0; inject_Z 0; inject_Z 0] []); [reflexivity|].
      intros i I'. do 4 (destruct i as [|i]; [reflexivity|]). lia. }
    congruence. }
  assert (CQ : inject_Z c == inject_Z (dt_h a) * 3600 + inject_Z (dt_mi a) * 60 + inject_Z (dt_s a)) by (rewrite C, !inject_Z_plus, !inject_Z_mult; reflexivity).
  assert (CR : 0 <= inject_Z c <= 86399) by (change 0 with (inject_Z 0); change 86399 with (inject_Z 86399); rewrite <- !Zle_Qle; lia).
  rewrite U0 in JE. rewrite <- CQ in JE. setoid_replace (0 # 1000000) with 0 in JE by reflexivity.
  setoid_replace ((inject_Z c + 0) / 86400) with (inject_Z c * (1 # 86400)) in JE by (unfold Qdiv; rewrite Qplus_0_r; reflexivity). apply Qabs_le_iff in JE.
  assert (L1 : sp <= j).
  { destruct (Z.eq_dec c 0) as [Z0|Z1]; [rewrite (J0 Z0); lra|]. assert (1 <= inject_Z c) by (change 1 with (inject_Z 1); rewrite <- Zle_Qle; lia). lra. }
  unfold dt_timestamp_naive, dt_mktime, dt_tuple. rewrite D. unfold timestamp_from_badi_date. unfold to_jd in J. rewrite J. cbn [bind].
  destruct (timestamp_jd rnd N m EV j _ JF ltac:(unfold stamp_of in T2; split; lra) eq_refl) as [JT TE]. set (t0 := round12 rnd _) in *.
  assert (F0 : is_float t0) by (unfold t0, round12, fround; apply near_float, N).
  assert (TT : fadd rnd t0 (fdiv rnd (inject_Z (dt_us a)) 1000000) == t0).
  { unfold fadd, fdiv. rewrite U0. assert (Z0 : rnd (inject_Z 0 / 1000000) == 0).
    { setoid_replace (inject_Z 0 / 1000000) with (inject_Z 0) by reflexivity. apply near_int; [exact N|lia]. }
    rewrite Z0, Qplus_0_r. apply near_exact; assumption. }
  set (t := fadd rnd t0 _) in *. exists t.
  unfold date_fromtimestamp, dt_fromtimestamp, badi_date_from_timestamp. set (jd := fadd rnd (fdiv rnd t 86400) POSIX_EPOCH).
  assert (JJ : jd == j).
  { rewrite <- JT. unfold jd, fadd, fdiv. rewrite TT. reflexivity. }
  assert (FJ : is_float jd) by (unfold jd, fadd; apply near_float, N).
  assert (NMJ : ~ near_midnight jd).
  { destruct NM as [Z0|NM]; intro Q; apply (near_midnight_comp _ _ JJ) in Q.
    - rewrite (J0 Z0) in Q. revert Q. apply (sunset_midnight y mo d); [lia|exact V|exact SP].
    - apply NM. destruct Q as [k K]. exists k. unfold stamp_of. apply Qabs_Qlt_condition in K. 
      setoid_replace (((sp - (4881171 # 2)) * 86400 + inject_Z c) / 86400) with (sp - (4881171 # 2) + inject_Z c * (1 # 86400)) by (field; discriminate).
      apply Qabs_Qlt_condition. split; lra. }
  unfold stamp_of in T2.
  destruct (jd_day short None y mo d y' mo' d' sp sq jd Y NX I SP SQ FJ NMJ ltac:(lra) ltac:(lra) ltac:(lra)) as (p & h & mi & s & u & P1 & P2 & P3 & P4 & P5 & P6).
  exists p, h, mi, s, u. split; [reflexivity|]. split; [exact P1|]. split; [exact P2|]. split; [exact P3|]. split; [exact P4|]. split; [exact P5|].
  apply Qabs_Qlt_condition in P6. rewrite JJ in P6. set (x := clock_us h mi s u) in *.
  assert (B1 : inject_Z (c * 1000000 - 4000) < inject_Z x).
  { setoid_replace (inject_Z x) with ((x # 1000000) * 1000000) by (unfold Qeq, Qmult, inject_Z; cbn [Qnum Qden]; lia).
    replace (c * 1000000 - 4000)%Z with (c * 1000000 + -4000)%Z by lia. rewrite inject_Z_plus, inject_Z_mult. change (inject_Z 1000000) with 1000000. change (inject_Z (-4000)) with (-4000). lra. }
  assert (B2 : inject_Z x < inject_Z (c * 1000000 + 4000)).
  { setoid_replace (inject_Z x) with ((x # 1000000) * 1000000) by (unfold Qeq, Qmult, inject_Z; cbn [Qnum Qden]; lia).
    rewrite inject_Z_plus, inject_Z_mult. change (inject_Z 1000000) with 1000000. change (inject_Z 4000) with 4000. lra. }
  rewrite <- Zlt_Qlt in B1, B2. lia.
Qed.

(** whatever the stamp, what comes out is valid *)
Lemma stamp_valid (short : bool) tzi t a : dt_fromtimestamp rnd m short tzi t LAT LON = Ok a ->
  exists y mo d, denotes (dt_d a) y mo d /\ (-1843 <= y <= 1161)%Z /\ valid_bday (leap_of rnd m) y mo d /\ is_short (dt_d a) = short /\ dt_tz a = tzi /\ dt_fold a = 0%Z /\
    (plain_clock (dt_h a) (dt_mi a) (dt_s a) (dt_us a) \/ (short = false /\ dt_h a = 24 /\ dt_mi a = 0 /\ dt_s a = 0 /\ dt_us a = 0)%Z).
Proof.
  unfold dt_fromtimestamp, badi_date_from_timestamp. set (jd := fadd rnd (fdiv rnd t 86400) POSIX_EPOCH). intro E0.
  change (bind (badi_date_from_jd rnd m T true short false false false jd LAT LON) (dt_part short tzi) = Ok a) in E0.
  destruct (of_jd rnd m jd) as [[[[y mo] d] fr]|e] eqn:O.
  2:{ exfalso. revert E0. unfold badi_date_from_jd. destruct (passert _); cbn [bind]; [|discriminate]. unfold of_jd in O. rewrite O. cbn [bind]. discriminate. }
  destruct (of_jd_valid rnd N m EV _ _ _ _ _ O) as (Y & V & V1). destruct (hms_from_decimal_day rnd fr) as [[h mi] s] eqn:HM.
  pose proof (hms_ok rnd N _ _ _ _ HM) as (Hh & Hm & Hs & Z24 & HE). pose proof (micro_range rnd N _ _ _ _ HM) as U. pose proof (floor_second s Hs) as FS.
  destruct (Bool.bool_dec (short && (h =? 24)%Z) true) as [B|B].
  - assert (SH : short = true) by (destruct short; [reflexivity|discriminate]). assert (h = 24%Z) by (destruct short; cbn in B; lia). subst h short. clear B.
    assert (K := decode_24 rnd N m EV true false jd y mo d fr mi s O HM).
    assert (VC : let '(y', mo', d') := carried (leap_of rnd m y) y mo d in (-1843 <= y' <= 1161)%Z /\ valid_bday (leap_of rnd m) y' mo' d').
    { unfold carried. destruct V as [M D]. assert (BL : forall a b, (b <> 0)%Z -> bmonth_len a b = 19%Z) by (intros a' b B; unfold bmonth_len; destruct (Z.eqb_spec b 0); [contradiction|reflexivity]).
      destruct (Z.ltb_spec d (bmonth_len (leap_of rnd m y) mo)); [split; [lia|split; lia]|].
      destruct (Z.eqb_spec mo 0) as [->|N0]; [split; [lia|split; [lia|rewrite BL by lia; lia]]|].
      rewrite BL in * by assumption.
      destruct (Z.eqb_spec mo 19) as [->|N19].
      - assert (y <> 1161)%Z by (intros ->; destruct (V1 eq_refl); lia). split; [lia|]. split; [lia|]. rewrite BL by lia. lia.
      - split; [lia|]. split; [lia|]. rewrite BL by lia. lia. }
    destruct (carried _ _ _ _) as [[y' mo'] d']. destruct K as (sd & E' & K1 & K2 & K3 & K4). destruct VC as [VC1 VC2]. rewrite E' in E0. cbn [bind] in E0.
    destruct (decoded_len true _ _ _ _ E') as [L _]. cbn [clock_len] in L.
    rewrite (dt_part_ok true (Short sd) tzi (DShort y' mo' d') 23 0 0 0) in E0; try lia.
    + injection E0 as <-. exists y', mo', d'. cbn. split; [tauto|]. split; [exact VC1|]. split; [exact VC2|]. repeat (split; [reflexivity|]). left. unfold plain_clock. lia.
    + apply date_part_short; try assumption. apply ok_of; assumption.
    + cbn [bdate_fields app skipn]. apply clock_fields; [exact L|]. intros i I. rewrite (K4 i I). do 4 (destruct i as [|i]; [reflexivity|]). lia.
  - destruct (from_decoded short tzi jd y mo d fr h mi s O HM ltac:(destruct short; cbn in B; lia)) as (p & P1 & P2 & _ & P4). rewrite P4 in E0. injection E0 as <-.
    exists y, mo, d. cbn. split; [exact P1|]. split; [exact Y|]. split; [exact V|]. split; [exact P2|]. split; [reflexivity|]. split; [reflexivity|].
    destruct (Z.eq_dec h 24) as [->|NE].
    + right. destruct (Z24 eq_refl) as [-> S0]. split; [destruct short; [exfalso; exact (B eq_refl)|reflexivity]|]. split; [reflexivity|]. split; [reflexivity|].
      split; [rewrite (Qfloor_comp _ _ S0); reflexivity|].
      assert (H : hmsu_from_decimal_day rnd fr = (24%Z, 0%Z, Qfloor s, partial_second_to_microsecond rnd s)) by (unfold hmsu_from_decimal_day; rewrite HM; reflexivity).
      apply (hmsu_ok rnd N) in H. destruct H as (_ & _ & _ & _ & H & _). apply H. reflexivity.
    + left. unfold plain_clock. lia.
Qed.
End Ts.
