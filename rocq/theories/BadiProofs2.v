(** BadiProofs2.v -- encoder and year table for every correctly rounding arithmetic and evening sunset. *)
From Coq Require Import ZArith QArith Qround Qabs List Bool Lia Lqa Setoid Morphisms.
From Coq Require Import ZifyBool ZifyNat ZifyN.
From Verif Require Import Base Flt QUtil BaseModel MiscModel BadiModel BaseProofs BaseProofs2 SunProofs SpecBadi BadiProofs.
Import ListNotations.
Local Open Scope Q_scope.
Ltac Zify.zify_post_hook ::= Z.div_mod_to_equations.

Lemma Qltb_Z a b : Qltb (inject_Z a) (inject_Z b) = (a <? b)%Z.
Proof. destruct (Z.ltb_spec a b); [apply Qltb_lt; rewrite <- Zlt_Qlt; assumption|apply Qltb_ge; rewrite <- Zle_Qle; assumption]. Qed.
Lemma Qleb_Z a b : Qleb (inject_Z a) (inject_Z b) = (a <=? b)%Z.
Proof.
  destruct (Z.leb_spec a b); [apply Qleb_le; rewrite <- Zle_Qle; assumption|].
  destruct (Qleb (inject_Z a) (inject_Z b)) eqn:E; [|reflexivity]. apply Qleb_le in E. rewrite <- Zle_Qle in E. lia.
Qed.
Lemma Qtrunc_spec x z : (0 <= z)%Z -> inject_Z z <= x -> x < inject_Z z + 1 -> Qtrunc x = z.
Proof.
  intros P A B. rewrite Qtrunc_nonneg; [apply Qfloor_spec; qlra|].
  toQ P. change (inject_Z 0) with 0 in P. lra.
Qed.

Section Enc.
Variable rnd : Q -> Q.
Hypothesis N : Nearest rnd.
#[local] Instance prop_rnd2 : Proper (Qeq ==> Qeq) rnd.
Proof. intros a b E. apply near_proper; [exact N|exact E]. Qed.
Variable m : Q -> Q -> Q -> Q.
Hypothesis EV : evening rnd m.
Notation LAT := (TEHRAN_LAT rnd).
Notation LON := (TEHRAN_LON rnd).

Lemma band H : (1700001 < H < 2900000)%Z -> (13 # 20) <= mu rnd m H <= (17 # 20).
Proof.
  intro R. apply (EV H _ R). pose proof (arg_near rnd N H R) as A. unfold lf in A. apply Qabs_le_iff. split; lra.
Qed.

Lemma epoch_floor : Qfloor (fadd rnd (BADI_EPOCH rnd) 1) = 2394644%Z.
Proof.
  unfold fadd, BADI_EPOCH.
  assert (A : Qabs (239464311511551 # 100000000) <= 8388608) by discriminate.
  pose proof (near23 rnd N _ A) as B. set (e := rnd _) in *.
  assert (C : Qabs (e + 1) <= 8388608) by (apply Qabs_le_iff; split; lra).
  pose proof (near23 rnd N _ C) as D. apply Qfloor_spec; qlra.
Qed.

Definition in_days (J : Z) : Prop := (1700100 < J < 2890000)%Z.
Lemma enc_raw x J c : in_days J -> (-2 <= c <= 0)%Z -> x == inject_Z J ->
  (let* jd0 := meeus_from_exact rnd x in
   exact_from_meeus rnd (sun_setting rnd m (fadd rnd jd0 (inject_Z c)) LAT LON))
  = match henc (J + c) c with None => Err ValueError | Some H => Ok (AE rnd m H) end.
Proof.
  intros R C E. rewrite meeus_from_exact_z. unfold henc.
  assert (X : hd x = (2 * J)%Z) by (rewrite (hd_comp _ _ E); unfold hd; apply Qfloor_spec; qlra).
  rewrite X. cbv zeta. replace (J + c - c)%Z with J by lia. destruct (zgap (2 * J)); [reflexivity|]. cbn [bind].
  pose proof (zdiff_m_range (2 * J)) as D. set (n := zdiff (2 * J) meeus_breaks) in *.
  rewrite sun_setting_SS.
  assert (Y : cday rnd (fadd rnd (fadd rnd x (inject_Z n)) (inject_Z c)) = (J + n + c)%Z).
  { apply cday_int; [exact N| |unfold in_days in R; lia]. unfold fadd. rewrite E, <- inject_Z_plus.
    rewrite (near_int rnd N (J + n)) by (unfold in_days in R; lia). rewrite <- inject_Z_plus.
    apply near_int; [exact N|unfold in_days in R; lia]. }
  rewrite Y, (exact_sunset rnd N m band) by (unfold in_days in R; lia).
  destruct (zinvalid _); reflexivity.
Qed.

Lemma day_frac0 : exists q, decimal_day_from_hms rnd 0 0 0 0 = Ok q /\ q == 0.
Proof.
  unfold decimal_day_from_hms.
  assert (Z0 : rnd 0 == 0) by (change 0 with (inject_Z 0); apply near_int; [exact N|lia]).
  assert (F : fmod1 rnd 0 = 0) by reflexivity. rewrite F.
  change (Qeqb 0 0) with true. cbn [negb andb orb].
  eexists. split; [reflexivity|]. unfold fdiv, fadd, fmul, US, fdiv, SECONDS_PER_DAY.
  assert (A : rnd (0 * 3600) == 0) by (setoid_replace (0 * 3600) with 0 by ring; exact Z0).
  assert (B : rnd (0 * 60) == 0) by (setoid_replace (0 * 60) with 0 by ring; exact Z0).
  assert (C : rnd (0 / 1000000) == 0) by (setoid_replace (0 / 1000000) with 0 by reflexivity; exact Z0).
  rewrite A, B, C. setoid_replace (0 + 0) with 0 by ring. rewrite Z0. setoid_replace (0 + 0) with 0 by ring. rewrite Z0.
  setoid_replace (0 + 0) with 0 by ring. rewrite Z0. setoid_replace (0 / 86400) with 0 by reflexivity. exact Z0.
Qed.

Lemma hist_day_range E c H : in_days (E - c) -> henc E c = Some H -> (-2 <= c <= 0)%Z -> (1700001 < H < 2900000)%Z.
Proof.
  unfold henc, in_days. cbv zeta. intros R X C. destruct (zgap _); [discriminate|]. destruct (zinvalid _); [discriminate|].
  pose proof (zdiff_m_range (2 * (E - c))). assert (X2 : (E - c + zdiff (2 * (E - c)) meeus_breaks + c = H)%Z) by congruence. lia.
Qed.
Lemma AE_size H : (1700001 < H < 2900000)%Z -> is_float (AE rnd m H) /\ 1699980 <= AE rnd m H <= 2900001.
Proof.
  intro R. destruct (AE_eq rnd N m band H R) as [E F]. split; [exact F|].
  pose proof (AE_range rnd N m band H R) as A. unfold EX in A. pose proof (zdiff_e_range (2 * H)) as D.
  assert (B1 : (1699990 <= H - zdiff (2 * H) exact_breaks)%Z) by lia.
  assert (B2 : (H - zdiff (2 * H) exact_breaks <= 2900000)%Z) by lia.
  toQ B1. toQ B2. change (inject_Z 1699990) with 1699990 in B1. change (inject_Z 2900000) with 2900000 in B2. split; lra.
Qed.
(** the last step of the encoder without clock fields changes nothing *)
Lemma enc_finish H q : (1700001 < H < 2900000)%Z -> q == 0 -> round12 rnd (fadd rnd (AE rnd m H) q) == AE rnd m H.
Proof.
  intros R Q0. destruct (AE_size H R) as [F S].
  assert (X : fadd rnd (AE rnd m H) q == AE rnd m H).
  { unfold fadd. rewrite Q0, Qplus_0_r. apply near_exact; [exact N|exact F]. }
  rewrite round12_float; [exact X|exact N| |].
  - unfold fadd. apply near_float, N.
  - rewrite X. split; lra.
Qed.

(** ** the year table *)
Lemma check_short_11 T y : (-1843 <= y <= 1162)%Z ->
  check_short rnd T {| s_y := y; s_m := 1; s_d := 1; s_t := [] |} = Ok tt.
Proof.
  intro Y. unfold check_short, MINYEAR, MAXYEAR. cbn [s_y s_m s_d s_t].
  assert (A : ((-1842 - 1 <=? y) && (y <=? 1161 + 1))%Z = true) by lia. rewrite A. reflexivity.
Qed.
Lemma check_short_year T d : (s_y d < -1843 \/ 1162 < s_y d)%Z -> check_short rnd T d = Err AssertionError.
Proof.
  intro Y. unfold check_short, MINYEAR, MAXYEAR.
  assert (A : ((-1842 - 1 <=? s_y d) && (s_y d <=? 1161 + 1))%Z = false) by lia. rewrite A. reflexivity.
Qed.

Definition year_ok (y : Z) : bool :=
  let c := get_day_coeff y in let E := (ystart y + 1721423)%Z in
  (oeqb (henc E c) (Some (HI E)) && negb (zgap (2 * E)) && (1700110 <? E) && (E <? 2889990))%Z%bool.
Lemma years_ok y : (-1843 <= y <= 1162)%Z -> year_ok y = true.
Proof. intro H. apply (zforall year_ok (-1843) 3006); [vm_compute; reflexivity|lia]. Qed.

Lemma year_start_ok T y : (-1843 <= y <= 1162)%Z -> year_start_entry rnd m T y = Ok (ystart y).
Proof.
  intro Y. unfold year_start_entry, jd_from_badi_date. rewrite check_short_11 by exact Y. cbn [bind s_y s_m s_d s_t get_hms nth].
  unfold days_before_month_enc. change (1 =? 0)%Z with false. change (1 <? 19)%Z with true. cbv iota. cbn [bind].
  rewrite epoch_floor. change ((1 - 1) * 19)%Z with 0%Z.
  pose proof (years_ok y Y) as K. unfold year_ok in K.
  pose proof (coeff_range y Y) as C. set (c := get_day_coeff y) in *.
  set (E := (ystart y + 1721423)%Z) in *.
  apply andb_prop in K. destruct K as [K K4]. apply andb_prop in K. destruct K as [K K3].
  apply andb_prop in K. destruct K as [K1 K2]. apply oeqb_eq in K1. apply negb_true_iff in K2.
  assert (J : (days_in_years false (y - 1) + 2394644 + 0 + 1 = E - c)%Z) by (unfold E, ystart; fold c; lia).
  assert (X : fadd rnd (inject_Z (days_in_years false (y - 1) + 2394644 + 0)) 1 == inject_Z (E - c)).
  { unfold fadd. change 1 with (inject_Z 1). rewrite <- inject_Z_plus, J. apply near_int; [exact N|lia]. }
  assert (R : in_days (E - c)) by (unfold in_days; lia).
  pose proof (enc_raw _ (E - c) c R C X) as R0. replace (E - c + c)%Z with E in R0 by lia. rewrite K1 in R0.
  destruct (meeus_from_exact rnd _) as [jd0|e]; [|discriminate]. cbn [bind] in *. rewrite R0. cbn [bind].
  destruct day_frac0 as (q & D & Q0). rewrite D. cbn [bind].
  assert (RH : (1700001 < HI E < 2900000)%Z) by (apply (hist_day_range E c); [exact R|exact K1|exact C]).
  pose proof (enc_finish (HI E) q RH Q0) as F. set (j := round12 rnd _) in *.
  pose proof (AE_range rnd N m band (HI E) RH) as A. rewrite <- F in A.
  destruct (EX_HI E K2) as [EE _]. rewrite EE in A.
  assert (E0 : (0 <= E)%Z) by lia.
  assert (T0 : Qtrunc j = E) by (apply Qtrunc_spec; [exact E0|lra|lra]).
  rewrite T0. f_equal. unfold PROLEPTIC_GREG_1ST_DAY. 
  fold (LF rnd). pose proof (LF_near rnd N) as L. unfold lf in L.
  assert (Fr : fsub rnd j (inject_Z E) == j - inject_Z E).
  { unfold fsub. apply near_exact; [exact N|]. apply float_sub_int; [|exact E0|lra|].
    - unfold j, round12, fround. apply near_float, N.
    - assert (E < 2889990)%Z by lia. toQ H. change (inject_Z 2889990) with 2889990 in H. lra. }
  set (fr := fsub rnd j (inject_Z E)) in *.
  assert (Q1 : Qabs (fr + LF rnd) <= 2) by (apply Qabs_le_iff; rewrite Fr; split; lra).
  pose proof (near1 rnd N _ Q1) as B1. unfold fadd at 4. set (b1 := rnd (fr + LF rnd)) in *. rewrite Fr in B1.
  assert (Q2 : Qabs (b1 + (1#2)) <= 2) by (apply Qabs_le_iff; split; lra).
  pose proof (near1 rnd N _ Q2) as B2. unfold fadd at 3. set (b2 := rnd (b1 + (1#2))) in *.
  assert (Q3 : Qabs (1 # 1000000000000) <= 2) by discriminate.
  pose proof (near1 rnd N _ Q3) as B3. set (b3 := rnd (1 # 1000000000000)) in *.
  assert (Q4 : Qabs (b2 + b3) <= 2) by (apply Qabs_le_iff; split; lra).
  pose proof (near1 rnd N _ Q4) as B4. unfold fadd at 2. set (b4 := rnd (b2 + b3)) in *.
  assert (E1 : - (1#1) * 30000 <= inject_Z E - (3442847 # 2) <= 1200000).
  { assert (1700110 < E < 2889990)%Z as [U1 U2] by lia. toQ U1. toQ U2.
    change (inject_Z 1700110) with 1700110 in U1. change (inject_Z 2889990) with 2889990 in U2. split; lra. }
  assert (Q5 : Qabs (inject_Z E - (3442847 # 2)) <= 8388608) by (apply Qabs_le_iff; split; lra).
  pose proof (near23 rnd N _ Q5) as B5. unfold fsub. set (b5 := rnd (inject_Z E - (3442847 # 2))) in *.
  assert (Q6 : Qabs (b5 + b4) <= 8388608) by (apply Qabs_le_iff; split; lra).
  pose proof (near23 rnd N _ Q6) as B6. unfold fadd.
  assert (YS : inject_Z (ystart y) == inject_Z E - 1721423) by (unfold E; rewrite inject_Z_plus; change (inject_Z 1721423) with 1721423; ring).
  apply Qfloor_spec; rewrite ?inject_Z_plus, YS; zconsts; lra.
Qed.

Lemma year_table_ok y : (-1843 <= y <= 1162)%Z -> year_table rnd m y = Some (ystart y).
Proof.
  intro Y. unfold year_table, MINYEAR, MAXYEAR.
  assert (A : ((-1842 - 1 <=? y) && (y <? 1161 + 2))%Z = true) by lia. rewrite A, year_start_ok by exact Y. reflexivity.
Qed.
Lemma year_table_none y : (y < -1843 \/ 1162 < y)%Z -> year_table rnd m y = None.
Proof.
  intro Y. unfold year_table, MINYEAR, MAXYEAR.
  assert (A : ((-1842 - 1 <=? y) && (y <? 1161 + 2))%Z = false) by lia. rewrite A. reflexivity.
Qed.
Notation T := (year_table rnd m).
Lemma lookup_ok y : (-1843 <= y <= 1162)%Z -> lookup T y = Ok (ystart y).
Proof. intro Y. unfold lookup. rewrite year_table_ok by exact Y. reflexivity. Qed.
Lemma lookup_err y : (y < -1843 \/ 1162 < y)%Z -> lookup T y = Err KeyError.
Proof. intro Y. unfold lookup. rewrite year_table_none by exact Y. reflexivity. Qed.
Lemma is_leap_ok y : (-1843 <= y <= 1161)%Z -> is_leap_badi T y = Ok (zleap y).
Proof. intro Y. unfold is_leap_badi. rewrite !lookup_ok by lia. reflexivity. Qed.
Lemma is_leap_err y : (y < -1843 \/ 1161 < y)%Z -> is_leap_badi T y = Err KeyError.
Proof.
  intro Y. unfold is_leap_badi. destruct (Z.eq_dec y (-1844)) as [->|].
  - rewrite lookup_ok, lookup_err by lia. reflexivity.
  - rewrite lookup_err by lia. reflexivity.
Qed.
Lemma leap_of_ok y : (-1843 <= y <= 1161)%Z -> leap_of rnd m y = zleap y.
Proof. intro Y. unfold leap_of. rewrite is_leap_ok by exact Y. reflexivity. Qed.

(** ** validity (C11) *)
Lemma check_bd y mo d : (-1843 <= y <= 1161)%Z ->
  check_short rnd T (bd y mo d) =
  if ((0 <=? mo) && (mo <=? 19) && (1 <=? d) && (d <=? bmonth_len (zleap y) mo))%Z then Ok tt else Err AssertionError.
Proof.
  intro Y. unfold check_short, MINYEAR, MAXYEAR. cbn [bd s_y s_m s_d s_t].
  assert (A : ((-1842 - 1 <=? y) && (y <=? 1161 + 1))%Z = true) by lia. rewrite A. cbn [passert bind].
  unfold check_mdt. cbn [get_hms nth].
  destruct (Z.leb_spec 0 mo); cbn [andb passert bind]; [|reflexivity].
  destruct (Z.ltb_spec mo 20); destruct (Z.leb_spec mo 19); try (exfalso; lia); cbn [andb passert bind]; [|reflexivity].
  unfold bmonth_len. rewrite is_leap_ok by exact Y.
  destruct (Z.eqb_spec mo 0); cbn [bind].
  - change 1 with (inject_Z 1). rewrite Qleb_Z, Qltb_Z.
    assert (B : (d <? 5 + b2z (zleap y) = (d <=? (if zleap y then 5 else 4)))%Z) by (destruct (zleap y); cbn [b2z]; lia). rewrite B.
    destruct ((1 <=? d)%Z && _); reflexivity.
  - change 1 with (inject_Z 1). rewrite Qleb_Z, Qltb_Z.
    assert (B : (d <? 20 = (d <=? 19))%Z) by lia. rewrite B. destruct ((1 <=? d)%Z && _); reflexivity.
Qed.
Lemma check_bd_1162 mo d :
  check_short rnd T (bd 1162 mo d) =
  (if (0 <=? mo) && (mo <=? 19) then
     if mo =? 0 then Err KeyError else if (1 <=? d) && (d <=? 19) then Ok tt else Err AssertionError
   else Err AssertionError)%Z.
Proof.
  unfold check_short, MINYEAR, MAXYEAR. cbn [bd s_y s_m s_d s_t].
  change ((-1842 - 1 <=? 1162) && (1162 <=? 1161 + 1))%Z with true. cbn [passert bind].
  unfold check_mdt. cbn [get_hms nth].
  destruct (Z.leb_spec 0 mo); cbn [andb passert bind]; [|reflexivity].
  destruct (Z.ltb_spec mo 20); destruct (Z.leb_spec mo 19); try (exfalso; lia); cbn [andb passert bind]; [|reflexivity].
  destruct (Z.eqb_spec mo 0); [rewrite is_leap_err by lia; reflexivity|]. cbn [bind].
  change 1 with (inject_Z 1). rewrite Qleb_Z, Qltb_Z. assert (B : (d <? 20 = (d <=? 19))%Z) by lia. rewrite B.
  destruct ((1 <=? d)%Z && _); reflexivity.
Qed.

(** ** the encoder *)
Lemma dbm_ok y mo : (-1843 <= y <= 1161)%Z -> days_before_month_enc T y mo = Ok (zdbm (zleap y) mo).
Proof.
  intro Y. unfold days_before_month_enc, zdbm. rewrite is_leap_ok by exact Y.
  destruct (mo =? 0)%Z; [reflexivity|]. destruct (mo <? 19)%Z; reflexivity.
Qed.
Lemma ED_days y mo d : (-1843 <= y <= 1161)%Z -> (0 <= mo <= 19)%Z -> (1 <= d <= bmonth_len (zleap y) mo)%Z ->
  (1721136 <= ED y mo d <= 2818690)%Z.
Proof.
  intros Y M D. pose proof (rd_range y mo d Y M D). pose proof (ystart_range y ltac:(lia)). pose proof (ystart_range (y + 1) ltac:(lia)).
  unfold ED. lia.
Qed.
Lemma to_jd_henc y mo d : (-1843 <= y <= 1161)%Z -> (0 <= mo <= 19)%Z -> (1 <= d <= bmonth_len (zleap y) mo)%Z ->
  match henc_spec y mo d with
  | None => to_jd rnd m (bd y mo d) = Err ValueError
  | Some H => (1700001 < H < 2900000)%Z /\ exists j, to_jd rnd m (bd y mo d) = Ok j /\ j == AE rnd m H /\ is_float j
  end.
Proof.
  intros Y M D. unfold to_jd, jd_from_badi_date. rewrite check_bd by exact Y.
  assert (A : ((0 <=? mo) && (mo <=? 19) && (1 <=? d) && (d <=? bmonth_len (zleap y) mo))%Z = true) by lia. rewrite A.
  cbn [bind bd s_y s_m s_d s_t get_hms nth]. rewrite dbm_ok by exact Y. cbn [bind]. rewrite epoch_floor.
  pose proof (coeff_range y ltac:(lia)) as C. pose proof (henc_date y mo d Y M D) as HE.
  pose proof (ED_days y mo d Y M D) as R. set (c := get_day_coeff y) in *. set (E := ED y mo d) in *.
  assert (J : (days_in_years false (y - 1) + 2394644 + zdbm (zleap y) mo + d = E - c)%Z)
    by (unfold E, ED, zrd, ystart; fold c; lia).
  assert (X : fadd rnd (inject_Z (days_in_years false (y - 1) + 2394644 + zdbm (zleap y) mo)) (inject_Z d) == inject_Z (E - c)).
  { unfold fadd. rewrite <- inject_Z_plus, J. apply near_int; [exact N|lia]. }
  assert (R' : in_days (E - c)) by (unfold in_days; lia).
  pose proof (enc_raw _ (E - c) c R' C X) as R0. replace (E - c + c)%Z with E in R0 by lia. rewrite HE in R0.
  destruct (henc_spec y mo d) as [H|] eqn:HS.
  - assert (RH : (1700001 < H < 2900000)%Z) by (apply (hist_day_range E c); [exact R'|exact HE|exact C]).
    split; [exact RH|].
    destruct (meeus_from_exact rnd _) as [jd0|e]; [|discriminate]. cbn [bind] in *. rewrite R0. cbn [bind].
    destruct day_frac0 as (q & DF & Q0). rewrite DF. cbn [bind]. eexists. split; [reflexivity|]. split.
    + apply enc_finish; assumption.
    + unfold round12, fround. apply near_float, N.
  - destruct (meeus_from_exact rnd _) as [jd0|e]; cbn [bind] in *; [rewrite R0; reflexivity|]. congruence.
Qed.
End Enc.
