(** TduProofs2.v -- ordinals of dates: _ymd2ord. *)
From Coq Require Import ZArith QArith Qround Qabs List Bool Lia Lqa Setoid Morphisms.
From Coq Require Import ZifyBool ZifyNat ZifyN.
From Verif Require Import Base Flt QUtil BaseModel MiscModel BadiModel BaseProofs BaseProofs2 MiscProofs SunProofs SpecMisc SpecBadi BadiProofs BadiProofs2 LongYear BadiProofs3 DecProofs BadiProofs4 LongProofs BadiProofs5 ClockProofs ClockProofs2 TduModel TduProofs SpecDate.
Import ListNotations.
Local Open Scope Q_scope.
Ltac Zify.zify_post_hook ::= Z.div_mod_to_equations.

Definition fudge (y : Z) : Z := if existsb (Z.eqb y) [-1796; -1792; -1788]%Z then 1 else 0.
Lemma fudge_in y : In y [-1796; -1792; -1788]%Z <-> fudge y = 1%Z.
Proof.
  unfold fudge. destruct (existsb _ _) eqn:E; split; intro H; try lia; try discriminate.
  - apply existsb_exists in E. destruct E as (x & I & Q). apply Z.eqb_eq in Q. congruence.
  - exfalso. assert (existsb (Z.eqb y) [-1796; -1792; -1788]%Z = true); [|congruence]. apply existsb_exists. exists y. split; [exact H|apply Z.eqb_refl].
Qed.
Lemma fudge_01 y : fudge y = 0%Z \/ fudge y = 1%Z.
Proof. unfold fudge. destruct (existsb _ _); tauto. Qed.

Definition zord (y mo d : Z) : Z := (zrd y mo d + fudge y)%Z.
Lemma steady_fudge y : ~ In y stale_years -> fudge y = 0%Z.
Proof. intro H. destruct (fudge_01 y) as [F|F]; [exact F|]. exfalso. apply H, fudge_in, F. Qed.
Lemma zord_steady y mo d : ~ In y stale_years -> zord y mo d = zrd y mo d.
Proof. intro H. unfold zord. rewrite (steady_fudge y H). lia. Qed.

Section Ord.
Variable rnd : Q -> Q.
Hypothesis N : Nearest rnd.
#[local] Instance prop_rnd14 : Proper (Qeq ==> Qeq) rnd.
Proof. intros a b E. apply near_proper; [exact N|exact E]. Qed.
Variable m : Q -> Q -> Q -> Q.
Hypothesis EV : evening rnd m.
Notation LAT := (TEHRAN_LAT rnd).
Notation LON := (TEHRAN_LON rnd).
Notation T := (year_table rnd m).
Notation AE := (AE rnd m).
Let band := band rnd N m EV.

Lemma jd_of_to_jd y mo d : jd_of rnd m y mo d = to_jd rnd m (bd y mo d).
Proof. reflexivity. Qed.

Lemma naw_ruz_AE y : (-1843 <= y <= 1162)%Z ->
  exists j, to_jd rnd m (bd y 1 1) = Ok j /\ is_float j /\ j == AE (HI (ystart y + 1721423)) /\
    (1700001 < HI (ystart y + 1721423) < 2900000)%Z /\ EX (HI (ystart y + 1721423)) = (ystart y + 1721423)%Z.
Proof.
  intro Y. unfold to_jd, jd_from_badi_date, bd. change (inject_Z 1) with 1. rewrite (check_short_11 rnd) by exact Y. cbn [bind s_y s_m s_d s_t get_hms nth].
  unfold days_before_month_enc. change (1 =? 0)%Z with false. change (1 <? 19)%Z with true. cbv iota. cbn [bind].
  rewrite (epoch_floor rnd N). change ((1 - 1) * 19)%Z with 0%Z.
  pose proof (years_ok y Y) as K. unfold year_ok in K.
  pose proof (coeff_range y Y) as C. set (c := get_day_coeff y) in *.
  set (E := (ystart y + 1721423)%Z) in *.
  apply andb_prop in K. destruct K as [K K4]. apply andb_prop in K. destruct K as [K K3].
  apply andb_prop in K. destruct K as [K1 K2]. apply oeqb_eq in K1. apply negb_true_iff in K2.
  assert (J : (days_in_years false (y - 1) + 2394644 + 0 + 1 = E - c)%Z) by (unfold E, ystart; fold c; lia).
  assert (X : fadd rnd (inject_Z (days_in_years false (y - 1) + 2394644 + 0)) 1 == inject_Z (E - c)).
  { unfold fadd. change 1 with (inject_Z 1). rewrite <- inject_Z_plus, J. apply near_int; [exact N|lia]. }
  assert (R : in_days (E - c)) by (unfold in_days; lia).
  pose proof (enc_raw rnd N m EV _ (E - c) c R C X) as R0. replace (E - c + c)%Z with E in R0 by lia. rewrite K1 in R0.
  destruct (meeus_from_exact rnd _) as [jd0|e]; [|discriminate]. cbn [bind] in *. rewrite R0. cbn [bind].
  destruct (day_frac0 rnd N) as (q & D & Q0). rewrite D. cbn [bind].
  assert (RH : (1700001 < HI E < 2900000)%Z) by (apply (hist_day_range E c); [exact R|exact K1|exact C]).
  pose proof (enc_finish rnd N m EV (HI E) q RH Q0) as F.
  eexists. split; [reflexivity|]. split; [unfold round12, fround; apply near_float, N|].
  split; [exact F|]. split; [exact RH|]. apply (EX_HI E K2).
Qed.
Lemma naw_ruz_jd y : (-1843 <= y <= 1162)%Z ->
  exists j, to_jd rnd m (bd y 1 1) = Ok j /\ is_float j /\
    inject_Z (ystart y + 1721423) + (7 # 1000) < j < inject_Z (ystart y + 1721423) + (208 # 1000).
Proof.
  intro Y. destruct (naw_ruz_AE y Y) as (j & J & F & E & RH & X). exists j. split; [exact J|]. split; [exact F|].
  rewrite E. pose proof (AE_range rnd N m band _ RH) as A. rewrite X in A. exact A.
Qed.

Definition E0 : Z := 1721500.
Lemma day0_jd : exists j, to_jd rnd m (bd (-1843) 19 19) = Ok j /\ is_float j /\ inject_Z E0 + (7 # 1000) < j < inject_Z E0 + (208 # 1000).
Proof.
  assert (V : valid_bday (leap_of rnd m) (-1843) 19 19) by (split; [lia|vm_compute; split; discriminate]).
  destruct (to_jd_value rnd N m EV (-1843) 19 19 (-287) ltac:(lia) V) as (j & A & B & C & _).
  - intro I. apply inb_in in I. vm_compute in I. discriminate.
  - rewrite (year_table_ok rnd N m EV) by lia. reflexivity.
  - exists j. split; [exact A|]. split; [exact B|]. cbv zeta in C. rewrite (leap_of_ok rnd N m EV) in C by lia.
    change (-287 + bday_of_year (zleap (-1843)) 19 19 + 1721422)%Z with E0 in C. exact C.
Qed.

Lemma diff_exact x y : is_float x -> is_float y -> 1700000 <= x <= 2900000 -> 1700000 <= y <= 2900000 -> fsub rnd x y == x - y.
Proof.
  intros FX FY RX RY. unfold fsub. apply near_exact; [exact N|].
  destruct (float_grid32 x FX ltac:(lra)) as [a A]. destruct (float_grid32 y FY ltac:(lra)) as [b B].
  exists (a - b)%Z, (-32)%Z. change (2 ^ (-32)) with (1 # 4294967296).
  assert (Ka : x == inject_Z a * (1 # 4294967296)) by (rewrite A; unfold Qeq, Qmult, inject_Z; cbn [Qnum Qden]; lia).
  assert (Kb : y == inject_Z b * (1 # 4294967296)) by (rewrite B; unfold Qeq, Qmult, inject_Z; cbn [Qnum Qden]; lia).
  split.
  - assert (L : Qabs (inject_Z (a - b)) <= inject_Z (2 ^ 53)).
    { change (inject_Z (2 ^ 53)) with 9007199254740992. rewrite inject_Z_sub. apply Qabs_le_iff. split; lra. }
    unfold inject_Z, Qabs, Qle in L. cbn [Qnum Qden] in L. lia.
  - rewrite Ka, Kb, inject_Z_sub. ring.
Qed.

(** Is the Naw-Ruz sunset earlier in the day than that of (-1843, 19, 19)? *)
Lemma dby_cases y : (-1843 <= y <= 1162)%Z ->
  (opens_earlier rnd m y /\ days_before_year rnd m y = Ok (ystart y - 79)%Z) \/
  (~ opens_earlier rnd m y /\ days_before_year rnd m y = Ok (ystart y - 78)%Z).
Proof.
  intro Y. destruct (naw_ruz_jd y Y) as (j & J & F & R). destruct day0_jd as (j0 & J0 & F0 & R0).
  unfold days_before_year. rewrite !jd_of_to_jd. change (MINYEAR - 1)%Z with (-1843)%Z. rewrite J, J0. cbn [bind].
  pose proof (ystart_range y Y) as YR. unfold E0 in R0. change (inject_Z 1721500) with 1721500 in R0.
  assert (EB : 1721136 <= inject_Z (ystart y + 1721423) <= 2818691) by (change 1721136 with (inject_Z 1721136); change 2818691 with (inject_Z 2818691); rewrite <- !Zle_Qle; lia).
  pose proof (diff_exact j j0 F F0 ltac:(lra) ltac:(lra)) as X.
  assert (FJ : Qfloor j = (ystart y + 1721423)%Z) by (apply Qfloor_spec; zpush; lra).
  assert (FJ0 : Qfloor j0 = 1721500%Z) by (apply Qfloor_spec; [change (inject_Z 1721500) with 1721500|change (inject_Z (1721500 + 1)) with 1721501]; lra).
  assert (OE : opens_earlier rnd m y <-> j - inject_Z (ystart y + 1721423) < j0 - 1721500).
  { split.
    - intros (f & f0 & (k & K & ->) & (k0 & K0 & ->) & L). assert (k = j) by congruence. assert (k0 = j0) by congruence. subst.
      rewrite FJ, FJ0 in L. exact L.
    - intro L. do 2 eexists. split; [exists j; split; [exact J|reflexivity]|]. split; [exists j0; split; [exact J0|reflexivity]|].
      rewrite FJ, FJ0. exact L. }
  destruct (Qlt_le_dec (j - inject_Z (ystart y + 1721423)) (j0 - 1721500)) as [L|L].
  - left. split; [apply OE, L|]. f_equal. enough (Qfloor (fsub rnd j j0) = ystart y - 78)%Z by lia.
    apply Qfloor_spec; rewrite X; zpush; lra.
  - right. split; [intro K; apply OE in K; lra|]. f_equal. enough (Qfloor (fsub rnd j j0) = ystart y - 77)%Z by lia.
    apply Qfloor_spec; rewrite X; zpush; lra.
Qed.

Lemma dbm_z y mo : (-1843 <= y <= 1162)%Z -> (0 <= mo <= 19)%Z -> (y <= 1161 \/ mo <> 19)%Z -> days_before_month rnd m y mo = Ok (zdbm (zleap y) mo).
Proof.
  intros Y M H. unfold days_before_month, zdbm.
  destruct (Z.ltb_spec mo 2) as [L|L].
  - destruct (Z.eqb_spec mo 0) as [->|Z0]; [reflexivity|]. assert (mo = 1)%Z by lia. subst. reflexivity.
  - destruct (Z.ltb_spec 1 mo); [|lia]. cbn [andb]. destruct (Z.ltb_spec mo 19).
    + destruct (Z.eqb_spec mo 0); [lia|]. destruct (Z.ltb_spec 0 (mo - 1)); [|lia]. destruct (Z.ltb_spec (mo - 1) 19); [|lia]. reflexivity.
    + assert (mo = 19)%Z by lia. subst. change (19 - 19)%Z with 0%Z. cbn [andb Z.ltb Z.eqb Z.compare].
      rewrite (is_leap_ok rnd N m EV) by lia. cbn [bind]. reflexivity.
Qed.

Lemma ymd2ord_cases y mo d : (-1843 <= y <= 1162)%Z -> (0 <= mo <= 19)%Z -> (y <= 1161 \/ mo <> 19)%Z ->
  exists e, (opens_earlier rnd m y /\ e = 1 \/ ~ opens_earlier rnd m y /\ e = 0)%Z /\
    ymd2ord rnd m y mo d = Ok (zrd y mo d + fudge y - e)%Z.
Proof.
  intros Y M H. unfold ymd2ord, DAYS_BEFORE_1ST_YEAR. fold (fudge y). rewrite (dbm_z y mo Y M H).
  destruct (dby_cases y Y) as [[A ->]|[A ->]]; cbn [bind]; [exists 1%Z|exists 0%Z]; (split; [tauto|]); f_equal; unfold zrd; lia.
Qed.

Lemma ymd2ord_ok y mo d : naw_ruz_order rnd m -> (-1843 <= y <= 1162)%Z -> (0 <= mo <= 19)%Z -> (y <= 1161 \/ mo <> 19)%Z ->
  ymd2ord rnd m y mo d = Ok (zord y mo d).
Proof.
  intros O Y M H. destruct (ymd2ord_cases y mo d Y M H) as (e & C & ->). specialize (O y Y). unfold zord.
  f_equal. destruct C as [[C ->]|[C ->]]; [tauto|lia].
Qed.
End Ord.
