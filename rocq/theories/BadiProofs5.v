(** BadiProofs5.v -- the Gregorian date of Naw-Ruz; validity of dates; timestamps; day fractions. *)
From Coq Require Import ZArith QArith Qround Qabs List Bool Lia Lqa Setoid Morphisms.
From Coq Require Import ZifyBool ZifyNat ZifyN.
From Verif Require Import Base Flt QUtil BaseModel MiscModel BadiModel SpecGreg GregModel GregProofs GregProofs2 BaseProofs BaseProofs2 SunProofs SpecBadi BadiProofs BadiProofs2 LongYear BadiProofs3 DecProofs BadiProofs4 LongProofs.
Import ListNotations.
Local Open Scope Q_scope.
Ltac Zify.zify_post_hook ::= Z.div_mod_to_equations.

(** ** floats near a Julian day *)
Lemma float_grid32 x : is_float x -> 1048576 <= x -> exists z, x == z # 4294967296.
Proof.
  intros (mm & e & M & E) H.
  destruct (Z_le_gt_dec (-32) e) as [G|G].
  - exists (mm * 2 ^ (e + 32))%Z.
    rewrite E. replace e with ((e + 32) + -32)%Z at 1 by lia. rewrite two_pow_plus, (two_pow_Z (e + 32)) by lia.
    change (2 ^ (-32)) with (1 # 4294967296). unfold Qeq, Qmult, inject_Z. cbn [Qnum Qden]. lia.
  - assert (A : 2 ^ e <= 2 ^ (-33)) by (apply pow2_mono; lia). change (2 ^ (-33)) with (1 # 8589934592) in A.
    assert (B : inject_Z mm <= 9007199254740992) by (change 9007199254740992 with (inject_Z 9007199254740992); rewrite <- Zle_Qle; change (2 ^ 53)%Z with 9007199254740992%Z in M; lia).
    pose proof (two_pow_pos e) as P. set (u := 2 ^ e) in *. set (w := inject_Z mm) in *.
    assert (C : w * u <= 9007199254740992 * (1 # 8589934592)).
    { apply Qle_trans with (9007199254740992 * u); [apply Qmult_le_compat_r; lra|]. lra. }
    assert (D : 9007199254740992 * (1 # 8589934592) == 1048576) by reflexivity.
    exists 4503599627370496%Z. assert (X : x == 1048576) by lra. rewrite X. reflexivity.
Qed.
Lemma float_close32 x y : is_float x -> is_float y -> 1048576 <= x -> 1048576 <= y -> Qabs (x - y) < 1 # 4294967296 -> x == y.
Proof.
  intros Fx Fy Lx Ly D. destruct (float_grid32 x Fx Lx) as [a A]. destruct (float_grid32 y Fy Ly) as [b B].
  rewrite A, B in D. assert (X : (a = b)%Z).
  { apply Qabs_Qlt_condition in D. destruct D as [D1 D2]. unfold Qlt, Qminus, Qplus, Qopp in D1, D2. cbn [Qnum Qden] in D1, D2. lia. }
  rewrite A, B, X. reflexivity.
Qed.

Section S5.
Variable rnd : Q -> Q.
Hypothesis N : Nearest rnd.
#[local] Instance prop_rnd8 : Proper (Qeq ==> Qeq) rnd.
Proof. intros a b E. apply near_proper; [exact N|exact E]. Qed.
Variable m : Q -> Q -> Q -> Q.
Hypothesis EV : evening rnd m.
Notation LAT := (TEHRAN_LAT rnd).
Notation LON := (TEHRAN_LON rnd).
Notation T := (year_table rnd m).
Let band := band rnd N m EV.

(** C55 *)
Definition march_ok (y : Z) : bool :=
  let D := (ystart y - gday false (y + 1843) 3 0)%Z in (18 <=? D)%Z && (D <=? 21)%Z.
Lemma marches y : (-1843 <= y <= 1161)%Z -> march_ok y = true.
Proof. intro H. apply (zforall march_ok (-1843) 3005); [vm_compute; reflexivity|lia]. Qed.
Lemma naw_ruz_march y : (-1843 <= y <= 1161)%Z -> exists D g j,
  (18 <= D <= 21)%Z /\ jd_from_gregorian_date rnd true false (y + 1843) 3 (inject_Z D) 0 0 0 = Ok g /\
  T y = Some (gday false (y + 1843) 3 D) /\
  to_jd rnd m (bd y 1 1) = Ok j /\ g + (13 # 20) < j + (7 # 48) < g + (43 # 50).
Proof.
  intro Y. pose proof (marches y Y) as M. unfold march_ok in M. cbv zeta in M. set (D := (ystart y - gday false (y + 1843) 3 0)%Z) in *.
  assert (DR : (18 <= D <= 21)%Z) by lia.
  assert (V : valid_gdate (leap_rule false) (y + 1843) 3 D).
  { exists 31%Z. split; [constructor; cbn; tauto|lia]. }
  destruct (enc_float rnd false (y + 1843) 3 D 0 (inject_Z D) N ltac:(lia) V ltac:(lia)) as (g & G & GE).
  { setoid_replace (0 # 4096) with 0 by reflexivity. ring. }
  assert (GD : gday false (y + 1843) 3 D = ystart y) by (unfold D, gday; lia).
  assert (VB : valid_bday (leap_of rnd m) y 1 1) by (split; [lia|unfold bmonth_len; cbn [Z.eqb]; lia]).
  assert (I : ~ In (y, 1, 1)%Z (skipped_bdates ++ reform_bdates ++ [after_reform])).
  { unfold after_reform. cbn [skipped_bdates reform_bdates app In]. intro I. repeat (destruct I as [I|I]; [congruence|]). exact I. }
  destruct (to_jd_value rnd N m EV y 1 1 (ystart y) Y VB I) as (j & J & _ & B & _); [apply (year_table_ok rnd N m EV); lia|].
  exists D, g, j. split; [exact DR|]. split; [exact G|]. split; [rewrite GD; apply (year_table_ok rnd N m EV); lia|]. split; [exact J|].
  rewrite GD in GE. unfold bday_of_year in B. change (1 =? 0)%Z with false in B. change (1 =? 19)%Z with false in B. cbv iota in B.
  rewrite GE. unfold GREG0. setoid_replace (0 # 4096) with 0 by reflexivity. zpush. split; lra.
Qed.

(** C11 *)
Lemma valid_iff y mo d : (-1843 <= y <= 1161)%Z -> (check_short rnd T (bd y mo d) = Ok tt <-> valid_bday (leap_of rnd m) y mo d).
Proof.
  intro Y. rewrite (check_bd rnd N m EV) by exact Y. unfold valid_bday. rewrite (leap_of_ok rnd N m EV) by exact Y.
  destruct (_ && _)%bool eqn:E.
  - split; [intros _; lia|reflexivity].
  - split; [discriminate|]. intro V. exfalso. lia.
Qed.
Lemma invalid_error y mo d : (-1843 <= y <= 1161)%Z -> ~ valid_bday (leap_of rnd m) y mo d ->
  check_short rnd T (bd y mo d) = Err AssertionError.
Proof.
  intros Y H. rewrite <- valid_iff in H by exact Y. rewrite (check_bd rnd N m EV) in * by exact Y. 
  destruct (_ && _)%bool; [exfalso; apply H; reflexivity|reflexivity].
Qed.

(** C47: the instant survives the trip through a timestamp *)
Lemma timestamp_jd jd t : is_float jd -> 1699980 <= jd <= 2900001 ->
  t = round12 rnd (fmul rnd (fsub rnd jd POSIX_EPOCH) 86400) ->
  fadd rnd (fdiv rnd t 86400) POSIX_EPOCH == jd /\ Qabs (t - (jd - POSIX_EPOCH) * 86400) <= 4 # 1000000.
Proof.
  intros F R ->. unfold fsub, POSIX_EPOCH.
  assert (FD : rnd (jd - (4881171 # 2)) == jd - (4881171 # 2)).
  { apply near_exact; [exact N|]. destruct (float_grid jd F ltac:(lra)) as [z Z].
    apply (is_float_comp ((z - 20964469811183616) # 8589934592)).
    - rewrite Z. unfold Qeq, Qminus, Qplus, Qopp. cbn [Qnum Qden]. lia.
    - apply grid_float. rewrite Z in R. destruct R as [R1 R2]. unfold Qle in R1, R2. cbn [Qnum Qden] in R1, R2.
      change (2 ^ 53)%Z with 9007199254740992%Z. lia. }
  unfold fmul. set (df := rnd (jd - (4881171 # 2))) in *.
  assert (DR : - (740606#1) <= df <= 740606) by (split; lra).
  assert (A : Qabs (df * 86400) <= 2 ^ 36) by (change (2 ^ 36) with 68719476736; apply Qabs_le_iff; split; lra).
  pose proof (near_err rnd N 36 _ A) as B. change (2 ^ (36 - 54)) with (1 # 262144) in B. apply Qabs_le_iff in B.
  pose proof (near_float rnd N (df * 86400)) as FX. set (x := rnd (df * 86400)) in *.
  unfold round12, fround. pose proof (qround12_err x) as C.
  pose proof N as (_ & FN & NN). pose proof (NN (qround 12 x) x FX) as D.
  set (t := rnd (qround 12 x)) in *. apply Qabs_le_iff in C.
  assert (D' : Qabs (t - qround 12 x) <= 1 # 2000000000000).
  { apply (Qle_trans _ _ _ D). apply Qabs_le_iff. split; lra. }
  apply Qabs_le_iff in D'. split; [|apply Qabs_le_iff; split; lra].
  unfold fadd, fdiv. assert (TD : t / 86400 == t * (1 # 86400)) by (unfold Qdiv; reflexivity).
  assert (A2 : Qabs (t / 86400) <= 2 ^ 20) by (change (2 ^ 20) with 1048576; rewrite TD; apply Qabs_le_iff; split; lra).
  pose proof (near_err rnd N 20 _ A2) as B2. change (2 ^ (20 - 54)) with (1 # 17179869184) in B2. apply Qabs_le_iff in B2.
  set (u := rnd (t / 86400)) in *. rewrite TD in B2.
  pose proof (NN (u + (4881171 # 2)) jd F) as E. pose proof (FN (u + (4881171 # 2))) as FV.
  set (v := rnd (u + (4881171 # 2))) in *.
  assert (DL : Qabs (jd - (u + (4881171 # 2))) <= 104 # 1000000000000).
  { apply Qabs_le_iff. split; lra. }
  pose proof (Qle_trans _ _ _ E DL) as E2. apply Qabs_le_iff in E2. apply Qabs_le_iff in DL.
  apply float_close32; try assumption; try lra.
  apply Qabs_Qlt_condition. split; lra.
Qed.
Lemma jd_size y mo d j : (-1843 <= y <= 1161)%Z -> valid_bday (leap_of rnd m) y mo d -> to_jd rnd m (bd y mo d) = Ok j ->
  is_float j /\ 1699980 <= j <= 2900001.
Proof.
  intros Y [M D] J. rewrite (leap_of_ok rnd N m EV) in D by exact Y.
  pose proof (to_jd_henc rnd N m EV y mo d Y M D) as H.
  destruct (henc_spec y mo d) as [h|] eqn:HS; [|congruence]. destruct H as (RH & k & K & KE & KF).
  assert (k = j) by congruence. subst k. split; [exact KF|].
  pose proof (AE_size rnd N m EV _ RH) as [_ A]. rewrite <- KE in A. exact A.
Qed.
Lemma timestamp_trip y mo d j : (-1843 <= y <= 1161)%Z -> valid_bday (leap_of rnd m) y mo d -> to_jd rnd m (bd y mo d) = Ok j ->
  exists t, timestamp_from_badi_date rnd m T (bd y mo d) LAT LON = Ok t /\ Qabs (t - (j - (4881171 # 2)) * 86400) <= 4 # 1000000 /\ forall us short trim rtd, exists j', j' == j /\ badi_date_from_timestamp rnd m T us short trim rtd t LAT LON = badi_date_from_jd rnd m T us short false trim rtd j' LAT LON.
Proof.
  intros Y V J. destruct (jd_size y mo d j Y V J) as [F R]. unfold timestamp_from_badi_date.
  unfold to_jd in J. rewrite J. cbn [bind].
  destruct (timestamp_jd j _ F R eq_refl) as [A B]. eexists. split; [reflexivity|]. split; [exact B|].
  intros us short trim rtd. eexists. split; [exact A|]. reflexivity.
Qed.
End S5.
