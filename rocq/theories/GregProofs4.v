(** GregProofs4.v -- every float of the calendar's range decodes to the civil date that contains it. *)
From Coq Require Import ZArith QArith Qround Qabs List Bool Lia Lqa Morphisms.
From Verif Require Import Base Flt QUtil BaseModel SpecGreg SpecConv GregModel GregProofs GregProofs2 GregProofs3 SunProofs BadiProofs5.
Import ListNotations.
Local Open Scope Q_scope.

Lemma float_grid31 x : is_float x -> 2097152 <= x -> exists z, x == z # 2147483648.
Proof.
  intros (mm & e & M & E) H.
  destruct (Z_le_gt_dec (-31) e) as [G|G].
  - exists (mm * 2 ^ (e + 31))%Z.
    rewrite E. replace e with ((e + 31) + -31)%Z at 1 by lia. rewrite two_pow_plus, (two_pow_Z (e + 31)) by lia.
    change (2 ^ (-31)) with (1 # 2147483648). unfold Qeq, Qmult, inject_Z. cbn [Qnum Qden]. lia.
  - assert (A : 2 ^ e <= 2 ^ (-32)) by (apply pow2_mono; lia). change (2 ^ (-32)) with (1 # 4294967296) in A.
    assert (B : inject_Z mm <= 9007199254740992) by (change 9007199254740992 with (inject_Z 9007199254740992); rewrite <- Zle_Qle; change (2 ^ 53)%Z with 9007199254740992%Z in M; lia).
    pose proof (two_pow_pos e) as P. set (u := 2 ^ e) in *. set (w := inject_Z mm) in *.
    assert (C : w * u <= 9007199254740992 * (1 # 4294967296)).
    { apply Qle_trans with (9007199254740992 * u); [apply Qmult_le_compat_r; lra|]. lra. }
    assert (D : 9007199254740992 * (1 # 4294967296) == 2097152) by reflexivity.
    exists 4503599627370496%Z. assert (X : x == 2097152) by lra. rewrite X. reflexivity.
Qed.

(** the days of the civil calendar, numbered *)
Lemma gday_from y0 m0 d0 (n : nat) : (1 <= m0 <= 12)%Z -> (1 <= d0 <= mlen (is_leap_g false y0) m0)%Z ->
  exists y m d, (1 <= m <= 12 /\ 1 <= d <= mlen (is_leap_g false y) m /\ gday false y m d = gday false y0 m0 d0 + Z.of_nat n /\
  days_after (y0, m0, d0) (y, m, d) (Z.of_nat n))%Z.
Proof.
  intros M0 D0. induction n as [|n (y & m & d & M & D & E & A)].
  - exists y0, m0, d0. split; [exact M0|]. split; [exact D0|]. split; [cbn [Z.of_nat]; lia|]. apply da_same.
  - assert (V : valid_gdate (leap_rule false) y m d) by (apply valid_gdate_iff; split; assumption).
    assert (ML : month_len (leap_rule false y) m (mlen (is_leap_g false y) m)).
    { apply (month_len_mlen _ (is_leap_g false y)); [apply is_leap_g_rule|split; [assumption|reflexivity]]. }
    replace (Z.of_nat (S n)) with (Z.of_nat n + 1)%Z by lia.
    destruct (Z_lt_ge_dec d (mlen (is_leap_g false y) m)) as [L|L].
    + exists y, m, (d + 1)%Z. split; [exact M|]. split; [lia|]. split; [unfold gday in *; lia|].
      eapply da_next; [exact A|]. apply (nd_day _ y m d (mlen (is_leap_g false y) m)); [exact ML|lia].
    + assert (d = mlen (is_leap_g false y) m) by lia. destruct (Z_lt_ge_dec m 12) as [K|K].
      * exists y, (m + 1)%Z, 1%Z. pose proof (mlen_range (is_leap_g false y) (m + 1) ltac:(lia)). split; [lia|]. split; [lia|].
        split; [unfold gday in *; rewrite mbefore_succ by lia; lia|].
        eapply da_next; [exact A|]. subst d. apply nd_month; assumption.
      * assert (m = 12)%Z by lia. subst m. exists (y + 1)%Z, 1%Z, 1%Z. split; [lia|]. split; [destruct (is_leap_g false (y + 1)); vm_compute; split; discriminate|].
        assert (L31 : mlen (is_leap_g false y) 12 = 31%Z) by (destruct (is_leap_g false y); reflexivity).
        split.
        { unfold gday in *. replace (y + 1 - 1)%Z with (y - 1 + 1)%Z by lia. rewrite diy_succ. replace (y - 1 + 1)%Z with y by lia. rewrite mbefore_1.
          pose proof (mbefore_12 (is_leap_g false y)). lia. }
        eapply da_next; [exact A|]. subst d. rewrite L31. apply nd_year.
Qed.

Lemma gday_onto n : (-365 <= n)%Z -> exists y m d, (1 <= m <= 12 /\ 1 <= d <= mlen (is_leap_g false y) m /\ gday false y m d = n /\
  days_after (0, 1, 1) (y, m, d) (n + 365))%Z.
Proof.
  intro H. destruct (gday_from 0 1 1 (Z.to_nat (n + 365))) as (y & m & d & M & D & E & A); [lia|vm_compute; split; discriminate|].
  change (gday false 0 1 1) with (-365)%Z in E. exists y, m, d. replace (Z.of_nat (Z.to_nat (n + 365))) with (n + 365)%Z in * by lia.
  split; [exact M|]. split; [exact D|]. split; [lia|exact A].
Qed.

(** a valid date is determined by its number *)
Lemma mbefore_mono b m m' : (1 <= m <= m')%Z -> (m' <= 12)%Z -> (mbefore b m <= mbefore b m')%Z.
Proof.
  intros H K. replace m' with (m + Z.of_nat (Z.to_nat (m' - m)))%Z in * by lia. revert K. generalize (Z.to_nat (m' - m)). intro k. assert (H1 : (1 <= m)%Z) by lia. clear H.
  induction k as [|k IH]; intro K; [replace (m + Z.of_nat 0)%Z with m by lia; lia|].
  replace (m + Z.of_nat (S k))%Z with (m + Z.of_nat k + 1)%Z in * by lia. rewrite mbefore_succ by lia.
    pose proof (mlen_range b (m + Z.of_nat k) ltac:(lia)). lia.
Qed.
Lemma gday_inj y m d y' m' d' : valid_gdate (leap_rule false) y m d -> valid_gdate (leap_rule false) y' m' d' ->
  gday false y m d = gday false y' m' d' -> y = y' /\ m = m' /\ d = d'.
Proof.
  rewrite !valid_gdate_iff. intros [M D] [M' D'] E. unfold gday in E.
  pose proof (mbefore_total (is_leap_g false y) m M). pose proof (mbefore_total (is_leap_g false y') m' M').
  pose proof (mbefore_range (is_leap_g false y) m M). pose proof (mbefore_range (is_leap_g false y') m' M').
  pose proof (diy_succ false (y - 1)) as S. pose proof (diy_succ false (y' - 1)) as S'. replace (y - 1 + 1)%Z with y in S by lia. replace (y' - 1 + 1)%Z with y' in S' by lia.
  destruct (Z.lt_trichotomy y y') as [L|[L|L]].
  - exfalso. pose proof (diy_mono false y (y' - 1) ltac:(lia)). nia.
  - subst y'. split; [reflexivity|].
    assert (MM : m = m').
    { destruct (Z.lt_trichotomy m m') as [L|[L|L]]; [exfalso|exact L|exfalso].
      - assert (mbefore (is_leap_g false y) (m + 1) <= mbefore (is_leap_g false y) m')%Z by (apply mbefore_mono; lia). rewrite mbefore_succ in * by lia. lia.
      - assert (mbefore (is_leap_g false y) (m' + 1) <= mbefore (is_leap_g false y) m)%Z by (apply mbefore_mono; lia). rewrite mbefore_succ in * by lia. lia. }
    subst m'. split; [reflexivity|lia].
  - exfalso. pose proof (diy_mono false y' (y - 1) ltac:(lia)). nia.
Qed.

Lemma gday_after y m d y' m' d' : valid_gdate (leap_rule false) y m d -> valid_gdate (leap_rule false) y' m' d' ->
  (gday false y m d <= gday false y' m' d')%Z -> days_after (y, m, d) (y', m', d') (gday false y' m' d' - gday false y m d).
Proof.
  intros V V' L. pose proof V as W. apply valid_gdate_iff in W. destruct W as [M D].
  destruct (gday_from y m d (Z.to_nat (gday false y' m' d' - gday false y m d)) M D) as (a & b & c & B & C & E & A).
  assert (V2 : valid_gdate (leap_rule false) a b c) by (apply valid_gdate_iff; split; assumption).
  destruct (gday_inj a b c y' m' d' V2 V' ltac:(lia)) as (-> & -> & ->).
  replace (gday false y' m' d' - gday false y m d)%Z with (Z.of_nat (Z.to_nat (gday false y' m' d' - gday false y m d))) by lia. exact A.
Qed.
Lemma gday_succ y m d y' m' d' : valid_gdate (leap_rule false) y m d -> valid_gdate (leap_rule false) y' m' d' ->
  gday false y' m' d' = (gday false y m d + 1)%Z -> next_gday (leap_rule false) (y, m, d) (y', m', d').
Proof.
  intros V V' L. pose proof (gday_after y m d y' m' d' V V' ltac:(lia)) as A. replace (gday false y' m' d' - gday false y m d)%Z with 1%Z in A by lia.
  inversion A as [|p q r n A' B]. subst. assert (n = 0)%Z by lia. subst n. inversion A' as [|p q' r n' A2 B2]; subst; [exact B|].
  exfalso. assert (X : forall p q n, days_after p q n -> (0 <= n)%Z) by (intros ? ? ? I; induction I; lia). apply X in A2. lia.
Qed.

Section Dec.
Variable rnd : Q -> Q.
Hypothesis N : Nearest rnd.

Lemma decode_float jd : is_float jd -> 1721100 <= jd -> jd <= 2860000 ->
  exists Y m D dl q, valid_gdate (leap_rule false) Y m D /\ 0 <= dl < 1 /\ jd == inject_Z (gday false Y m D) + GREG0 + dl /\
    days_after (0, 1, 1)%Z (Y, m, D) (gday false Y m D + 365) /\ (-365 <= gday false Y m D <= 1140000)%Z /\ date_exact rnd false jd = Some (Y, m, q) /\ Qabs (q - (inject_Z D + dl)) <= 1 # 1000000000000 /\ inject_Z D <= q /\ dl <= 1 - (1 # 4294967296).
Proof.
  intros F L U. set (n := Qfloor (jd - GREG0)). set (dl := jd - GREG0 - inject_Z n).
  pose proof (Qfloor_le (jd - GREG0)) as F1. pose proof (Qlt_floor (jd - GREG0)) as F2. fold n in F1, F2. rewrite inject_Z_plus in F2. change (inject_Z 1) with 1 in F2.
  assert (E : jd == inject_Z n + GREG0 + dl) by (unfold dl; ring).
  assert (Hdl : 0 <= dl < 1) by (unfold dl; split; lra).
  assert (N1 : (-365 <= n)%Z) by (unfold GREG0 in *; byQ).
  assert (N2 : (n <= 1140000)%Z) by (unfold GREG0 in *; byQ).
  destruct (gday_onto n N1) as (Y & m & D & M & DD & G & DA).
  assert (R : forall MZ, (10000 <= MZ)%Z -> (2 * n + 4000 <= MZ)%Z ->
    (forall z, (Z.abs z + 2 <= 2 * MZ)%Z -> rnd ((z # 2) + dl) == (z # 2) + dl) ->
    exists q, date_exact rnd false jd = Some (Y, m, q) /\ Qabs (q - (inject_Z D + dl)) <= 1 # 1000000000000 /\ inject_Z D <= q).
  { intros MZ B1 B2 Hex. apply (date_exact_float rnd dl MZ N Hdl Hex B1 jd Y m D M DD); rewrite ?G; try assumption; try lia. lra. }
  assert (X : dl <= 1 - (1 # 4294967296) /\ exists q, date_exact rnd false jd = Some (Y, m, q) /\ Qabs (q - (inject_Z D + dl)) <= 1 # 1000000000000 /\ inject_Z D <= q).
  { destruct (Qlt_le_dec jd 2097152) as [S|S].
    - assert (N3 : (n <= 375729)%Z) by (unfold GREG0 in *; byQ).
      destruct (float_grid32 jd F ltac:(lra)) as [a A].
      assert (DL : dl == (a - n * 4294967296 - 3442845 * 2147483648) # 4294967296).
      { unfold dl. rewrite A. unfold GREG0, Qeq, Qminus, Qplus, Qopp, inject_Z. cbn [Qnum Qden]. lia. }
      set (k := (a - n * 4294967296 - 3442845 * 2147483648)%Z) in *. clearbody k.
      assert (K : (0 <= k < 4294967296)%Z).
      { rewrite DL in Hdl. destruct Hdl as [H1 H2]. unfold Qle, Qlt in H1, H2. cbn [Qnum Qden] in H1, H2. lia. }
      split; [rewrite DL; unfold Qle, Qminus, Qplus, Qopp; cbn [Qnum Qden]; lia|].
      apply (R 2097152%Z); [lia|lia|]. intros z Hz. apply near_exact; [exact N|].
      exists (z * 2147483648 + k)%Z, (-32)%Z. split; [change (2 ^ 53)%Z with 9007199254740992%Z; lia|].
      rewrite DL. change (2 ^ (-32)) with (1 # 4294967296). unfold Qeq, Qplus, Qmult, inject_Z. cbn [Qnum Qden]. lia.
    - destruct (float_grid31 jd F ltac:(lra)) as [a A].
      assert (DL : dl == (a - n * 2147483648 - 3442845 * 1073741824) # 2147483648).
      { unfold dl. rewrite A. unfold GREG0, Qeq, Qminus, Qplus, Qopp, inject_Z. cbn [Qnum Qden]. lia. }
      set (k := (a - n * 2147483648 - 3442845 * 1073741824)%Z) in *. clearbody k.
      assert (K : (0 <= k < 2147483648)%Z).
      { rewrite DL in Hdl. destruct Hdl as [H1 H2]. unfold Qle, Qlt in H1, H2. cbn [Qnum Qden] in H1, H2. lia. }
      split; [rewrite DL; unfold Qle, Qminus, Qplus, Qopp; cbn [Qnum Qden]; lia|].
      apply (R 4194304%Z); [lia|lia|]. intros z Hz. apply near_exact; [exact N|].
      exists (z * 1073741824 + k)%Z, (-31)%Z. split; [change (2 ^ 53)%Z with 9007199254740992%Z; lia|].
      rewrite DL. change (2 ^ (-31)) with (1 # 2147483648). unfold Qeq, Qplus, Qmult, inject_Z. cbn [Qnum Qden]. lia. }
  destruct X as (X0 & q & X1 & X2 & X3). exists Y, m, D, dl, q. split; [apply valid_gdate_iff; split; assumption|].
  split; [exact Hdl|]. split; [rewrite G; exact E|]. rewrite G. split; [exact DA|]. split; [split; assumption|]. repeat split; assumption.
Qed.
End Dec.
