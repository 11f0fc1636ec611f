From Coq Require Import ZArith QArith Qround Qabs List Bool Lia Lqa Setoid Morphisms.
From Coq Require Import ZifyBool ZifyNat ZifyN.
From Verif Require Import Base Flt QUtil BaseModel GregModel SpecGreg GregProofs.
Import ListNotations.
Local Open Scope Q_scope.
Ltac Zify.zify_post_hook ::= Z.div_mod_to_equations.

(** * Instances of the section hypotheses *)
Definition K0 : Z := 1000000000000%Z.

Lemma dyadic_fix rnd (N : Nearest rnd) z k : (Z.abs z <= K0)%Z -> (0 <= k < 4096)%Z ->
  rnd ((z # 2) + (k # 4096)) == (z # 2) + (k # 4096).
Proof.
  intros Hz Hk. apply near_exact; [exact N|]. exists (2048 * z + k)%Z, (-12)%Z. split.
  - unfold K0 in Hz. change (2 ^ 53)%Z with 9007199254740992%Z. lia.
  - change (2 ^ (-12))%Q with (1 # 4096). unfold Qeq, Qplus, Qmult, inject_Z; cbn [Qnum Qden]. lia.
Qed.
Lemma dyadic_fix0 rnd (N : Nearest rnd) z : (Z.abs z <= K0)%Z -> rnd (z # 2) == (z # 2).
Proof.
  intros Hz. apply near_exact; [exact N|]. exists z, (-1)%Z. split.
  - unfold K0 in Hz. change (2 ^ 53)%Z with 9007199254740992%Z. lia.
  - change (2 ^ (-1))%Q with (1 # 2). unfold Qeq, Qmult, inject_Z; cbn [Qnum Qden]. lia.
Qed.
Lemma k4096_range k : (0 <= k < 4096)%Z -> 0 <= (k # 4096) < 1.
Proof. intro H. unfold Qle, Qlt; cbn [Qnum Qden]. lia. Qed.
Lemma k4096_grid k : exists j, (k # 4096) * inject_Z (10 ^ 12) == inject_Z j.
Proof. exists (k * 244140625)%Z. unfold Qeq, Qmult, inject_Z; cbn [Qnum Qden Pos.mul Z.pow Z.pow_pos Pos.iter]. lia. Qed.

Definition idr : Q -> Q := fun x => x.
Lemma idr_proper : Proper (Qeq ==> Qeq) idr.
Proof. intros a b E. exact E. Qed.
Lemma idr_est x : Qabs x <= 8388608 -> Qabs (idr x - x) <= 1 # 2147483648.
Proof. intros _. unfold idr. setoid_replace (x - x) with 0 by ring. vm_compute. discriminate. Qed.

(** ** gday along the calendar *)
Lemma gday_next alt p q : next_gday (leap_rule alt) p q ->
  let '(y, m, d) := p in let '(y', m', d') := q in gday alt y' m' d' = (gday alt y m d + 1)%Z.
Proof.
  intros [y m d n Hn Hd | y m n Hn Hm | y]; unfold gday.
  - lia.
  - apply (month_len_mlen _ _ _ _ (is_leap_g_rule alt y)) in Hn. destruct Hn as [Hr ->].
    rewrite mbefore_succ by lia. lia.
  - replace (y + 1 - 1)%Z with (y - 1 + 1)%Z by lia. rewrite diy_succ. replace (y - 1 + 1)%Z with y by lia.
    rewrite mbefore_1. pose proof (mbefore_12 (is_leap_g alt y)). lia.
Qed.

(** ** encode, both roundings *)
Lemma enc_float rnd alt y m d k q : Nearest rnd -> (-1000000 <= y <= 1000000)%Z ->
  valid_gdate (leap_rule false) y m d -> (0 <= k < 4096)%Z -> q == inject_Z d + (k # 4096) ->
  exists j, jd_from_gregorian_date rnd true alt y m q 0 0 0 = Ok j /\
            j == inject_Z (gday alt y m d) + GREG0 + (k # 4096).
Proof.
  intros N Hy Hv Hk Hq. apply valid_gdate_iff in Hv. destruct Hv as [Hm Hd].
  apply (jd_from_greg_ok rnd (k # 4096) K0); try assumption.
  - intros a b E. apply near_proper; [exact N|exact E].
  - apply k4096_range, Hk.
  - apply k4096_grid.
  - intros z Hz. apply dyadic_fix0; assumption.
  - intros z Hz. apply dyadic_fix; assumption.
  - unfold K0. lia.
  - left. exact Hy.
Qed.

Lemma enc_exact alt y m d dl q :
  valid_gdate (leap_rule false) y m d -> 0 <= dl < 1 -> (exists k, dl * inject_Z (10 ^ 12) == inject_Z k) ->
  q == inject_Z d + dl ->
  exists j, jd_from_gregorian_date idr true alt y m q 0 0 0 = Ok j /\
            j == inject_Z (gday alt y m d) + GREG0 + dl.
Proof.
  intros Hv Hdl Hg Hq. apply valid_gdate_iff in Hv. destruct Hv as [Hm Hd].
  apply (jd_from_greg_ok idr dl (10000000000 + 1000 * Z.abs y)); try assumption; try (intros; unfold idr; reflexivity).
  - apply idr_proper.
  - lia.
  - right. lia.
Qed.

(** C01 *)
Lemma year_length_float rnd alt y : Nearest rnd -> (-1000000 <= y < 1000000)%Z ->
  exists j j', jd_from_gregorian_date rnd true alt y 1 1 0 0 0 = Ok j /\
    jd_from_gregorian_date rnd true alt (y + 1) 1 1 0 0 0 = Ok j' /\
    (leap_rule alt y -> j' == j + 366) /\ (~ leap_rule alt y -> j' == j + 365).
Proof.
  intros N Hy.
  assert (V : forall u, valid_gdate (leap_rule false) u 1 1).
  { intro u. exists 31%Z. split; [apply ml31; cbn; tauto|lia]. }
  destruct (enc_float rnd alt y 1 1 0 1 N ltac:(lia) (V _) ltac:(lia)) as [j [E1 E2]]; [reflexivity|].
  destruct (enc_float rnd alt (y+1) 1 1 0 1 N ltac:(lia) (V _) ltac:(lia)) as [j' [E3 E4]]; [reflexivity|].
  exists j, j'. split; [exact E1|]. split; [exact E3|].
  assert (G : (gday alt (y + 1) 1 1 = gday alt y 1 1 + 365 + b2z (is_leap_g alt y))%Z).
  { unfold gday. rewrite !mbefore_1. replace (y + 1 - 1)%Z with (y - 1 + 1)%Z by lia. rewrite diy_succ.
    replace (y - 1 + 1)%Z with y by lia. lia. }
  split; intro L.
  - apply is_leap_g_rule in L. rewrite L in G. cbn [b2z] in G. rewrite E2, E4, G. qlra.
  - assert (F : is_leap_g alt y = false).
    { destruct (is_leap_g alt y) eqn:Q1; [|reflexivity]. exfalso. apply L, is_leap_g_rule. exact Q1. }
    rewrite F in G. cbn [b2z] in G. rewrite E2, E4, G. qlra.
Qed.

Lemma year_length_exact alt y :
  exists j j', jd_from_gregorian_date idr true alt y 1 1 0 0 0 = Ok j /\
    jd_from_gregorian_date idr true alt (y + 1) 1 1 0 0 0 = Ok j' /\
    (leap_rule alt y -> j' == j + 366) /\ (~ leap_rule alt y -> j' == j + 365).
Proof.
  assert (V : forall u, valid_gdate (leap_rule false) u 1 1).
  { intro u. exists 31%Z. split; [apply ml31; cbn; tauto|lia]. }
  assert (G0 : exists k, 0 * inject_Z (10 ^ 12) == inject_Z k) by (exists 0%Z; reflexivity).
  destruct (enc_exact alt y 1 1 0 1 (V _) ltac:(lra) G0) as [j [E1 E2]]; [reflexivity|].
  destruct (enc_exact alt (y+1) 1 1 0 1 (V _) ltac:(lra) G0) as [j' [E3 E4]]; [reflexivity|].
  exists j, j'. split; [exact E1|]. split; [exact E3|].
  assert (G : (gday alt (y + 1) 1 1 = gday alt y 1 1 + 365 + b2z (is_leap_g alt y))%Z).
  { unfold gday. rewrite !mbefore_1. replace (y + 1 - 1)%Z with (y - 1 + 1)%Z by lia. rewrite diy_succ.
    replace (y - 1 + 1)%Z with y by lia. lia. }
  split; intro L.
  - apply is_leap_g_rule in L. rewrite L in G. cbn [b2z] in G. rewrite E2, E4, G. qlra.
  - assert (F : is_leap_g alt y = false).
    { destruct (is_leap_g alt y) eqn:Q1; [|reflexivity]. exfalso. apply L, is_leap_g_rule. exact Q1. }
    rewrite F in G. cbn [b2z] in G. rewrite E2, E4, G. qlra.
Qed.

(** consecutive civil days (4|100|400 rule) get consecutive Julian days *)
Lemma next_day_float rnd y m d y' m' d' : Nearest rnd -> (-1000000 <= y)%Z -> (y' <= 1000000)%Z ->
  valid_gdate (leap_rule false) y m d -> next_gday (leap_rule false) (y, m, d) (y', m', d') ->
  exists j j', jd_from_gregorian_date rnd true false y m (inject_Z d) 0 0 0 = Ok j /\
    jd_from_gregorian_date rnd true false y' m' (inject_Z d') 0 0 0 = Ok j' /\ j' == j + 1.
Proof.
  intros N Hy Hy' Hv Hn.
  pose proof (gday_next _ _ _ Hn) as G. cbn beta iota in G.
  assert (Hv' : valid_gdate (leap_rule false) y' m' d' /\ (y <= y')%Z /\ (y' <= y + 1)%Z).
  { remember (y, m, d) as p. remember (y', m', d') as q.
    destruct Hn as [y0 m0 d0 n H1 H2 | y0 m0 n H1 H2 | y0]; injection Heqp as X1 X2 X3; injection Heqq as Y1 Y2 Y3; subst y' m' d'; try subst y0 m0 d0; try subst y0 m0 n; try subst y0 m d.
    - split; [|lia]. exists n. split; [exact H1|lia].
    - split; [|lia]. apply valid_gdate_iff. apply (month_len_mlen _ _ _ _ (is_leap_g_rule false y)) in H1.
      destruct H1 as [H1 _]. pose proof (mlen_range (is_leap_g false y) (m + 1) ltac:(lia)). lia.
    - split; [|lia]. exists 31%Z. split; [apply ml31; cbn; tauto|lia]. }
  destruct Hv' as (Hv' & L1 & L2).
  destruct (enc_float rnd false y m d 0 (inject_Z d) N ltac:(lia) Hv ltac:(lia)) as [j [E1 E2]]; [setoid_replace (0 # 4096) with 0 by reflexivity; lra|].
  destruct (enc_float rnd false y' m' d' 0 (inject_Z d') N ltac:(lia) Hv' ltac:(lia)) as [j' [E3 E4]]; [setoid_replace (0 # 4096) with 0 by reflexivity; lra|].
  exists j, j'. split; [exact E1|]. split; [exact E3|]. rewrite E2, E4, G. qlra.
Qed.

(** C02 *)
Lemma round_trip_float rnd alt y m d k :
  Nearest rnd -> (-1000000 <= y <= 1000000)%Z ->
  valid_gdate (leap_rule false) y m d -> valid_gdate (leap_rule alt) y m d -> (0 <= k < 4096)%Z ->
  (alt = true -> ~ ((y < 0)%Z /\ (128 | y)%Z /\ m = 12%Z /\ d = 31%Z /\ k = 0%Z)) ->
  exists j, jd_from_gregorian_date rnd true alt y m (inject_Z d + (k # 4096)) 0 0 0 = Ok j /\
    (j < 3442845 -> exists q, date_exact rnd alt j = Some (y, m, q) /\ q == inject_Z d + (k # 4096)).
Proof.
  intros N Hy Hv Hv' Hk Hx.
  destruct (enc_float rnd alt y m d k _ N Hy Hv Hk (Qeq_refl _)) as [j [E1 E2]].
  exists j. split; [exact E1|]. intro Hj.
  apply valid_gdate_iff in Hv'. destruct Hv' as [Hm Hd].
  apply (date_exact_ok rnd (k # 4096) K0); try assumption; try lia.
  - intros a b E. apply near_proper; [exact N|exact E].
  - apply k4096_range, Hk.
  - apply k4096_grid.
  - intros z Hz. apply dyadic_fix0; assumption.
  - intros z Hz. apply dyadic_fix; assumption.
  - unfold K0. lia.
  - intros x Hx'. apply near_err_23; assumption.
  - intros Ha (X1 & X2 & X3 & X4 & X5). apply (Hx Ha). repeat split; try assumption.
    + apply Z.mod_divide; [lia|exact X2].
    + unfold Qeq in X5; cbn [Qnum Qden] in X5. lia.
Qed.

Lemma round_trip_exact alt y m d dl :
  (-1000000 <= y)%Z ->
  valid_gdate (leap_rule false) y m d -> valid_gdate (leap_rule alt) y m d -> 0 <= dl < 1 ->
  (exists k, dl * inject_Z (10 ^ 12) == inject_Z k) ->
  (alt = true -> ~ ((y < 0)%Z /\ (128 | y)%Z /\ m = 12%Z /\ d = 31%Z /\ dl == 0)) ->
  exists j, jd_from_gregorian_date idr true alt y m (inject_Z d + dl) 0 0 0 = Ok j /\
    (j < 3442845 -> exists q, date_exact idr alt j = Some (y, m, q) /\ q == inject_Z d + dl).
Proof.
  intros Hy Hv Hv' Hdl Hg Hx.
  destruct (enc_exact alt y m d dl _ Hv Hdl Hg (Qeq_refl _)) as [j [E1 E2]].
  exists j. split; [exact E1|]. intro Hj.
  apply valid_gdate_iff in Hv'. destruct Hv' as [Hm Hd].
  apply (date_exact_ok idr dl K0); try assumption; try lia; try (intros; unfold idr; reflexivity).
  - apply idr_proper.
  - unfold K0. lia.
  - apply idr_est.
  - intros Ha (X1 & X2 & X3 & X4 & X5). apply (Hx Ha). repeat split; try assumption.
    apply Z.mod_divide; [lia|exact X2].
Qed.

(** the alternative rule breaks on 31 December of the years -128 k *)
Lemma alt_refuted : exists j,
  jd_from_gregorian_date b64 true true (-128) 12 31 0 0 0 = Ok j /\
  exists q, date_exact b64 true j = Some ((-128)%Z, 11%Z, q) /\ q == 30.
Proof.
  eexists. split; [vm_compute; reflexivity|]. eexists. split; [vm_compute; reflexivity|]. reflexivity.
Qed.

(** ** the search loop terminates for every JD *)
Lemma gloop_total rnd alt md : Nearest rnd -> Qabs md <= 300000000 ->
  gloop rnd alt md (gstart rnd md) <> None.
Proof.
  intros N Hmd.
  assert (Hp : Proper (Qeq ==> Qeq) rnd) by (intros a b E; apply near_proper; [exact N|exact E]).
  destruct (gstart_near' rnd (fun x Hx => near_err_23 rnd N x Hx) md ltac:(lra)) as [n [Es [Hn [L1 L2]]]].
  assert (Hn2 : (n <= 1000000)%Z).
  { destruct (Z_le_gt_dec n 1000000) as [L|L]; [exact L|]. exfalso. toQ L. qlra. }
  assert (Hg : forall u, (n + 1 <= u <= n + 5)%Z ->
            Qltb 365 (fsub rnd md (inject_Z (days_in_years alt u))) = false).
  { intros u Hu. apply Qltb_ge. unfold fsub.
    pose proof (diy_bounds alt u) as B.
    pose proof (diy_lo alt u) as H1.
    assert (B1 : (days_in_years alt u <= 400000000)%Z) by lia. assert (B2 : (-400000000 <= days_in_years alt u)%Z) by lia.
    assert (U1 := proj1 Hu). assert (U2 : (u <= 1000005)%Z) by lia. assert (U3 : (0 <= u)%Z) by lia.
    toQ B1. toQ B2. toQ H1. toQ U1. toQ U2. toQ U3.
    apply Qabs_Qle_condition in Hmd. destruct Hmd as [M1 M2].
    pose proof (Qle_Qabs md) as M3.
    assert (A : md - inject_Z (days_in_years alt u) <= 100) by (destruct alt; cbv iota in *; qlra).
    assert (A2 : Qabs (md - inject_Z (days_in_years alt u)) <= 2 ^ 30).
    { apply Qabs_Qle_condition. change (2 ^ 30) with 1073741824. split; qlra. }
    pose proof (near_err rnd N 30 _ A2) as X. apply Qabs_Qle_condition in X.
    change (2 ^ (30 - 54)) with (1 # 16777216) in X. lra. }
  unfold gloop. cbv zeta. rewrite Es. destruct (Qltb md GREG0).
  - set (s := (- (n + 1))%Z).
    assert (I : forall k, Qltb 365 (fsub rnd md (inject_Z (days_in_years alt (Nat.iter k (gstep rnd alt md) s)))) = false
                 \/ Nat.iter k (gstep rnd alt md) s = (s + Z.of_nat k)%Z).
    { induction k as [|k IH]; [right; cbn; lia|].
      change (Nat.iter (S k) (gstep rnd alt md) s) with (gstep rnd alt md (Nat.iter k (gstep rnd alt md) s)).
      set (u := Nat.iter k (gstep rnd alt md) s) in *. unfold gstep.
      destruct (Qltb 365 (fsub rnd md (inject_Z (days_in_years alt u)))) eqn:G.
      - destruct IH as [IH|IH]; [discriminate|]. right. lia.
      - left. exact G. }
    rewrite Pos2Nat.inj_iter.
    specialize (I (Pos.to_nat (Z.to_pos (2 * Z.abs s + 4)))).
    unfold Nat.iter in I. destruct I as [I|I].
    + rewrite I. discriminate.
    + rewrite I, Hg; [discriminate|]. subst s. lia.
  - assert (F : forall k, Nat.iter k (gstep rnd alt md) (n + 1)%Z = (n + 1)%Z).
    { induction k as [|k IH]; [reflexivity|].
      change (Nat.iter (S k) (gstep rnd alt md) (n + 1)%Z) with (gstep rnd alt md (Nat.iter k (gstep rnd alt md) (n + 1)%Z)).
      rewrite IH. unfold gstep. rewrite Hg by lia. reflexivity. }
    rewrite Pos2Nat.inj_iter. specialize (F (Pos.to_nat (Z.to_pos (2 * Z.abs (n + 1) + 4)))).
    unfold Nat.iter in F. rewrite F, Hg by lia. discriminate.
Qed.

Lemma date_exact_total rnd alt jd : Nearest rnd -> Qabs jd <= 200000000 -> date_exact rnd alt jd <> None.
Proof.
  intros N Hj. unfold date_exact. cbv zeta.
  assert (Hmd : Qabs (fsub rnd jd GREG0) <= 300000000).
  { unfold fsub. apply Qabs_Qle_condition in Hj. destruct Hj as [J1 J2].
    assert (A2 : Qabs (jd - GREG0) <= 2 ^ 30).
    { apply Qabs_Qle_condition. change (2 ^ 30) with 1073741824. unfold GREG0. split; lra. }
    pose proof (near_err rnd N 30 _ A2) as X. apply Qabs_Qle_condition in X.
    change (2 ^ (30 - 54)) with (1 # 16777216) in X. apply Qabs_Qle_condition. unfold GREG0 in *. split; lra. }
  pose proof (gloop_total rnd alt _ N Hmd) as G. unfold gstart in G. cbv zeta in G.
  destruct (gloop rnd alt (fsub rnd jd GREG0) _) as [v|]; [|congruence].
  destruct (Qeqb _ 0).
  - destruct (gmonth _ _ _ _ _) as [mm dd]. destruct (Qltb _ 1); discriminate.
  - destruct (gmonth _ _ _ _ _) as [mm dd]. destruct (Qltb _ 1); discriminate.
Qed.

(** C03 *)
Lemma beyond_doubling rnd y m d k : Nearest rnd -> (4715 <= y <= 9999)%Z ->
  valid_gdate (leap_rule false) y m d -> (0 <= k < 4096)%Z -> (m <= 11)%Z -> (2 <= m \/ 4 <= d)%Z ->
  exists j, jd_from_gregorian_date rnd true false y m (inject_Z d + (k # 4096)) 0 0 0 = Ok j /\ 3442845 <= j /\
    exists q, date_exact rnd false j = Some (y, 12%Z, q) /\ q < 1.
Proof.
  intros N Hy Hv Hk H11 H4.
  destruct (enc_float rnd false y m d k _ N ltac:(lia) Hv Hk (Qeq_refl _)) as [j [E1 E2]].
  apply valid_gdate_iff in Hv. destruct Hv as [Hm Hd].
  exists j. split; [exact E1|].
  pose proof (mbefore_range (is_leap_g false y) m Hm) as HB.
  assert (HB2 : (2 <= m -> 31 <= mbefore (is_leap_g false y) m)%Z).
  { intro H2. clear -Hm H2. months Hm; try lia; destruct (is_leap_g false y); vm_compute; discriminate. }
  split.
  - assert (G : (1721753 <= gday false y m d)%Z).
    { unfold gday. pose proof (diy_mono false 4714 (y-1) ltac:(lia)) as H3.
      replace (days_in_years false 4714) with 1721752%Z in H3 by reflexivity. lia. }
    pose proof (k4096_range k Hk). rewrite E2. toQ G. unfold GREG0. qlra.
  - apply (date_exact_bad rnd (k # 4096) K0 ) with (m := m) (D := d); try assumption; try lia.
    + intros a b E. apply near_proper; [exact N|exact E].
    + apply k4096_range, Hk.
    + apply k4096_grid.
    + intros z Hz. apply dyadic_fix0; assumption.
    + intros z Hz. apply dyadic_fix; assumption.
    + unfold K0. lia.
    + intros x Hx'. apply near_err_23; assumption.
Qed.
