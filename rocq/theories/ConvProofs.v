(** ConvProofs.v -- the conversions between Badi and Gregorian dates. *)
From Coq Require Import ZArith QArith Qround Qabs List Bool Lia Lqa Morphisms.
From Verif Require Import Base Flt QUtil BaseModel BaseProofs SpecGreg SpecConv GregModel GregProofs GregProofs2 GregProofs3 GregProofs4
  BadiModel SpecBadi SunProofs BadiProofs BadiProofs2 BadiProofs4 BadiProofs5 ClockProofs2 ClockProofs3 ConvModel.
Import ListNotations.
Local Open Scope Q_scope.

Section C.
Variable rnd : Q -> Q.
Hypothesis N : Nearest rnd.

Lemma clock_ok us q : 0 <= q -> proper_clock (clock_of rnd us q) /\
  Qabs (clock_seconds (clock_of rnd us q) - (q - inject_Z (Qfloor q)) * 86400) < 3 # 1000.
Proof.
  intro P. destruct (fmod1_nonneg rnd q P) as [F _]. unfold clock_of. destruct us.
  - destruct (hmsu_from_decimal_day rnd q) as [[[h mi] s] u] eqn:E. destruct (hmsu_ok rnd N _ _ _ _ _ E) as (A1 & A2 & A3 & A4 & A5 & A6).
    split.
    + exists h, mi, u, (inject_Z s). split; [right; reflexivity|]. split; [exact A1|]. split; [exact A2|]. split; [|split; [exact A4|]].
      * destruct A3 as [B1 B2]. toQ B1. toQ B2. split; qlra.
      * intro H. destruct (A5 H) as (-> & -> & ->). repeat split.
    + unfold clock_seconds. cbn [nth]. rewrite F in A6.
      assert (X : inject_Z h * 3600 + inject_Z mi * 60 + inject_Z s + inject_Z u * (1 # 1000000) == inject_Z h * 3600 + inject_Z mi * 60 + inject_Z s + (u # 1000000)).
      { assert (inject_Z u * (1 # 1000000) == u # 1000000) by (unfold Qeq, Qmult, inject_Z; cbn [Qnum Qden]; lia). lra. }
      rewrite X. exact A6.
  - destruct (hms_from_decimal_day rnd q) as [[h mi] s] eqn:E. destruct (hms_ok rnd N _ _ _ _ E) as (A1 & A2 & A3 & A4 & A5).
    split.
    + exists h, mi, 0%Z, s. split; [left; split; reflexivity|]. split; [exact A1|]. split; [exact A2|]. split; [exact A3|]. split; [lia|].
      intro H. destruct (A4 H) as (-> & E0). repeat split. exact E0.
    + unfold clock_seconds. cbn [nth]. rewrite F in A5. apply Qabs_Qlt_condition in A5. apply Qabs_Qlt_condition. lra.
Qed.

(** gregorian_date_from_jd (exact) on every float of the range *)
Lemma from_jd_ok us jd : is_float jd -> 1721100 <= jd -> jd <= 2860000 ->
  exists Y M D dl, valid_gdate (leap_rule false) Y M D /\ 0 <= dl < 1 /\ jd == inject_Z (gday false Y M D) + GREG0 + dl /\
    days_after (0, 1, 1)%Z (Y, M, D) (gday false Y M D + 365) /\ (-365 <= gday false Y M D <= 1140000)%Z /\
    (exists q, gregorian_date_from_jd rnd false us true false jd = Ok (Some (Y, M, q, [])) /\ Qabs (q - (inject_Z D + dl)) <= 1 # 1000000000000) /\
    exists c, gregorian_date_from_jd rnd true us true false jd = Ok (Some (Y, M, inject_Z D, c)) /\ proper_clock c /\
      (length c = if us then 4 else 3)%nat /\ Qabs (clock_seconds c - dl * 86400) < 4 # 1000.
Proof.
  intros F L U. destruct (decode_float rnd N jd F L U) as (Y & M & D & dl & q & V & Hdl & E & DA & G & DE & Q1 & Q2 & Q3).
  exists Y, M, D, dl. split; [exact V|]. split; [exact Hdl|]. split; [exact E|]. split; [exact DA|]. split; [exact G|].
  unfold gregorian_date_from_jd. rewrite DE. split; [exists q; split; [reflexivity|exact Q1]|].
  apply Qabs_Qle_condition in Q1.
  pose proof V as W. apply valid_gdate_iff in W. destruct W as [HM HD]. pose proof (mlen_range (is_leap_g false Y) M HM) as ML.
  assert (D1 : (1 <= D)%Z) by lia. toQ D1.
  assert (FQ : Qfloor q = D).
  { pose proof (Qfloor_le q) as A. pose proof (Qlt_floor q) as B. rewrite inject_Z_plus in B. change (inject_Z 1) with 1 in B.
    assert (X1 : (D < Qfloor q + 1)%Z) by byQ. assert (X2 : (Qfloor q < D + 1)%Z) by byQ. lia. }
  assert (CG : check_greg rnd false Y M q 0 0 0 = Ok tt).
  { unfold check_greg. cbn [andb]. rewrite (Z.abs_eq M) by lia. replace ((1 <=? M) && (M <=? 12))%Z with true by lia. cbn [passert bind].
    assert (AQ : Qfloor (Qabs q) = D) by (rewrite (Qfloor_comp (Qabs q) q); [exact FQ|apply Qabs_pos; qlra]).
    rewrite AQ.
    assert (ND : (nth (Z.to_nat (M - 1)) MONTHS 0 + (if M =? 2 then b2z (is_leap_g false Y) else 0) = mlen (is_leap_g false Y) M)%Z).
    { clear - HM. set (b := is_leap_g false Y). unfold mlen. months HM; destruct b; reflexivity. }
    rewrite ND. replace ((1 <=? D) && (D <=? mlen (is_leap_g false Y) M))%Z with true by lia. reflexivity. }
  rewrite CG. cbn [bind]. rewrite FQ. eexists. split; [reflexivity|].
  destruct (clock_ok us q ltac:(qlra)) as [C1 C2]. split; [exact C1|]. split.
  - unfold clock_of. destruct us; [destruct (hmsu_from_decimal_day rnd q) as [[[? ?] ?] ?]|destruct (hms_from_decimal_day rnd q) as [[? ?] ?]]; reflexivity.
  - rewrite FQ in C2. apply Qabs_Qlt_condition in C2. apply Qabs_Qlt_condition. lra.
Qed.

Lemma zone_near : Qabs (HR rnd TEHRAN_ZONE - (7 # 48)) <= 1 # 100000000000000.
Proof.
  unfold HR, fdiv, TEHRAN_ZONE. pose proof (near_err_1 rnd N (7 # 48) ltac:(vm_compute; discriminate)) as H.
  assert (X : (7 # 2) / 24 == 7 # 48) by reflexivity. rewrite (near_proper rnd N _ _ X). apply Qabs_Qle_condition in H. apply Qabs_Qle_condition. lra.
Qed.
(** the local instant *)
Lemma local_near j : 1000000 <= j <= 3000000 -> is_float (fadd rnd j (HR rnd TEHRAN_ZONE)) /\ Qabs (fadd rnd j (HR rnd TEHRAN_ZONE) - (j + (7 # 48))) <= 1 # 2000000000.
Proof.
  intro R. split; [unfold fadd; apply near_float, N|]. pose proof zone_near as Z. apply Qabs_Qle_condition in Z. unfold fadd.
  pose proof (near_err_23 rnd N (j + HR rnd TEHRAN_ZONE)) as H. assert (B : Qabs (j + HR rnd TEHRAN_ZONE) <= 8388608) by (apply Qabs_Qle_condition; lra).
  specialize (H B). apply Qabs_Qle_condition in H. apply Qabs_Qle_condition. lra.
Qed.

(** encoding a Gregorian date with a clock time *)
Lemma fmod1_Z z : (0 <= z)%Z -> Qeqb (fmod1 rnd (inject_Z z)) 0 = true.
Proof.
  intro H. apply Qeq_eq_bool. destruct (fmod1_nonneg rnd (inject_Z z)) as [E _]; [toQ H; qlra|]. rewrite E, Qfloor_Z. ring.
Qed.
Lemma check_greg_clock Y M D h mi s : valid_gdate (leap_rule false) Y M D -> (0 <= h <= 23)%Z -> (0 <= mi <= 59)%Z ->
  check_greg rnd false Y M (inject_Z D) (inject_Z h) (inject_Z mi) s = Ok tt.
Proof.
  intros V H MI. apply valid_gdate_iff in V. destruct V as [HM HD]. unfold check_greg. cbn [andb].
  rewrite (Z.abs_eq M) by lia. replace ((1 <=? M) && (M <=? 12))%Z with true by lia. cbn [passert bind].
  assert (AQ : Qabs (inject_Z D) = inject_Z D) by (unfold Qabs, inject_Z; rewrite Z.abs_eq by lia; reflexivity).
  rewrite AQ, Qfloor_Z, !fmod1_Z by lia.
  assert (ND : (nth (Z.to_nat (M - 1)) MONTHS 0 + (if M =? 2 then b2z (is_leap_g false Y) else 0) = mlen (is_leap_g false Y) M)%Z).
  { clear - HM. set (b := is_leap_g false Y). unfold mlen. months HM; destruct b; reflexivity. }
  rewrite ND. replace ((1 <=? D) && (D <=? mlen (is_leap_g false Y) M))%Z with true by lia.
  assert (A : Qltb (inject_Z h) 24 = true) by (apply Qltb_lt; destruct H as [_ H]; toQ H; qlra).
  assert (B : Qltb (inject_Z mi) 60 = true) by (apply Qltb_lt; destruct MI as [_ MI]; toQ MI; qlra).
  rewrite A, B. cbn [passert bind].
  repeat match goal with |- context [if ?b then _ else _] => destruct b end; reflexivity.
Qed.
Lemma div_near x y c : Qabs (x - y) <= (1 # 1000000000000000) -> 0 <= y <= 1 -> 1 <= c -> Qabs (rnd (x / c) - y / c) <= (2 # 1000000000000000).
Proof.
  intros E Y C. assert (IC : 0 < / c <= 1).
  { split; [apply Qinv_lt_0_compat; lra|]. apply Qle_shift_inv_r; lra. }
  unfold Qdiv. set (v := / c) in *. clearbody v. apply Qabs_Qle_condition in E.
  assert (X1 : -(1 # 1000000000000000) <= (x - y) * v <= 1 # 1000000000000000) by (split; nra).
  assert (X2 : -(1) <= y * v <= 1) by (split; nra).
  assert (B : Qabs (x * v) <= 2) by (apply Qabs_Qle_condition; split; lra).
  pose proof (near_err_1 rnd N _ B) as H. apply Qabs_Qle_condition in H. apply Qabs_Qle_condition. split; lra.
Qed.
Lemma jd_clock Y M D h mi s : valid_gdate (leap_rule false) Y M D -> (0 <= h <= 23)%Z -> (0 <= mi <= 59)%Z -> 0 <= s < 60 ->
  (-1000000 <= gday false Y M D <= 2000000)%Z ->
  exists g, jd_from_gregorian_date rnd true false Y M (inject_Z D) (inject_Z h) (inject_Z mi) s = Ok g /\ is_float g /\
    Qabs (g - (inject_Z (gday false Y M D) + GREG0 + (inject_Z h * 3600 + inject_Z mi * 60 + s) / 86400)) <= 1 # 500000000.
Proof.
  intros V H MI S G. unfold jd_from_gregorian_date, date_from_ymdhms. rewrite (check_greg_clock Y M D h mi s V H MI). cbn [bind].
  eexists. split; [reflexivity|]. unfold jd_exact. cbv zeta. split; [unfold round12, fround; apply near_float, N|].
  apply valid_gdate_iff in V. destruct V as [HM HD]. pose proof (mlen_range (is_leap_g false Y) M HM) as ML.
  pose proof (mbefore_range (is_leap_g false Y) M HM) as HB. fold (mbefore (is_leap_g false Y) M). unfold gday in *.
  set (B := mbefore (is_leap_g false Y) M) in *. set (T := days_in_years false (Y - 1)) in *. clearbody B T.
  destruct H as [H1 H2]. destruct MI as [I1 I2]. destruct HB as [B1 B2]. assert (D1 : (1 <= D)%Z) by lia. assert (D2 : (D <= 31)%Z) by lia.
  assert (T1 : (-1001000 <= T)%Z) by lia. assert (T2 : (T <= 2001000)%Z) by lia. clear G HD ML.
  toQ H1. toQ H2. toQ I1. toQ I2. toQ B1. toQ B2. toQ D1. toQ D2. toQ T1. toQ T2.
  assert (A1 : Qabs (HR rnd (inject_Z h) - inject_Z h / 24) <= 2 # 1000000000000000).
  { unfold HR, fdiv. assert (Bx : Qabs (inject_Z h / 24) <= 2) by (apply Qabs_Qle_condition; unfold Qdiv; change (/ 24) with (1 # 24); split; qlra).
    pose proof (near_err_1 rnd N _ Bx) as X. apply Qabs_Qle_condition in X. apply Qabs_Qle_condition. split; lra. }
  assert (first : forall v, 0 <= v <= 24 -> Qabs (fdiv rnd v 24 - v / 24) <= 1 # 1000000000000000).
  { intros v Hv. unfold fdiv. assert (Bx : Qabs (v / 24) <= 2) by (apply Qabs_Qle_condition; unfold Qdiv; change (/ 24) with (1 # 24); split; lra).
    pose proof (near_err_1 rnd N _ Bx) as X. apply Qabs_Qle_condition in X. apply Qabs_Qle_condition. split; lra. }
  assert (gen : forall v, 0 <= v <= 60 -> Qabs (fdiv rnd v 24 - v / 24) <= 1 # 1000000000000000).
  { intros v Hv. unfold fdiv. assert (Bx : Qabs (v / 24) <= 2 ^ 2) by (change (2 ^ 2) with 4; apply Qabs_Qle_condition; unfold Qdiv; change (/ 24) with (1 # 24); split; lra).
    pose proof (near_err rnd N 2 _ Bx) as X. change (2 ^ (2 - 54)) with (1 # 4503599627370496) in X. apply Qabs_Qle_condition in X. apply Qabs_Qle_condition. split; lra. }
  assert (gen2 : forall v, 0 <= v <= 60 -> Qabs (fdiv rnd (fdiv rnd v 24) 60 - v / 1440) <= 1 # 1000000000000000).
  { intros v Hv. pose proof (gen v Hv) as X. apply Qabs_Qle_condition in X. unfold fdiv at 1.
    assert (Bx : Qabs (fdiv rnd v 24 / 60) <= 2) by (apply Qabs_Qle_condition; unfold Qdiv in *; change (/ 24) with (1 # 24) in *; change (/ 60) with (1 # 60); split; lra).
    pose proof (near_err_1 rnd N _ Bx) as Z. apply Qabs_Qle_condition in Z. apply Qabs_Qle_condition.
    unfold Qdiv in *. change (/ 24) with (1 # 24) in *. change (/ 60) with (1 # 60) in *. change (/ 1440) with (1 # 1440). split; lra. }
  assert (A2 : Qabs (MN rnd (inject_Z mi) - inject_Z mi / 1440) <= 1 # 1000000000000000) by (unfold MN; apply gen2; split; qlra).
  assert (A3 : Qabs (SEC rnd s - s / 86400) <= 1 # 1000000000000000).
  { unfold SEC. pose proof (gen2 s ltac:(split; lra)) as X. apply Qabs_Qle_condition in X. unfold fdiv at 1.
    assert (Bx : Qabs (fdiv rnd (fdiv rnd s 24) 60 / 60) <= 2) by (apply Qabs_Qle_condition; unfold Qdiv in *; change (/ 1440) with (1 # 1440) in *; change (/ 60) with (1 # 60); split; lra).
    pose proof (near_err_1 rnd N _ Bx) as Z. apply Qabs_Qle_condition in Z. apply Qabs_Qle_condition.
    unfold Qdiv in *. change (/ 1440) with (1 # 1440) in *. change (/ 60) with (1 # 60) in *. change (/ 86400) with (1 # 86400). split; lra. }
  clear first gen gen2. set (a1 := HR rnd (inject_Z h)) in *. set (a2 := MN rnd (inject_Z mi)) in *. set (a3 := SEC rnd s) in *. clearbody a1 a2 a3.
  unfold Qdiv in *. change (/ 24) with (1 # 24) in *. change (/ 1440) with (1 # 1440) in *. change (/ 86400) with (1 # 86400) in *.
  apply Qabs_Qle_condition in A1, A2, A3.
  assert (E1 : Qabs (fadd rnd a1 a2 - (a1 + a2)) <= 1 # 1000000000000000).
  { unfold fadd. assert (Bx : Qabs (a1 + a2) <= 2) by (apply Qabs_Qle_condition; split; qlra).
    pose proof (near_err_1 rnd N _ Bx) as X. apply Qabs_Qle_condition in X. apply Qabs_Qle_condition. split; lra. }
  apply Qabs_Qle_condition in E1. set (b1 := fadd rnd a1 a2) in *. clearbody b1.
  assert (E2 : Qabs (fadd rnd b1 a3 - (b1 + a3)) <= 1 # 1000000000000000).
  { unfold fadd. assert (Bx : Qabs (b1 + a3) <= 2) by (apply Qabs_Qle_condition; split; qlra).
    pose proof (near_err_1 rnd N _ Bx) as X. apply Qabs_Qle_condition in X. apply Qabs_Qle_condition. split; lra. }
  apply Qabs_Qle_condition in E2. set (b2 := fadd rnd b1 a3) in *. clearbody b2.
  assert (F2 : 0 - (1 # 100000000000000) <= b2 <= 2) by (split; qlra).
  assert (E3 : Qabs (round12 rnd b2 - b2) <= 1 # 1000000000000).
  { apply (GregProofs3.round12_near rnd N). apply Qabs_Qle_condition. split; lra. }
  apply Qabs_Qle_condition in E3. set (b3 := round12 rnd b2) in *. clearbody b3.
  assert (err : forall v, Qabs v <= 8388608 -> Qabs (rnd v - v) <= 1 # 2147483648) by (intros v Hv; apply near_err_23; assumption).
  assert (E4 : Qabs (fadd rnd (inject_Z D) b3 - (inject_Z D + b3)) <= 1 # 10000000000000).
  { unfold fadd. assert (Bx : Qabs (inject_Z D + b3) <= 2 ^ 6) by (change (2 ^ 6) with 64; apply Qabs_Qle_condition; split; qlra).
    pose proof (near_err rnd N 6 _ Bx) as X. change (2 ^ (6 - 54)) with (1 # 281474976710656) in X. apply Qabs_Qle_condition in X. apply Qabs_Qle_condition. split; lra. }
  apply Qabs_Qle_condition in E4. set (b4 := fadd rnd (inject_Z D) b3) in *. clearbody b4.
  assert (F4 : 0 <= b4 <= 40) by (split; qlra).
  assert (E5 : Qabs (fadd rnd (inject_Z B) b4 - (inject_Z B + b4)) <= 1 # 1000000000000).
  { unfold fadd. assert (Bx : Qabs (inject_Z B + b4) <= 2 ^ 9) by (change (2 ^ 9) with 512; apply Qabs_Qle_condition; split; qlra).
    pose proof (near_err rnd N 9 _ Bx) as X. change (2 ^ (9 - 54)) with (1 # 35184372088832) in X. apply Qabs_Qle_condition in X. apply Qabs_Qle_condition. split; lra. }
  apply Qabs_Qle_condition in E5. set (b5 := fadd rnd (inject_Z B) b4) in *. clearbody b5.
  assert (E6 : fadd rnd (inject_Z T) GREG0 == inject_Z T + GREG0).
  { unfold fadd, GREG0. assert (X : inject_Z T + (3442845 # 2) == (2 * T + 3442845) # 2) by (unfold Qeq, Qplus, inject_Z; cbn [Qnum Qden]; lia).
    rewrite (near_proper rnd N _ _ X), X. apply dyadic_fix0; [exact N|]. unfold K0. rewrite <- Zle_Qle in T1, T2. lia. }
  set (b6 := fadd rnd (inject_Z T) GREG0) in *. clearbody b6. unfold GREG0 in *.
  assert (E7 : Qabs (fadd rnd b6 b5 - (b6 + b5)) <= 1 # 2147483648) by (unfold fadd; apply err; apply Qabs_Qle_condition; split; qlra).
  apply Qabs_Qle_condition in E7. set (b7 := fadd rnd b6 b5) in *. clearbody b7.
  assert (E8 : Qabs (round12 rnd b7 - b7) <= 1 # 1000000000).
  { unfold round12, fround. pose proof (SunProofs.qround12_err b7) as X. apply Qabs_Qle_condition in X.
    assert (Bx : Qabs (qround 12 b7) <= 8388608) by (apply Qabs_Qle_condition; split; qlra). pose proof (err _ Bx) as Z. apply Qabs_Qle_condition in Z.
    apply Qabs_Qle_condition. split; lra. }
  apply Qabs_Qle_condition in E8. apply Qabs_Qle_condition. split; qlra.
Qed.
End C.
