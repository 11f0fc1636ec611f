(** PropertiesYmd.v -- C103: the clock of a Gregorian date and the fraction of its day. *)
From Coq Require Import ZArith QArith Qround Qabs List Bool Lia Lqa.
From Verif Require Import Base Flt QUtil BaseModel BaseProofs SpecGreg SpecConv GregModel GregProofs GregProofs2 GregProofs3 ConvModel ConvProofs YmdModel.
Import ListNotations.
Local Open Scope Q_scope.

Section Y.
Variable rnd : Q -> Q.
Hypothesis N : Nearest rnd.

Lemma div_close x y c e : 0 < c -> Qabs (x - y * c) <= e * c -> 0 <= y <= 1 -> 0 <= e <= 1 -> Qabs (rnd (x / c) - y) <= e + (1 # 1000000000000000).
Proof.
  intros C E Y P. assert (X : Qabs (x / c - y) <= e).
  { apply Qabs_Qle_condition in E. apply Qabs_Qle_condition. split.
    - assert (A : y - e <= x / c) by (apply Qle_shift_div_l; [exact C|lra]). lra.
    - assert (A : x / c <= y + e) by (apply Qle_shift_div_r; [exact C|lra]). lra. }
  apply Qabs_Qle_condition in X. pose proof (near_err_1 rnd N (x / c)) as B.
  assert (W : Qabs (x / c) <= 2) by (apply Qabs_Qle_condition; split; lra). specialize (B W). apply Qabs_Qle_condition in B. apply Qabs_Qle_condition. split; lra.
Qed.
Lemma div_nonneg x c : 0 <= x -> 0 < c -> 0 <= fdiv rnd x c.
Proof. intros X C. unfold fdiv. apply near_nonneg; [exact N|]. apply Qle_shift_div_l; [exact C|lra]. Qed.
Lemma round12_nonneg x : 0 <= x -> 0 <= round12 rnd x.
Proof.
  intro X. unfold round12, fround. apply near_nonneg; [exact N|]. unfold qround.
  assert (A : (0 <= rne (x * inject_Z (10 ^ 12)))%Z).
  { set (v := x * inject_Z (10 ^ 12)). assert (V : 0 <= v) by (unfold v; apply Qmult_le_0_compat; [exact X|vm_compute; discriminate]). clearbody v.
    pose proof (rne_err v) as R. apply Qabs_Qle_condition in R. assert (B : -(1) < inject_Z (rne v)) by lra.
    change (-(1)) with (inject_Z (-1)) in B. rewrite <- Zlt_Qlt in B. lia. }
  apply Qle_shift_div_l; [reflexivity|]. rewrite Zle_Qle in A. change (inject_Z 0) with 0 in A. lra.
Qed.

(** a date whose day is a number of the month and a fraction *)
Lemma check_greg_day Y M D q : valid_gdate (leap_rule false) Y M D -> Qfloor q = D -> check_greg rnd false Y M q 0 0 0 = Ok tt.
Proof.
  intros V FQ. apply valid_gdate_iff in V. destruct V as [HM HD]. unfold check_greg. cbn [andb]. rewrite (Z.abs_eq M) by lia. replace ((1 <=? M) && (M <=? 12))%Z with true by lia. cbn [passert bind].
  assert (P : 0 <= q). { pose proof (Qfloor_le q) as A. rewrite FQ in A. assert (X : (1 <= D)%Z) by lia. toQ X. qlra. }
  assert (AQ : Qfloor (Qabs q) = D) by (rewrite (Qfloor_comp (Qabs q) q); [exact FQ|apply Qabs_pos, P]).
  rewrite AQ.
  assert (ND : (nth (Z.to_nat (M - 1)) MONTHS 0 + (if M =? 2 then b2z (is_leap_g false Y) else 0) = mlen (is_leap_g false Y) M)%Z).
  { clear - HM. set (b := is_leap_g false Y). unfold mlen. months HM; destruct b; reflexivity. }
  rewrite ND. replace ((1 <=? D) && (D <=? mlen (is_leap_g false Y) M))%Z with true by lia. reflexivity.
Qed.

(** ** the fraction of the day of a clock time *)
Lemma fraction_near Y M D h mi s : valid_gdate (leap_rule false) Y M D -> (0 <= h <= 23)%Z -> (0 <= mi <= 59)%Z -> 0 <= s < 60 ->
  exists dd, date_from_ymdhms rnd Y M (inject_Z D) (inject_Z h) (inject_Z mi) s = Ok (Y, M, dd) /\ inject_Z D <= dd /\
    Qabs (dd - (inject_Z D + (inject_Z h * 3600 + inject_Z mi * 60 + s) / 86400)) <= 2 # 1000000000000.
Proof.
  intros V H MI S. unfold date_from_ymdhms. rewrite (check_greg_clock rnd Y M D h mi s V H MI). cbn [bind]. eexists. split; [reflexivity|].
  apply valid_gdate_iff in V. destruct V as [HM HD]. pose proof (mlen_range (is_leap_g false Y) M HM) as ML.
  assert (DA : (Z.abs D <= 2 ^ 53)%Z) by lia.
  destruct H as [H1 H2]. destruct MI as [I1 I2]. assert (D1 : (1 <= D)%Z) by lia. assert (D2 : (D <= 31)%Z) by lia. clear HD ML.
  toQ H1. toQ H2. toQ I1. toQ I2. toQ D1. toQ D2.
  assert (E24 : forall v, 0 <= v < 60 -> Qabs (fdiv rnd v 24 - v / 24) <= 1 # 1000000000000000).
  { intros v Hv. unfold fdiv. assert (Bx : Qabs (v / 24) <= 2 ^ 2) by (change (2 ^ 2) with 4; apply Qabs_Qle_condition; unfold Qdiv; change (/ 24) with (1 # 24); split; lra).
    pose proof (near_err rnd N 2 _ Bx) as X. change (2 ^ (2 - 54)) with (1 # 4503599627370496) in X. apply Qabs_Qle_condition in X. apply Qabs_Qle_condition. split; lra. }
  assert (A1 : Qabs (HR rnd (inject_Z h) - inject_Z h / 24) <= 1 # 1000000000000000) by (apply E24; split; qlra).
  assert (G2 : forall v, 0 <= v < 60 -> Qabs (MN rnd v - v / 1440) <= 2 # 1000000000000000).
  { intros v Hv. pose proof (E24 v Hv) as X. apply Qabs_Qle_condition in X. unfold Qdiv in X. change (/ 24) with (1 # 24) in X. unfold MN, fdiv at 1.
    pose proof (div_close (fdiv rnd v 24) (v / 1440) 60 (1 # 1000000000000000) ltac:(reflexivity)) as Z. unfold Qdiv in *. change (/ 1440) with (1 # 1440) in *.
    eapply Qle_trans; [apply Z; try (split; lra); apply Qabs_Qle_condition; split; lra|]. vm_compute. discriminate. }
  assert (A2 : Qabs (MN rnd (inject_Z mi) - inject_Z mi / 1440) <= 2 # 1000000000000000) by (apply G2; split; qlra).
  assert (A3 : Qabs (SEC rnd s - s / 86400) <= 3 # 1000000000000000).
  { pose proof (G2 s S) as X. apply Qabs_Qle_condition in X. unfold Qdiv in X. change (/ 1440) with (1 # 1440) in X. unfold SEC. fold (MN rnd s). unfold fdiv at 1.
    pose proof (div_close (MN rnd s) (s / 86400) 60 (2 # 1000000000000000) ltac:(reflexivity)) as Z. unfold Qdiv in *. change (/ 86400) with (1 # 86400) in *.
    eapply Qle_trans; [apply Z; try (split; lra); apply Qabs_Qle_condition; split; lra|]. vm_compute. discriminate. }
  assert (P1 : 0 <= HR rnd (inject_Z h)) by (unfold HR; apply div_nonneg; [qlra|reflexivity]).
  assert (P2 : 0 <= MN rnd (inject_Z mi)) by (unfold MN; apply div_nonneg; [apply div_nonneg; [qlra|reflexivity]|reflexivity]).
  assert (P3 : 0 <= SEC rnd s) by (unfold SEC; apply div_nonneg; [apply div_nonneg; [apply div_nonneg; [lra|reflexivity]|reflexivity]|reflexivity]).
  set (a1 := HR rnd (inject_Z h)) in *. set (a2 := MN rnd (inject_Z mi)) in *. set (a3 := SEC rnd s) in *. clearbody a1 a2 a3. clear E24 G2.
  unfold Qdiv in *. change (/ 24) with (1 # 24) in *. change (/ 1440) with (1 # 1440) in *. change (/ 86400) with (1 # 86400) in *.
  apply Qabs_Qle_condition in A1, A2, A3.
  assert (E1 : Qabs (fadd rnd a1 a2 - (a1 + a2)) <= 1 # 1000000000000000).
  { unfold fadd. assert (Bx : Qabs (a1 + a2) <= 2) by (apply Qabs_Qle_condition; split; qlra).
    pose proof (near_err_1 rnd N _ Bx) as X. apply Qabs_Qle_condition in X. apply Qabs_Qle_condition. split; lra. }
  assert (Q1 : 0 <= fadd rnd a1 a2) by (unfold fadd; apply near_nonneg; [exact N|lra]).
  apply Qabs_Qle_condition in E1. set (b1 := fadd rnd a1 a2) in *. clearbody b1.
  assert (E2 : Qabs (fadd rnd b1 a3 - (b1 + a3)) <= 1 # 1000000000000000).
  { unfold fadd. assert (Bx : Qabs (b1 + a3) <= 2) by (apply Qabs_Qle_condition; split; qlra).
    pose proof (near_err_1 rnd N _ Bx) as X. apply Qabs_Qle_condition in X. apply Qabs_Qle_condition. split; lra. }
  assert (Q2 : 0 <= fadd rnd b1 a3) by (unfold fadd; apply near_nonneg; [exact N|lra]).
  apply Qabs_Qle_condition in E2. set (b2 := fadd rnd b1 a3) in *. clearbody b2.
  assert (E3 : Qabs (round12 rnd b2 - b2) <= 1 # 1000000000000).
  { apply (GregProofs3.round12_near rnd N). apply Qabs_Qle_condition. split; qlra. }
  assert (Q3 := round12_nonneg b2 Q2).
  apply Qabs_Qle_condition in E3. set (b3 := round12 rnd b2) in *. clearbody b3.
  assert (E4 : Qabs (fadd rnd (inject_Z D) b3 - (inject_Z D + b3)) <= 1 # 100000000000000).
  { unfold fadd. assert (Bx : Qabs (inject_Z D + b3) <= 2 ^ 6) by (change (2 ^ 6) with 64; apply Qabs_Qle_condition; split; qlra).
    pose proof (near_err rnd N 6 _ Bx) as X. change (2 ^ (6 - 54)) with (1 # 281474976710656) in X. apply Qabs_Qle_condition in X. apply Qabs_Qle_condition. split; lra. }
  split; [unfold fadd; apply (near_ge_Z rnd _ D N DA); lra|].
  apply Qabs_Qle_condition in E4. apply Qabs_Qle_condition. split; qlra.
Qed.

(** ** the sum of ymdhms_from_date *)
Lemma day_near Y M D h mi s u : valid_gdate (leap_rule false) Y M D -> (0 <= h <= 23)%Z -> (0 <= mi <= 59)%Z -> 0 <= s < 60 -> (0 <= u <= 999999)%Z ->
  let t := inject_Z h * 3600 + inject_Z mi * 60 + s + inject_Z u * (1 # 1000000) in
  let day := fadd rnd (inject_Z D) (fdiv rnd (fadd rnd (fadd rnd (fadd rnd (fmul rnd (inject_Z h) 3600) (fmul rnd (inject_Z mi) 60)) s) (fdiv rnd (inject_Z u) 1000000)) SECONDS_PER_DAY) in
  inject_Z D <= day /\ Qabs (day - (inject_Z D + t * (1 # 86400))) <= 1 # 50000000000000.
Proof.
  intros V H MI S U. cbv zeta. apply valid_gdate_iff in V. destruct V as [HM HD]. pose proof (mlen_range (is_leap_g false Y) M HM) as ML.
  assert (DA : (Z.abs D <= 2 ^ 53)%Z) by lia.
  assert (X1 : fmul rnd (inject_Z h) 3600 == inject_Z (h * 3600)).
  { unfold fmul. change 3600 with (inject_Z 3600). rewrite (near_proper rnd N _ (inject_Z (h * 3600))) by (rewrite inject_Z_mult; reflexivity). apply near_int; [exact N|lia]. }
  assert (X2 : fmul rnd (inject_Z mi) 60 == inject_Z (mi * 60)).
  { unfold fmul. change 60 with (inject_Z 60). rewrite (near_proper rnd N _ (inject_Z (mi * 60))) by (rewrite inject_Z_mult; reflexivity). apply near_int; [exact N|lia]. }
  assert (X3 : fadd rnd (fmul rnd (inject_Z h) 3600) (fmul rnd (inject_Z mi) 60) == inject_Z (h * 3600 + mi * 60)).
  { unfold fadd. rewrite (near_proper rnd N _ (inject_Z (h * 3600 + mi * 60))) by (rewrite inject_Z_plus, X1, X2; reflexivity). apply near_int; [exact N|lia]. }
  clear X1 X2. rewrite inject_Z_plus, !inject_Z_mult in X3. set (a := fadd rnd (fmul rnd (inject_Z h) 3600) (fmul rnd (inject_Z mi) 60)) in *. clearbody a.
  change (inject_Z 3600) with 3600 in X3. change (inject_Z 60) with 60 in X3.
  destruct H as [H1 H2]. destruct MI as [I1 I2]. destruct U as [U1 U2]. assert (D1 : (1 <= D)%Z) by lia. assert (D2 : (D <= 31)%Z) by lia. clear HD ML.
  toQ H1. toQ H2. toQ I1. toQ I2. toQ D1. toQ D2. toQ U1. toQ U2.
  assert (G : forall v, 0 <= v <= 86461 -> Qabs (rnd v - v) <= 1 # 130000000000).
  { intros v Hv. assert (Bx : Qabs v <= 2 ^ 17) by (change (2 ^ 17) with 131072; apply Qabs_Qle_condition; split; lra).
    pose proof (near_err rnd N 17 _ Bx) as X. change (2 ^ (17 - 54)) with (1 # 137438953472) in X. apply Qabs_Qle_condition in X. apply Qabs_Qle_condition. split; lra. }
  assert (E1 := G (a + s) ltac:(split; qlra)). apply Qabs_Qle_condition in E1. fold (fadd rnd a s) in E1.
  assert (Q1 : 0 <= fadd rnd a s) by (unfold fadd; apply near_nonneg; [exact N|qlra]). set (b := fadd rnd a s) in *. clearbody b.
  assert (E2 := div_close (inject_Z u) (inject_Z u * (1 # 1000000)) 1000000 0 ltac:(reflexivity)).
  assert (E2' : Qabs (fdiv rnd (inject_Z u) 1000000 - inject_Z u * (1 # 1000000)) <= 1 # 1000000000000000).
  { unfold fdiv. eapply Qle_trans; [apply E2; try (split; qlra); apply Qabs_Qle_condition; split; qlra|]. vm_compute. discriminate. }
  clear E2. assert (Q2 : 0 <= fdiv rnd (inject_Z u) 1000000) by (apply div_nonneg; [qlra|reflexivity]).
  apply Qabs_Qle_condition in E2'. set (w := fdiv rnd (inject_Z u) 1000000) in *. clearbody w.
  assert (E3 := G (b + w) ltac:(split; qlra)). apply Qabs_Qle_condition in E3. fold (fadd rnd b w) in E3.
  assert (Q3 : 0 <= fadd rnd b w) by (unfold fadd; apply near_nonneg; [exact N|lra]). set (c := fadd rnd b w) in *. clearbody c.
  assert (E4 : Qabs (fdiv rnd c SECONDS_PER_DAY - c * (1 # 86400)) <= 1 # 1000000000000000).
  { unfold fdiv, SECONDS_PER_DAY, Qdiv. change (/ 86400) with (1 # 86400). assert (Bx : Qabs (c * (1 # 86400)) <= 2) by (apply Qabs_Qle_condition; split; qlra).
    pose proof (near_err_1 rnd N _ Bx) as X. apply Qabs_Qle_condition in X. apply Qabs_Qle_condition. split; lra. }
  assert (Q4 : 0 <= fdiv rnd c SECONDS_PER_DAY) by (apply div_nonneg; [lra|reflexivity]).
  apply Qabs_Qle_condition in E4. set (f := fdiv rnd c SECONDS_PER_DAY) in *. clearbody f.
  assert (E5 : Qabs (fadd rnd (inject_Z D) f - (inject_Z D + f)) <= 1 # 140000000000000).
  { unfold fadd. assert (Bx : Qabs (inject_Z D + f) <= 2 ^ 6) by (change (2 ^ 6) with 64; apply Qabs_Qle_condition; split; qlra).
    pose proof (near_err rnd N 6 _ Bx) as X. change (2 ^ (6 - 54)) with (1 # 281474976710656) in X. apply Qabs_Qle_condition in X. apply Qabs_Qle_condition. split; lra. }
  split; [unfold fadd; apply (near_ge_Z rnd _ D N DA); lra|].
  apply Qabs_Qle_condition in E5. apply Qabs_Qle_condition. split; qlra.
Qed.

Lemma floor_day D q : inject_Z D <= q -> q < inject_Z D + 1 -> Qfloor q = D.
Proof. intros A B. apply Qfloor_spec; [exact A|]. rewrite inject_Z_plus. exact B. Qed.
Lemma clock_len us q : (length (clock_of rnd us q) = if us then 4 else 3)%nat.
Proof. unfold clock_of. destruct us; [destruct (hmsu_from_decimal_day rnd q) as [[[? ?] ?] ?]|destruct (hms_from_decimal_day rnd q) as [[? ?] ?]]; reflexivity. Qed.
End Y.

(** date_from_ymdhms puts the clock time in the fraction of the day: to 2e-12 of a day, a fifth of a microsecond, and
    never before the day. *)
Theorem C103_fraction : forall rnd Y M D h mi s, Nearest rnd -> valid_gdate (leap_rule false) Y M D ->
  (0 <= h <= 23)%Z -> (0 <= mi <= 59)%Z -> 0 <= s < 60 ->
  exists q, date_from_ymdhms rnd Y M (inject_Z D) (inject_Z h) (inject_Z mi) s = Ok (Y, M, q) /\ inject_Z D <= q /\
    Qabs (q - (inject_Z D + clock_seconds [inject_Z h; inject_Z mi; s] / 86400)) <= 2 # 1000000000000.
Proof.
  intros rnd Y M D h mi s N V H MI S. destruct (fraction_near rnd N Y M D h mi s V H MI S) as (q & E & L & B). exists q. split; [exact E|]. split; [exact L|].
  unfold clock_seconds. cbn [nth]. unfold Qdiv in *. change (/ 86400) with (1 # 86400) in *. apply Qabs_Qle_condition in B. apply Qabs_Qle_condition. split; lra.
Qed.
Print Assumptions C103_fraction.

(** ymdhms_from_date on a date with a fraction of the day: the date without it and the clock time of the fraction. *)
Theorem C103_clock : forall rnd us Y M D q, Nearest rnd -> valid_gdate (leap_rule false) Y M D -> is_float q -> inject_Z D <= q < inject_Z D + 1 ->
  exists c, ymdhms_parts rnd us Y M q 0 0 0 0 = Ok (Y, M, inject_Z D, c) /\ proper_clock c /\ (length c = if us then 4 else 3)%nat /\
    Qabs (clock_seconds c - (q - inject_Z D) * 86400) < 3 # 1000 /\
    (us = false -> exists h mi s, GregModel.ymdhms_from_date rnd Y M q = Ok (Y, M, D, (h, mi, s)) /\
      Qabs (inject_Z h * 3600 + inject_Z mi * 60 + s - (q - inject_Z D) * 86400) < 2 # 1000).
Proof.
  intros rnd us Y M D q N V F [L U]. pose proof (floor_day D q L U) as FQ. unfold ymdhms_parts. rewrite (check_greg_day rnd Y M D q V FQ). cbn [bind].
  assert (Z0 : fadd rnd (fadd rnd (fadd rnd (fmul rnd 0 3600) (fmul rnd 0 60)) 0) (fdiv rnd 0 1000000) == 0).
  { assert (R0 : forall x, x == 0 -> rnd x == 0).
    { intros x X. rewrite (near_proper rnd N x (inject_Z 0) X). apply (near_int rnd N 0). vm_compute. discriminate. }
    unfold fadd, fmul, fdiv. apply R0. assert (A : rnd (0 / 1000000) == 0) by (apply R0; reflexivity). rewrite A.
    assert (B : rnd (0 * 3600) == 0) by (apply R0; reflexivity). assert (C : rnd (0 * 60) == 0) by (apply R0; reflexivity).
    assert (E : rnd (rnd (0 * 3600) + rnd (0 * 60)) == 0) by (apply R0; rewrite B, C; reflexivity).
    assert (G : rnd (rnd (rnd (0 * 3600) + rnd (0 * 60)) + 0) == 0) by (apply R0; rewrite E; reflexivity). rewrite G. reflexivity. }
  set (z := fadd rnd (fadd rnd (fadd rnd (fmul rnd 0 3600) (fmul rnd 0 60)) 0) (fdiv rnd 0 1000000)) in *. clearbody z.
  assert (ED : fadd rnd q (fdiv rnd z SECONDS_PER_DAY) == q).
  { unfold fadd, fdiv, SECONDS_PER_DAY. assert (A : rnd (z / 86400) == 0).
    { rewrite (near_proper rnd N _ (inject_Z 0)) by (rewrite Z0; reflexivity). apply (near_int rnd N 0). vm_compute. discriminate. }
    rewrite (near_proper rnd N _ q) by (rewrite A; ring). apply near_exact; assumption. }
  set (day := fadd rnd q (fdiv rnd z SECONDS_PER_DAY)) in *. clearbody day.
  assert (FD : Qfloor day = D) by (rewrite (Qfloor_comp _ _ ED); exact FQ). rewrite FD.
  assert (P : 0 <= q). { apply valid_gdate_iff in V. destruct V as [_ HD]. assert (X : (1 <= D)%Z) by lia. toQ X. qlra. }
  eexists. split; [reflexivity|]. destruct (clock_ok rnd N us day ltac:(lra)) as [C1 C2]. rewrite FD in C2. split; [exact C1|]. split; [apply clock_len|].
  split; [apply Qabs_Qlt_condition in C2; apply Qabs_Qlt_condition; split; lra|].
  intros _. unfold GregModel.ymdhms_from_date. rewrite (check_greg_day rnd Y M D q V FQ), FQ. cbn [bind].
  destruct (hms_from_decimal_day rnd q) as [[h mi] s] eqn:E. destruct (hms_ok rnd N _ _ _ _ E) as (_ & _ & _ & _ & A5).
  exists h, mi, s. split; [reflexivity|]. destruct (fmod1_nonneg rnd q P) as [FM _]. rewrite FM, FQ in A5. exact A5.
Qed.
Print Assumptions C103_clock.

(** Back and forth: up to the last hundredth of a second of the day the date comes back with the same day and the
    clock time to 4 ms. *)
Theorem C103_back : forall rnd us Y M D h mi s q, Nearest rnd -> valid_gdate (leap_rule false) Y M D ->
  (0 <= h <= 23)%Z -> (0 <= mi <= 59)%Z -> 0 <= s < 60 -> clock_seconds [inject_Z h; inject_Z mi; s] <= 8639999 # 100 ->
  date_from_ymdhms rnd Y M (inject_Z D) (inject_Z h) (inject_Z mi) s = Ok (Y, M, q) ->
  exists c, ymdhms_parts rnd us Y M q 0 0 0 0 = Ok (Y, M, inject_Z D, c) /\ proper_clock c /\ (length c = if us then 4 else 3)%nat /\
    Qabs (clock_seconds c - clock_seconds [inject_Z h; inject_Z mi; s]) < 4 # 1000.
Proof.
  intros rnd us Y M D h mi s q N V H MI S T E. destruct (C103_fraction rnd Y M D h mi s N V H MI S) as (q' & E' & L & B).
  assert (q' = q) by congruence. subst q'. unfold Qdiv in B. change (/ 86400) with (1 # 86400) in B. set (t := clock_seconds [inject_Z h; inject_Z mi; s]) in *. clearbody t.
  apply Qabs_Qle_condition in B.
  assert (FL : is_float q). { unfold date_from_ymdhms in E. rewrite (check_greg_clock rnd Y M D h mi s V H MI) in E. cbn [bind] in E. injection E as <-. unfold fadd. apply near_float, N. }
  destruct (C103_clock rnd us Y M D q N V FL ltac:(split; lra)) as (c & A1 & A2 & A3 & A4 & _). exists c. split; [exact A1|]. split; [exact A2|]. split; [exact A3|].
  apply Qabs_Qlt_condition in A4. apply Qabs_Qlt_condition. split; lra.
Qed.
Print Assumptions C103_back.

(** The same for a date that already has a clock time, with or without microseconds. *)
Theorem C103_parts : forall rnd us Y M D h mi s u, Nearest rnd -> valid_gdate (leap_rule false) Y M D ->
  (0 <= h <= 23)%Z -> (0 <= mi <= 59)%Z -> 0 <= s < 60 -> (0 <= u <= 999999)%Z -> clock_seconds [inject_Z h; inject_Z mi; s; inject_Z u] <= 8639999 # 100 ->
  exists c, ymdhms_parts rnd us Y M (inject_Z D) (inject_Z h) (inject_Z mi) s (inject_Z u) = Ok (Y, M, inject_Z D, c) /\ proper_clock c /\
    (length c = if us then 4 else 3)%nat /\ Qabs (clock_seconds c - clock_seconds [inject_Z h; inject_Z mi; s; inject_Z u]) < 4 # 1000.
Proof.
  intros rnd us Y M D h mi s u N V H MI S U T. unfold ymdhms_parts. rewrite (check_greg_clock rnd Y M D h mi s V H MI). cbn [bind].
  destruct (day_near rnd N Y M D h mi s u V H MI S U) as [L B]. unfold clock_seconds in T |- *. cbn [nth] in T |- *.
  set (day := fadd rnd (inject_Z D) _) in *. clearbody day. set (t := inject_Z h * 3600 + inject_Z mi * 60 + s + inject_Z u * (1 # 1000000)) in *. clearbody t.
  apply Qabs_Qle_condition in B. assert (FD : Qfloor day = D) by (apply floor_day; lra). rewrite FD.
  assert (P : 0 <= day). { apply valid_gdate_iff in V. destruct V as [_ HD]. assert (X : (1 <= D)%Z) by lia. toQ X. qlra. }
  eexists. split; [reflexivity|]. destruct (clock_ok rnd N us day P) as [C1 C2]. rewrite FD in C2. split; [exact C1|]. split; [apply clock_len|].
  fold (clock_seconds (clock_of rnd us day)). apply Qabs_Qlt_condition in C2. apply Qabs_Qlt_condition. split; lra.
Qed.
Print Assumptions C103_parts.

(** The seconds are not checked and the day is not carried into the next month: 23:59:75 on 31 January is answered
    as the 32nd of January, and date_from_ymdhms answers the same. *)
Theorem C103_carry_refuted : ~ (forall Y M D h mi s q, date_from_ymdhms b64 Y M D h mi s = Ok (Y, M, q) -> valid_gdate (leap_rule false) Y M (Qfloor q)) /\
  exists c, ymdhms_parts b64 true 2024 1 31 23 59 75 0 = Ok (2024%Z, 1%Z, inject_Z 32, c).
Proof.
  split.
  - intro A. assert (E : exists q, date_from_ymdhms b64 2024 1 31 23 59 75 = Ok (2024%Z, 1%Z, q) /\ Qfloor q = 32%Z) by (eexists; split; [vm_compute; reflexivity|vm_compute; reflexivity]).
    destruct E as (q & E & F). apply A in E. rewrite F in E. apply valid_gdate_iff in E. destruct E as [_ E]. vm_compute in E. destruct E as [_ E]. apply E. reflexivity.
  - eexists. vm_compute. reflexivity.
Qed.
Print Assumptions C103_carry_refuted.
Example C103_case : exists q, date_from_ymdhms b64 1844 5 22 21 11 30 = Ok (1844%Z, 5%Z, q) /\
  exists c, ymdhms_parts b64 true 1844 5 q 0 0 0 0 = Ok (1844%Z, 5%Z, inject_Z 22, c) /\ Qabs (clock_seconds c - (21 * 3600 + 11 * 60 + 30)) < 4 # 1000.
Proof. eexists. split; [vm_compute; reflexivity|]. eexists. split; [vm_compute; reflexivity|]. vm_compute. reflexivity. Qed.
