(** BaseProofs.v -- proofs about the numeric helpers of base_calendar.py. *)
From Coq Require Import ZArith QArith Qround Qabs List Bool Lia Lqa Setoid Morphisms.
From Coq Require Import ZifyBool ZifyNat ZifyN.
From Verif Require Import Base Flt QUtil BaseModel.
Import ListNotations.
Local Open Scope Q_scope.
Ltac Zify.zify_post_hook ::= Z.div_mod_to_equations.

Lemma Qabs_le_iff x y : Qabs x <= y <-> - y <= x /\ x <= y.
Proof. apply Qabs_Qle_condition. Qed.

Lemma near_le_Z rnd x z : Nearest rnd -> (Z.abs z <= 2 ^ 53)%Z -> x <= inject_Z z -> rnd x <= inject_Z z.
Proof. intros N Hz H. rewrite <- (near_int rnd N z Hz) at 1. apply near_mono; assumption. Qed.
Lemma near_ge_Z rnd x z : Nearest rnd -> (Z.abs z <= 2 ^ 53)%Z -> inject_Z z <= x -> inject_Z z <= rnd x.
Proof. intros N Hz H. rewrite <- (near_int rnd N z Hz) at 1. apply near_mono; assumption. Qed.
Ltac zbound := vm_compute; discriminate.

Lemma Qtrunc_nonneg x : 0 <= x -> Qtrunc x = Qfloor x.
Proof. intro H. unfold Qtrunc. apply Qleb_le in H. rewrite H. reflexivity. Qed.

Lemma fmod1_nonneg rnd x : 0 <= x -> fmod1 rnd x == x - inject_Z (Qfloor x) /\ 0 <= fmod1 rnd x < 1.
Proof.
  intro H. unfold fmod1. rewrite (Qtrunc_nonneg x H).
  pose proof (Qfloor_le x) as A. pose proof (Qlt_floor x) as B. rewrite inject_Z_plus in B. change (inject_Z 1) with 1 in B.
  assert (C : Qltb (x - inject_Z (Qfloor x)) 0 = false) by (apply Qltb_ge; lra).
  cbv zeta. rewrite C. split; [reflexivity|]. split; lra.
Qed.

(** general range of [x % 1] on floats: 1.0 is possible (tiny negative x) *)
Lemma fmod1_range rnd x : Nearest rnd -> 0 <= fmod1 rnd x <= 1.
Proof.
  intro N. destruct (Qlt_le_dec x 0) as [L|L].
  - unfold fmod1. cbv zeta.
    assert (T : Qtrunc x = Qceiling x).
    { unfold Qtrunc. destruct (Qleb 0 x) eqn:E; [apply Qleb_le in E; lra|reflexivity]. }
    rewrite T. pose proof (Qle_ceiling x) as A. pose proof (Qceiling_lt x) as B.
    rewrite inject_Z_sub in B. change (inject_Z 1) with 1 in B.
    destruct (Qltb (x - inject_Z (Qceiling x)) 0) eqn:E.
    + apply Qltb_lt in E. split.
      * apply near_nonneg; [exact N|lra].
      * apply (near_le_Z rnd _ 1 N); [zbound|]. change (inject_Z 1) with 1. lra.
    + apply Qltb_ge in E. split; lra.
  - destruct (fmod1_nonneg rnd x L) as [_ H]. lra.
Qed.

(** ** C41: hour, minute, second of a day fraction *)
Section HMS.
Variable rnd : Q -> Q.
Hypothesis N : Nearest rnd.
#[local] Instance prop_rnd : Proper (Qeq ==> Qeq) rnd.
Proof. intros a b E. apply near_proper; [exact N|exact E]. Qed.

Definition eps : Q := 1 # 562949953421312.   (* 2^-49 *)

(** rounding to six decimals: near a millionth, exact at whole numbers *)
Lemma fround6 y : 0 <= y <= 32 + 32 ->
  exists k, (0 <= k <= 64000000)%Z /\ Qabs (fround rnd 6 y - (k # 1000000)) <= eps * 4 /\
            Qabs (y - (k # 1000000)) <= 1 # 2000000 /\
            (forall z, k = (1000000 * z)%Z -> fround rnd 6 y == inject_Z z).
Proof.
  intro H. unfold fround, qround. change (inject_Z (10 ^ 6)) with (1000000#1).
  set (k := rne (y * 1000000)). exists k.
  pose proof (rne_err (y * 1000000)) as R. fold k in R. apply Qabs_le_iff in R.
  assert (E : inject_Z k / (1000000#1) == k # 1000000) by (unfold Qeq, Qdiv, Qmult, Qinv, inject_Z; cbn; lia).
  assert (K : k # 1000000 == inject_Z k * (1#1000000)) by (unfold Qeq, Qmult, inject_Z; cbn; lia).
  assert (Hk : (0 <= k <= 64000000)%Z).
  { split; byQ. }
  split; [exact Hk|]. split; [|split].
  - rewrite E. assert (B : Qabs (k # 1000000) <= 2 ^ 6).
    { rewrite K. apply Qabs_le_iff. destruct Hk as [K1 K2]. toQ K1. toQ K2. change (2 ^ 6) with 64. split; qlra. }
    pose proof (near_err rnd N 6 _ B) as X. change (2 ^ (6 - 54)) with (1 # 281474976710656) in X.
    apply Qabs_le_iff in X. apply Qabs_le_iff. unfold eps. split; lra.
  - rewrite K. apply Qabs_le_iff. split; lra.
  - intros z Hz. rewrite E, Hz.
    assert (E2 : (1000000 * z # 1000000) == inject_Z z) by (unfold Qeq, inject_Z; cbn [Qnum Qden]; lia).
    rewrite E2. apply near_int; [exact N|]. lia.
Qed.

(** a six-decimal number: floor is the integer part and the fraction stays below 1 - 1e-6 *)
Lemma grid6_floor x k : (0 <= k)%Z -> Qabs (x - (k # 1000000)) <= eps * 4 ->
  (forall z, k = (1000000 * z)%Z -> x == inject_Z z) ->
  Qfloor x = (k / 1000000)%Z /\ 0 <= x /\ x - inject_Z (Qfloor x) <= (999999 # 1000000) + eps * 4.
Proof.
  intros Hk Hx Hz.
  assert (K : k # 1000000 == inject_Z k * (1#1000000)) by (unfold Qeq, Qmult, inject_Z; cbn; lia).
  rewrite K in Hx. apply Qabs_le_iff in Hx.
  set (q := (k / 1000000)%Z). set (r := (k mod 1000000)%Z).
  assert (Ek : k = (1000000 * q + r)%Z) by (subst q r; lia).
  assert (Hr : (0 <= r <= 999999)%Z) by (subst r; lia).
  assert (Hq : (0 <= q)%Z) by (subst q; lia).
  assert (F : inject_Z q <= x /\ x <= inject_Z q + (999999 # 1000000) + eps * 4).
  { clearbody q r. destruct (Z.eq_dec r 0) as [R0|R0].
    - assert (X : x == inject_Z q) by (apply Hz; lia). rewrite X. unfold eps. split; lra.
    - assert (R1 : (1 <= r)%Z) by lia. destruct Hr as [_ R2]. toQ R1. toQ R2. subst k. 
      rewrite inject_Z_plus, inject_Z_mult in Hx. unfold eps in *. zconsts. split; lra. }
  assert (X : Qfloor x = q).
  { apply Qfloor_spec; [tauto|]. rewrite inject_Z_plus. change (inject_Z 1) with 1. unfold eps in F. lra. }
  rewrite X. toQ Hq. split; [reflexivity|]. split; [qlra|lra].
Qed.

Lemma frac_scale x : 0 <= x <= 1 -> Qabs (fmul rnd x 24 - x * 24) <= eps /\ 0 <= fmul rnd x 24 <= 24.
Proof.
  intro H. unfold fmul.
  assert (B : Qabs (x * 24) <= 2 ^ 5) by (apply Qabs_le_iff; change (2 ^ 5) with 32; split; lra).
  pose proof (near_err rnd N 5 _ B) as X. change (2 ^ (5 - 54)) with eps in X.
  split; [exact X|]. split; [apply near_nonneg; [exact N|lra]|].
  apply (near_le_Z rnd _ 24 N); [zbound|]. change (inject_Z 24) with 24. lra.
Qed.
Lemma frac_scale60 x : 0 <= x <= 1 -> Qabs (fmul rnd x 60 - x * 60) <= eps * 2 /\ 0 <= fmul rnd x 60 <= 60.
Proof.
  intro H. unfold fmul.
  assert (B : Qabs (x * 60) <= 2 ^ 6) by (apply Qabs_le_iff; change (2 ^ 6) with 64; split; lra).
  pose proof (near_err rnd N 6 _ B) as X. change (2 ^ (6 - 54)) with (1 # 281474976710656) in X.
  split; [unfold eps; lra|]. split; [apply near_nonneg; [exact N|lra]|].
  apply (near_le_Z rnd _ 60 N); [zbound|]. change (inject_Z 60) with 60. lra.
Qed.

Lemma hms_ok dec h mi s : hms_from_decimal_day rnd dec = (h, mi, s) ->
  (0 <= h <= 24)%Z /\ (0 <= mi <= 59)%Z /\ 0 <= s < 60 /\
  (h = 24%Z -> mi = 0%Z /\ s == 0) /\
  Qabs ((inject_Z h * 3600 + inject_Z mi * 60 + s) - fmod1 rnd dec * 86400) < 2 # 1000.
Proof.
  unfold hms_from_decimal_day. cbv zeta. intro E.
  assert (E1 := f_equal (fun t => fst (fst t)) E). assert (E2 := f_equal (fun t => snd (fst t)) E).
  assert (E3 := f_equal snd E). cbn [fst snd] in E1, E2, E3. clear E.
  unfold partial_minute_to_second, partial_hour_to_minute, partial_day_to_hours in *.
  set (f := fmod1 rnd dec) in *.
  pose proof (fmod1_range rnd dec N) as Hf. fold f in Hf.
  destruct (frac_scale f Hf) as [S1 S2]. set (a := fmul rnd f 24) in *.
  destruct (fround6 a ltac:(lra)) as (k & Kr & Ka & Kb & Kz). set (H := fround rnd 6 a) in *.
  destruct (grid6_floor H k ltac:(lia) Ka Kz) as (F1 & F2 & F3).
  destruct (fmod1_nonneg rnd H F2) as [M1 M2].
  set (f2 := fmod1 rnd H) in *.
  destruct (frac_scale60 f2 ltac:(lra)) as [T1 T2]. set (b := fmul rnd f2 60) in *.
  destruct (fround6 b ltac:(lra)) as (k2 & Kr2 & Ka2 & Kb2 & Kz2). set (M := fround rnd 6 b) in *.
  destruct (grid6_floor M k2 ltac:(lia) Ka2 Kz2) as (G1 & G2 & G3).
  destruct (fmod1_nonneg rnd M G2) as [P1 P2].
  set (f3 := fmod1 rnd M) in *.
  destruct (frac_scale60 f3 ltac:(lra)) as [U1 U2]. set (c := fmul rnd f3 60) in *.
  destruct (fround6 c ltac:(lra)) as (k3 & Kr3 & Ka3 & Kb3 & Kz3). set (S := fround rnd 6 c) in *.
  destruct (grid6_floor S k3 ltac:(lia) Ka3 Kz3) as (J1 & J2 & J3).
  rewrite E1 in *. rewrite E2 in *. subst s.
  assert (Kq : forall u, u # 1000000 == inject_Z u * (1#1000000)) by (intro u; unfold Qeq, Qmult, inject_Z; cbn; lia).
  rewrite Kq in Ka, Kb, Ka2, Kb2, Ka3, Kb3.
  apply Qabs_le_iff in Ka, Kb, Ka2, Kb2, Ka3, Kb3, S1, T1, U1.
  assert (H24 : H <= 24).
  { subst H. unfold fround. apply (near_le_Z rnd _ 24 N); [zbound|].
    unfold qround. change (inject_Z (10 ^ 6)) with (1000000#1). 
    assert (R : (rne (a * 1000000) <= 24000000)%Z).
    { pose proof (rne_nearest (a * 1000000) 24000000) as X. pose proof (rne_err (a * 1000000)) as Y.
      destruct (Z_le_gt_dec (rne (a * 1000000)) 24000000) as [L|L]; [exact L|]. exfalso. toQ L.
      apply Qabs_le_iff in Y. change (inject_Z 24000000) with (24000000#1) in *.
      lra. }
    toQ R. change (inject_Z 24) with 24. change (inject_Z 24000000) with (24000000#1) in R.
    apply Qle_shift_div_r; [reflexivity|]. lra. }
  pose proof (Qfloor_le H) as B1. pose proof (Qfloor_le M) as B2. rewrite E1 in B1. rewrite E2 in B2.
  assert (Hh : (0 <= h <= 24)%Z). { split; [lia|]. byQ. }
  split; [exact Hh|].
  assert (M60 : M < 60). { unfold eps in *. lra. }
  assert (S60 : S < 60). { unfold eps in *. lra. }
  assert (Hmi : (0 <= mi <= 59)%Z). { split; [lia|]. assert (mi < 60)%Z; [byQ|lia]. }
  split; [exact Hmi|]. split; [lra|].
  split.
  - intros ->. assert (HE : H == 24) by (change (inject_Z 24) with 24 in B1; lra).
    assert (Z2 : f2 == 0) by (rewrite M1, HE; reflexivity).
    assert (Zb : b == 0).
    { unfold b, fmul. rewrite Z2. setoid_replace (0 * 60) with (inject_Z 0) by reflexivity. apply near_int; [exact N|]. vm_compute. discriminate. }
    assert (ZM : M == 0).
    { unfold M, fround. rewrite Zb. setoid_replace (qround 6 0) with (inject_Z 0) by reflexivity. apply near_int; [exact N|]. vm_compute. discriminate. }
    split; [rewrite <- E2, (Qfloor_comp _ _ ZM); reflexivity|].
    assert (Z3 : f3 == 0). { rewrite P1. rewrite <- E2. rewrite (Qfloor_comp _ _ ZM), ZM. reflexivity. }
    unfold S, fround. assert (Zc : c == 0).
    { unfold c, fmul. rewrite Z3. setoid_replace (0 * 60) with (inject_Z 0) by reflexivity. apply near_int; [exact N|]. vm_compute. discriminate. }
    rewrite Zc. setoid_replace (qround 6 0) with (inject_Z 0) by reflexivity. apply near_int; [exact N|]. vm_compute. discriminate.
  - apply Qabs_Qlt_condition. rewrite M1 in T1. rewrite P1 in U1. unfold eps in *. split; lra.
Qed.

(** with us=True: whole seconds and microseconds *)
Lemma hmsu_ok dec h mi s us : hmsu_from_decimal_day rnd dec = (h, mi, s, us) ->
  (0 <= h <= 24)%Z /\ (0 <= mi <= 59)%Z /\ (0 <= s <= 59)%Z /\ (0 <= us <= 999999)%Z /\
  (h = 24%Z -> mi = 0%Z /\ s = 0%Z /\ us = 0%Z) /\
  Qabs ((inject_Z h * 3600 + inject_Z mi * 60 + inject_Z s + (us # 1000000)) - fmod1 rnd dec * 86400) < 3 # 1000.
Proof.
  unfold hmsu_from_decimal_day. destruct (hms_from_decimal_day rnd dec) as [[h' m'] sec] eqn:E. intro H.
  assert (Eh := f_equal (fun t => fst (fst (fst t))) H). assert (Em := f_equal (fun t => snd (fst (fst t))) H).
  assert (Es := f_equal (fun t => snd (fst t)) H). assert (Eu := f_equal snd H). cbn [fst snd] in *. subst h' m'. clear H.
  destruct (hms_ok _ _ _ _ E) as (A & B & C & D & F).
  assert (G : exists y, 0 <= y <= 60 /\ sec = fround rnd 6 y).
  { unfold hms_from_decimal_day in E. cbv zeta in E. assert (E3 := f_equal snd E). cbn [snd] in E3. subst sec.
    unfold partial_minute_to_second, partial_hour_to_minute at 1. eexists. split; [|reflexivity].
    apply frac_scale60. apply fmod1_range, N. }
  destruct G as (y & Y & G).
  destruct (fround6 y ltac:(lra)) as (k & Kr & Ka & Kb & Kz). rewrite <- G in Ka, Kz.
  destruct (grid6_floor sec k ltac:(lia) Ka Kz) as (F1 & F2 & F3).
  destruct (fmod1_nonneg rnd sec F2) as [M1 M2].
  unfold partial_second_to_microsecond in Eu. set (f := fmod1 rnd sec) in *.
  destruct (fround6 f ltac:(lra)) as (k2 & Kr2 & Ka2 & Kb2 & Kz2).
  set (r := fround rnd 6 f) in *.
  assert (Kq : forall u, u # 1000000 == inject_Z u * (1#1000000)) by (intro u; unfold Qeq, Qmult, inject_Z; cbn; lia).
  rewrite Kq in Ka2, Kb2. apply Qabs_le_iff in Ka2, Kb2.
  assert (K2 : (k2 <= 999999)%Z) by (unfold eps in *; byQ).
  assert (K2' := K2). destruct Kr2 as [K3 _]. assert (K3' := K3). toQ K2'. toQ K3'.
  assert (R0 : 0 <= r) by (subst r; unfold fround; apply near_nonneg; [exact N|]; unfold qround; 
     change (inject_Z (10 ^ 6)) with (1000000#1); apply Qle_shift_div_l; [reflexivity|];
     assert (Q0 : (0 <= rne (f * 1000000))%Z) by (pose proof (rne_err (f * 1000000)) as X; apply Qabs_le_iff in X; assert (-1 < rne (f * 1000000))%Z; [byQ|lia]); toQ Q0; qlra).
  assert (P : Qabs (fmul rnd r 1000000 - r * 1000000) <= 1 # 8388608).
  { unfold fmul. assert (X : Qabs (r * 1000000) <= 2 ^ 20) by (apply Qabs_le_iff; change (2 ^ 20) with 1048576; unfold eps in *; split; qlra).
    eapply Qle_trans; [apply (near_err rnd N 20 _ X)|]. discriminate. }
  assert (P0 : 0 <= fmul rnd r 1000000) by (unfold fmul; apply near_nonneg; [exact N|lra]).
  set (p := fmul rnd r 1000000) in *. clearbody p. rewrite Qtrunc_nonneg in Eu by exact P0.
  apply Qabs_le_iff in P.
  pose proof (Qfloor_le p) as U1. pose proof (Qlt_floor p) as U2. rewrite Eu in U1, U2. rewrite inject_Z_plus in U2. change (inject_Z 1) with 1 in U2.
  assert (Hs : (0 <= s <= 59)%Z).
  { rewrite <- Es. pose proof (Qfloor_le sec) as V1. pose proof (Qlt_floor sec) as V2. rewrite inject_Z_plus in V2. change (inject_Z 1) with 1 in V2.
    split; [assert (-1 < Qfloor sec)%Z; [byQ|lia]|assert (Qfloor sec < 60)%Z; [byQ|lia]]. }
  assert (Hu : (0 <= us <= 999999)%Z).
  { split; [assert (-1 < us)%Z; [byQ|lia]|]. assert (us < 1000000)%Z; [unfold eps in *; byQ|lia]. }
  split; [exact A|]. split; [exact B|]. split; [exact Hs|]. split; [exact Hu|]. rewrite Es in M1. split.
  - intro H24. destruct (D H24) as [D1 D2]. split; [exact D1|]. assert (Sz : s = 0%Z) by (rewrite <- Es, (Qfloor_comp _ _ D2); reflexivity).
    split; [exact Sz|]. assert (Fz : f == 0) by (rewrite M1, D2, Sz; reflexivity).
    assert (K0 : (k2 < 1)%Z) by byQ. assert (Rz : r == 0) by (apply (Kz2 0%Z); lia).
    assert (us < 1)%Z; [byQ|lia].
  - rewrite Kq. apply Qabs_Qlt_condition in F. apply Qabs_Qlt_condition.
    unfold eps in *. split; lra.
Qed.

End HMS.
