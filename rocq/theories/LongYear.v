(** LongYear.v -- the float computation of kull-i-shay, vahid and year is exact (C06). *)
From Coq Require Import ZArith QArith Qround Qabs List Bool Lia Lqa Setoid Morphisms.
From Coq Require Import ZifyBool ZifyNat ZifyN.
From Verif Require Import Base Flt QUtil BaseModel MiscModel BadiModel BaseProofs BaseProofs2 SunProofs.
Import ListNotations.
Local Open Scope Q_scope.
Ltac Zify.zify_post_hook ::= Z.div_mod_to_equations.

Lemma Qceiling_spec x z : inject_Z z - 1 < x -> x <= inject_Z z -> Qceiling x = z.
Proof.
  intros A B. unfold Qceiling. assert (Qfloor (- x) = - z)%Z; [|lia]. apply Qfloor_spec; qlra.
Qed.
Lemma Qtrunc_neg_spec x z : (z <= 0)%Z -> inject_Z z - 1 < x -> x <= inject_Z z -> x < 0 -> Qtrunc x = z.
Proof.
  intros P A B C. unfold Qtrunc. destruct (Qleb 0 x) eqn:E; [apply Qleb_le in E; exfalso; lra|]. apply Qceiling_spec; assumption.
Qed.
Lemma div361 z : inject_Z z / 361 == z # 361.
Proof. unfold Qdiv, Qmult, inject_Z, Qinv, Qeq. cbn [Qnum Qden]. lia. Qed.

Section Long.
Variable rnd : Q -> Q.
Hypothesis N : Nearest rnd.
#[local] Instance prop_rnd3 : Proper (Qeq ==> Qeq) rnd.
Proof. intros a b E. apply near_proper; [exact N|exact E]. Qed.

Lemma near_k (k : Z) x (e : Q) : Qabs x <= 2 ^ k -> 2 ^ (k - 54) <= e -> x - e <= rnd x <= x + e.
Proof. intros H E. pose proof (near_err rnd N k x H) as A. apply Qabs_le_iff in A. split; lra. Qed.

(** one division step, everything as bounds on reals *)
Lemma trunc12 f r : (1 <= r <= 360)%Z -> (r # 361) - (1 # 562949953421312) <= f <= (r # 361) + (1 # 562949953421312) ->
  Qfloor (fmul rnd f (inject_Z (10 ^ 12))) = (1000000000000 * r / 361)%Z.
Proof.
  intros R F. change (10 ^ 12)%Z with 1000000000000%Z. unfold fmul. zconsts. set (e := 1 # 562949953421312) in *.
  assert (RQ : (r # 361) == inject_Z r * (1 # 361)) by (unfold Qeq, Qmult, inject_Z; cbn [Qnum Qden]; lia).
  assert (R1 : 1 <= inject_Z r <= 360) by (change 1 with (inject_Z 1); change 360 with (inject_Z 360); rewrite <- !Zle_Qle; lia).
  rewrite RQ in F.
  assert (B : Qabs (f * 1000000000000) <= 2 ^ 40).
  { change (2 ^ 40) with (1099511627776 # 1). apply Qabs_le_iff. unfold e in F. split; lra. }
  pose proof (near_k 40 _ (1 # 16384) B ltac:(discriminate)) as C. set (p := rnd _) in *.
  set (g := (1000000000000 * r / 361)%Z).
  assert (G : (g * 361 + 1 <= 1000000000000 * r <= g * 361 + 360)%Z).
  { assert (D : (1000000000000 * r mod 361 <> 0)%Z).
    { intro Z0. rewrite Z.mul_mod in Z0 by lia. change (1000000000000 mod 361)%Z with 178%Z in Z0. 
      assert (S : (r mod 361 = r)%Z) by (apply Z.mod_small; lia). rewrite S in Z0.
      assert (K : forallb (fun r => negb ((178 * r) mod 361 =? 0)%Z) (map Z.of_nat (seq 1 360)) = true) by (vm_compute; reflexivity).
      rewrite forallb_forall in K. specialize (K r). rewrite Z0 in K. discriminate K.
      apply in_map_iff. exists (Z.to_nat r). split; [lia|]. apply in_seq. lia. }
    unfold g. pose proof (Z.div_mod (1000000000000 * r) 361 ltac:(lia)). pose proof (Z.mod_pos_bound (1000000000000 * r) 361 ltac:(lia)). lia. }
  destruct G as [G1 G2]. rewrite Zle_Qle in G1, G2. rewrite ?inject_Z_plus, ?inject_Z_mult in G1, G2. zconsts.
  apply Qfloor_spec; rewrite ?inject_Z_plus; zconsts; unfold e in F; lra.
Qed.

Lemma v_value r k0 : (1 <= r <= 360)%Z -> k0 == rnd (inject_Z (1000000000000 * r / 361) / 1000000000000) ->
  (inject_Z r * (1 # 19)) - (1 # 40000000000) <= fmul rnd (fdiv rnd k0 19) 361 <= (inject_Z r * (1 # 19)) - (1 # 25000000000000).
Proof.
  intros R K. set (g := (1000000000000 * r / 361)%Z) in *.
  assert (G : (g * 361 + 1 <= 1000000000000 * r <= g * 361 + 360)%Z).
  { assert (D : (1000000000000 * r mod 361 <> 0)%Z).
    { intro Z0. rewrite Z.mul_mod in Z0 by lia. change (1000000000000 mod 361)%Z with 178%Z in Z0. 
      assert (S : (r mod 361 = r)%Z) by (apply Z.mod_small; lia). rewrite S in Z0.
      assert (KK : forallb (fun r => negb ((178 * r) mod 361 =? 0)%Z) (map Z.of_nat (seq 1 360)) = true) by (vm_compute; reflexivity).
      rewrite forallb_forall in KK. specialize (KK r). rewrite Z0 in KK. discriminate KK.
      apply in_map_iff. exists (Z.to_nat r). split; [lia|]. apply in_seq. lia. }
    unfold g. pose proof (Z.div_mod (1000000000000 * r) 361 ltac:(lia)). pose proof (Z.mod_pos_bound (1000000000000 * r) 361 ltac:(lia)). lia. }
  destruct G as [G1 G2]. rewrite Zle_Qle in G1, G2. rewrite ?inject_Z_plus, ?inject_Z_mult in G1, G2. zconsts.
  assert (R1 : 1 <= inject_Z r <= 360) by (change 1 with (inject_Z 1); change 360 with (inject_Z 360); rewrite <- !Zle_Qle; lia).
  assert (D1 : inject_Z g / 1000000000000 == inject_Z g * (1 # 1000000000000)) by (unfold Qdiv; reflexivity).
  assert (B1 : Qabs (inject_Z g / 1000000000000) <= 2 ^ 0) by (rewrite D1; change (2 ^ 0) with 1; apply Qabs_le_iff; split; lra).
  pose proof (near_k 0 _ (1 # 18014398509481984) B1 ltac:(discriminate)) as C1. rewrite <- K, D1 in C1.
  unfold fdiv, fmul.
  assert (D2 : k0 / 19 == k0 * (1 # 19)) by (unfold Qdiv; reflexivity).
  assert (B2 : Qabs (k0 / 19) <= 2 ^ (-4)) by (rewrite D2; change (2 ^ (-4)) with (1#16); apply Qabs_le_iff; split; lra).
  pose proof (near_k (-4) _ (1 # 288230376151711744) B2 ltac:(discriminate)) as C2. set (w := rnd (k0 / 19)) in *. rewrite D2 in C2.
  assert (B3 : Qabs (w * 361) <= 2 ^ 5) by (change (2 ^ 5) with (32#1); apply Qabs_le_iff; split; lra).
  pose proof (near_k 5 _ (1 # 562949953421312) B3 ltac:(discriminate)) as C3. split; lra.
Qed.

Lemma long_year_parts_pos y r q : (y = 361 * q + r)%Z -> (1 <= r <= 360)%Z -> (-10 <= q <= 10)%Z ->
  long_year_parts rnd y = (q + 1, (r - 1) / 19 + 1, (r - 1) mod 19 + 1)%Z.
Proof.
  intros Y R QB. unfold long_year_parts. rename Y into YE.
  assert (Y0 : (y =? 0)%Z = false) by lia. rewrite Y0.
  assert (R1 : 1 <= inject_Z r <= 360) by (change 1 with (inject_Z 1); change 360 with (inject_Z 360); rewrite <- !Zle_Qle; lia).
  assert (Q1 : -10 <= inject_Z q <= 10) by (change (-10) with (inject_Z (-10)); change 10 with (inject_Z 10); rewrite <- !Zle_Qle; lia).
  assert (YQ : inject_Z y / 361 == inject_Z q + inject_Z r * (1 # 361)).
  { rewrite YE. zpush. field. }
  set (k := fdiv rnd (inject_Z y) 361).
  assert (KB : inject_Z q + inject_Z r * (1 # 361) - (1 # 1125899906842624) <= k <= inject_Z q + inject_Z r * (1 # 361) + (1 # 1125899906842624)).
  { unfold k, fdiv. assert (B : Qabs (inject_Z y / 361) <= 2 ^ 4) by (rewrite YQ; change (2 ^ 4) with (16#1); apply Qabs_le_iff; split; lra).
    pose proof (near_k 4 _ (1 # 1125899906842624) B ltac:(discriminate)) as C. set (z := rnd _) in *. rewrite YQ in C. exact C. }
  assert (CE : Qceiling k = (q + 1)%Z) by (apply Qceiling_spec; rewrite inject_Z_plus; zconsts; lra).
  assert (F : (r # 361) - (1 # 562949953421312) <= fmod1 rnd k <= (r # 361) + (1 # 562949953421312)).
  { assert (RQ : (r # 361) == inject_Z r * (1 # 361)) by (unfold Qeq, Qmult, inject_Z; cbn [Qnum Qden]; lia). rewrite RQ.
    unfold fmod1. destruct (Z_le_gt_dec 0 q) as [G|G].
    - assert (TR : Qtrunc k = q).
      { rewrite Qtrunc_nonneg; [apply Qfloor_spec; rewrite ?inject_Z_plus; zconsts; lra|].
        toQ G. zconsts. lra. }
      rewrite TR. destruct (Qltb (k - inject_Z q) 0) eqn:L; [apply Qltb_lt in L; exfalso; lra|]. split; lra.
    - assert (G' : (q + 1 <= 0)%Z) by lia.
      assert (TR : Qtrunc k = (q + 1)%Z).
      { assert (G2 := G'). toQ G2. zpush. apply Qtrunc_neg_spec; [exact G'| | |]; zpush; lra. }
      rewrite TR. zpush.
      destruct (Qltb (k - (inject_Z q + 1)) 0) eqn:L; [|apply Qltb_ge in L; exfalso; lra].
      assert (B : Qabs (k - (inject_Z q + 1) + 1) <= 2 ^ 1) by (change (2 ^ 1) with (2#1); apply Qabs_le_iff; split; lra).
      pose proof (near_k 1 _ (1 # 9007199254740992) B ltac:(discriminate)) as C. split; lra. }
  assert (F2 : (r # 361) - (1 # 562949953421312) <= fmod1 rnd k <= (r # 361) + (1 # 562949953421312)) by exact F.
  unfold truncate_decimal.
  assert (TT : Qfloor (fmul rnd (fmod1 rnd k) (inject_Z (10 ^ 12))) = (1000000000000 * r / 361)%Z) by (apply trunc12; assumption).
  rewrite TT. set (k0 := fdiv rnd (inject_Z (1000000000000 * r / 361)) (inject_Z (10 ^ 12))).
  assert (K0 : k0 == rnd (inject_Z (1000000000000 * r / 361) / 1000000000000)) by reflexivity.
  pose proof (v_value r k0 R K0) as V. cbv zeta. set (v := fmul rnd (fdiv rnd k0 19) 361) in *.
  assert (VN : Qeqb v 0 = false) by (destruct (Qeqb v 0) eqn:E; [apply Qeqb_eq in E; exfalso; lra|reflexivity]).
  rewrite VN, CE. set (a := ((r - 1) / 19)%Z). set (b := ((r - 1) mod 19)%Z).
  assert (AB : (r = 19 * a + b + 1)%Z /\ (0 <= b <= 18)%Z) by (unfold a, b; lia). destruct AB as [AB BB].
  assert (A0 : (0 <= a)%Z) by (unfold a; lia). clearbody a b.
  assert (RR : inject_Z r == 19 * inject_Z a + inject_Z b + 1) by (rewrite AB; qlra).
  assert (B1 : 0 <= inject_Z b <= 18) by (change 0 with (inject_Z 0); change 18 with (inject_Z 18); rewrite <- !Zle_Qle; lia).
  assert (A1 : 0 <= inject_Z a) by (change 0 with (inject_Z 0); rewrite <- Zle_Qle; lia).
  assert (VC : Qceiling v = (a + 1)%Z) by (apply Qceiling_spec; rewrite inject_Z_plus; zconsts; lra).
  assert (VT : Qtrunc v = a).
  { rewrite Qtrunc_nonneg; [apply Qfloor_spec; rewrite ?inject_Z_plus; zconsts; lra|lra]. }
  rewrite VC. do 2 f_equal. unfold fmod1. rewrite VT.
  destruct (Qltb (v - inject_Z a) 0) eqn:L; [apply Qltb_lt in L; exfalso; lra|].
  unfold fmul. assert (BD : Qabs ((v - inject_Z a) * 19) <= 2 ^ 5) by (change (2 ^ 5) with (32#1); apply Qabs_le_iff; split; lra).
  pose proof (near_k 5 _ (1 # 562949953421312) BD ltac:(discriminate)) as C.
  apply Qceiling_spec; rewrite inject_Z_plus; zconsts; lra.
Qed.

Lemma long_year_parts_mult q : (-10 <= q <= 10)%Z -> long_year_parts rnd (361 * q) = (q, 19, 19)%Z.
Proof.
  intro QB. unfold long_year_parts.
  assert (K : fdiv rnd (inject_Z (361 * q)) 361 == inject_Z q).
  { unfold fdiv. rewrite inject_Z_mult. setoid_replace (inject_Z 361 * inject_Z q / 361) with (inject_Z q) by (zconsts; field).
    apply near_int; [exact N|lia]. }
  set (k := fdiv rnd _ 361) in *.
  assert (CE : Qceiling k = q) by (rewrite K; apply Qceiling_Z).
  assert (TR : Qtrunc k = q) by (rewrite K; unfold Qtrunc; rewrite Qfloor_Z, Qceiling_Z; destruct (Qleb _ _); reflexivity).
  assert (F : fmod1 rnd k == 0).
  { unfold fmod1. rewrite TR. destruct (Qltb (k - inject_Z q) 0) eqn:L; [apply Qltb_lt in L; rewrite K in L; exfalso; lra|]. rewrite K. ring. }
  assert (Z0 : rnd 0 == 0) by (change 0 with (inject_Z 0); apply near_int; [exact N|lia]).
  assert (T : truncate_decimal rnd (fmod1 rnd k) 12 == 0).
  { unfold truncate_decimal, fdiv, fmul. rewrite F, Qmult_0_l, Z0. change (Qfloor 0) with 0%Z.
    setoid_replace (inject_Z 0 / inject_Z (10 ^ 12)) with 0 by reflexivity. exact Z0. }
  assert (V : Qeqb (fmul rnd (fdiv rnd (truncate_decimal rnd (fmod1 rnd k) 12) 19) 361) 0 = true).
  { apply Qeqb_eq. unfold fmul, fdiv. rewrite T. setoid_replace (0 / 19) with 0 by reflexivity. rewrite Z0, Qmult_0_l. exact Z0. }
  cbv zeta. rewrite V, CE. destruct (Z.eqb_spec (361 * q) 0); [f_equal; f_equal; lia|reflexivity].
Qed.

(** every year is recovered; the parts are in range *)
Lemma long_year_parts_ok y k v yy : (-1843 <= y <= 1162)%Z -> long_year_parts rnd y = (k, v, yy) ->
  (long_year k v yy = y /\ -5 <= k <= 4 /\ 1 <= v <= 19 /\ 1 <= yy <= 19)%Z.
Proof.
  intros Y E. destruct (Z.eq_dec (y mod 361) 0) as [Z0|Z0].
  - replace y with (361 * (y / 361))%Z in E by lia. rewrite long_year_parts_mult in E by lia.
    apply pair_equal_spec in E. destruct E as [E <-]. apply pair_equal_spec in E. destruct E as [<- <-]. unfold long_year. lia.
  - rewrite (long_year_parts_pos y (y mod 361) (y / 361)) in E by lia.
    apply pair_equal_spec in E. destruct E as [E <-]. apply pair_equal_spec in E. destruct E as [<- <-]. unfold long_year. lia.
Qed.
(** and the parts are the only ones *)
Lemma long_year_unique k v yy : (1 <= v <= 19)%Z -> (1 <= yy <= 19)%Z -> (-1843 <= long_year k v yy <= 1162)%Z ->
  long_year_parts rnd (long_year k v yy) = (k, v, yy).
Proof.
  intros V Y L. destruct (long_year_parts rnd (long_year k v yy)) as [[k' v'] y'] eqn:E.
  destruct (long_year_parts_ok _ _ _ _ L E) as (A & _ & B & C). unfold long_year in A.
  assert (k = k' /\ v = v' /\ yy = y')%Z as (-> & -> & ->) by lia. reflexivity.
Qed.
End Long.
