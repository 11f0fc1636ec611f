From Coq Require Import ZArith QArith Qround Qabs List Bool Lia Lqa Setoid Morphisms.
From Coq Require Import ZifyBool ZifyNat ZifyN.
From Verif Require Import Base Flt QUtil BaseModel GregModel SpecGreg GregProofs GregProofs2 MeeusProofs.
Import ListNotations.
Local Open Scope Q_scope.
Ltac Zify.zify_post_hook ::= Z.div_mod_to_equations.

(** a/b with integers and floor *)
Lemma Qdiv_floor_bounds a b n : (0 < b)%Z -> (n = a / b)%Z ->
  inject_Z n <= inject_Z a / inject_Z b /\ inject_Z a / inject_Z b <= inject_Z n + 1 - 1 / inject_Z b.
Proof.
  intros Hb ->. assert (Bq : 0 < inject_Z b) by (change 0 with (inject_Z 0); rewrite <- Zlt_Qlt; exact Hb).
  assert (E : inject_Z a == inject_Z b * inject_Z (a / b) + inject_Z (a mod b)).
  { rewrite <- inject_Z_mult, <- inject_Z_plus. rewrite <- Z.div_mod; [reflexivity|lia]. }
  assert (M : (0 <= a mod b < b)%Z) by (apply Z.mod_pos_bound; exact Hb).
  assert (M1 := proj1 M). assert (M2 := proj2 M). toQ M1. toQ M2.
  split.
  - apply Qle_shift_div_l; [exact Bq|]. rewrite E. zpush. lra.
  - apply Qle_shift_div_r; [exact Bq|]. rewrite E.
    setoid_replace ((inject_Z (a / b) + 1 - 1 / inject_Z b) * inject_Z b) with (inject_Z b * inject_Z (a / b) + inject_Z b - 1) by (field; lra).
    lra.
Qed.

Section M.
Variables (rnd : Q -> Q) (k : Z).
Hypothesis N : Nearest rnd.
Hypothesis Hk : (0 <= k < 4096)%Z.
Let dl := (k # 4096).

Local Instance prop_rnd : Proper (Qeq ==> Qeq) rnd.
Proof. intros a b E. apply near_proper; [exact N|exact E]. Qed.

Lemma dl_range : 0 <= dl < 1. Proof. apply k4096_range, Hk. Qed.
Lemma ex0 z x : (Z.abs z <= K0)%Z -> x == (z # 2) -> rnd x == x.
Proof. intros B E. rewrite E. apply dyadic_fix0; assumption. Qed.
Lemma exd z x : (Z.abs z <= K0)%Z -> x == (z # 2) + dl -> rnd x == x.
Proof. intros B E. rewrite E. apply dyadic_fix; assumption. Qed.

Lemma floor_rnd x n : Qabs x <= 8388608 -> inject_Z n <= x -> x <= inject_Z n + 1 - (1 # 1000000) -> Qfloor (rnd x) = n.
Proof.
  intros B L U.
  pose proof (near_err_23 rnd N x B) as E. apply Qabs_Qle_condition in E.
  apply Qfloor_spec; [|zpush; lra].
  assert (I : rnd (inject_Z n) == inject_Z n).
  { apply near_int; [exact N|]. apply Qabs_Qle_condition in B. destruct B as [B1 B2].
    assert (n <= 8388608)%Z by byQ. assert (-8388610 <= n)%Z by byQ.
    change (2 ^ 53)%Z with 9007199254740992%Z. lia. }
  rewrite <- I. apply near_mono; [exact N|exact L].
Qed.

(** floor(year / 100), floor(a / 4) *)
Lemma floor_div_int a b : (b = 4 \/ b = 100)%Z -> (Z.abs a <= 2000000)%Z ->
  Qfloor (fdiv rnd (inject_Z a) (inject_Z b)) = (a / b)%Z.
Proof.
  intros Hb Ha. unfold fdiv.
  destruct (Qdiv_floor_bounds a b (a / b) ltac:(lia) eq_refl) as [L U].
  assert (A : (-2000000 <= a / b <= 2000000)%Z) by (destruct Hb; subst b; lia).
  assert (A1 := proj1 A). assert (A2 := proj2 A). toQ A1. toQ A2.
  assert (V : 1 / inject_Z b <= 1 /\ (1 # 1000) <= 1 / inject_Z b) by (destruct Hb; subst b; split; vm_compute; discriminate).
  apply floor_rnd; [apply Qabs_Qle_condition; split; qlra|exact L|qlra].
Qed.

Lemma floor_half z q : q == (z # 2) -> Qfloor q = (z / 2)%Z.
Proof. intro E. rewrite (Qfloor_comp _ _ E). reflexivity. Qed.

Lemma floor_1461 y : (Z.abs y <= 3000000)%Z -> Qfloor (fmul rnd (1461 # 4) (inject_Z y)) = (1461 * y / 4)%Z.
Proof.
  intro Hy. unfold fmul.
  assert (E : rnd ((1461 # 4) * inject_Z y) == (1461 * y # 4)).
  { assert (X : (1461 # 4) * inject_Z y == (1461 * y # 4)).
    { unfold Qeq, Qmult, inject_Z; cbn [Qnum Qden]. lia. }
    rewrite X. apply near_exact; [exact N|]. exists (1461 * y)%Z, (-2)%Z. split.
    - change (2 ^ 53)%Z with 9007199254740992%Z. lia.
    - change (2 ^ (-2))%Q with (1 # 4). unfold Qeq, Qmult, inject_Z; cbn [Qnum Qden]. lia. }
  rewrite (Qfloor_comp _ _ E). reflexivity.
Qed.

Definition C30 : Q := rnd (306001 # 10000).
Lemma C30_near : Qabs (C30 - (306001 # 10000)) <= 1 # 2147483648.
Proof. unfold C30. apply near_err_23; [exact N|]. vm_compute. discriminate. Qed.

Lemma floor_306 m : (3 <= m <= 15)%Z -> Qfloor (fmul rnd C30 (inject_Z m)) = (306001 * m / 10000)%Z.
Proof.
  intros Hm. unfold fmul.
  pose proof C30_near as C. apply Qabs_Qle_condition in C. destruct C as [C1 C2].
  assert (M1 := proj1 Hm). assert (M2 := proj2 Hm). toQ M1. toQ M2.
  set (c := C30) in *.
  assert (P1 : c * inject_Z m <= ((306001 # 10000) + (1 # 2147483648)) * inject_Z m) by (apply Qmult_le_compat_r; qlra).
  assert (P2 : ((306001 # 10000) - (1 # 2147483648)) * inject_Z m <= c * inject_Z m) by (apply Qmult_le_compat_r; qlra).
  assert (S : (exists r, 306001 * m = 10000 * (306001 * m / 10000) + r /\ 2 <= r <= 9990)%Z).
  { exists ((306001 * m) mod 10000)%Z. split; [apply Z.div_mod; lia|].
    assert (H : (m = 3 \/ m = 4 \/ m = 5 \/ m = 6 \/ m = 7 \/ m = 8 \/ m = 9 \/ m = 10 \/ m = 11 \/ m = 12 \/ m = 13 \/ m = 14 \/ m = 15)%Z) by lia.
    repeat (destruct H as [->|H]; [vm_compute; split; discriminate|]). subst m. vm_compute. split; discriminate. }
  destruct S as [r [S [R1 R2]]]. toQ S. toQ R1. toQ R2.
  assert (B : Qabs (c * inject_Z m) <= 8388608) by (apply Qabs_Qle_condition; split; qlra).
  apply floor_rnd; [exact B|qlra|qlra].
Qed.

Lemma floor_e bd : (100 <= bd <= 500)%Z -> (122 < bd)%Z -> Qfloor (fdiv rnd (inject_Z bd) C30) = dE bd.
Proof.
  intros Hb _. unfold fdiv, dE.
  pose proof C30_near as C. apply Qabs_Qle_condition in C. destruct C as [C1 C2].
  assert (B1 := proj1 Hb). assert (B2 := proj2 Hb). toQ B1. toQ B2.
  set (c := C30) in *. set (u := inject_Z bd / c).
  assert (U : inject_Z bd == u * c) by (unfold u; field; lra).
  assert (U0 : 0 <= u) by (unfold u; apply Qle_shift_div_l; [lra|qlra]).
  assert (U1 : u <= 20).
  { destruct (Qlt_le_dec 20 u) as [L|L]; [|exact L]. exfalso.
    assert (20 * 30 <= u * c) by (apply Qmult_le_compat_nonneg; lra). qlra. }
  assert (P1 : u * c <= u * ((306001 # 10000) + (1 # 2147483648))) by (rewrite !(Qmult_comm u); apply Qmult_le_compat_r; qlra).
  assert (P2 : u * ((306001 # 10000) - (1 # 2147483648)) <= u * c) by (rewrite !(Qmult_comm u); apply Qmult_le_compat_r; qlra).
  assert (S : (exists r, 10000 * bd = 306001 * (10000 * bd / 306001) + r /\ 1 <= r <= 305999)%Z).
  { exists ((10000 * bd) mod 306001)%Z. split; [apply Z.div_mod; lia|].
    clear -Hb. 
    assert (F : forallb (fun i => let b := (100 + Z.of_nat i)%Z in (1 <=? (10000 * b) mod 306001)%Z && ((10000 * b) mod 306001 <=? 305999)%Z) (seq 0 401) = true) by (vm_compute; reflexivity).
    rewrite forallb_forall in F. specialize (F (Z.to_nat (bd - 100))). 
    assert (I : In (Z.to_nat (bd - 100)) (seq 0 401)) by (apply in_seq; lia).
    specialize (F I). cbv beta zeta in F. replace (100 + Z.of_nat (Z.to_nat (bd - 100)))%Z with bd in F by lia. lia. }
  destruct S as [r [S [R1 R2]]]. toQ S. toQ R1. toQ R2.
  assert (B : Qabs u <= 8388608) by (apply Qabs_Qle_condition; split; lra).
  apply floor_rnd; [exact B|qlra|qlra].
Qed.

Lemma floor_c b : (Z.abs b <= 500000000)%Z ->
  Qfloor (fdiv rnd (fsub rnd (inject_Z b) (rnd (1221 # 10))) (1461 # 4)) = dC b.
Proof.
  intros Hb. unfold fdiv, fsub, dC.
  assert (E0 : Qabs (rnd (1221 # 10) - (1221 # 10)) <= 1 # 2147483648) by (apply near_err_23; [exact N|vm_compute; discriminate]).
  apply Qabs_Qle_condition in E0. set (t := rnd (1221 # 10)) in *.
  assert (B1 : (-500000000 <= b)%Z) by lia. assert (B2 : (b <= 500000000)%Z) by lia. toQ B1. toQ B2.
  assert (E1 : Qabs (rnd (inject_Z b - t) - (inject_Z b - t)) <= 1 # 16777216).
  { apply (near_err rnd N 30). apply Qabs_Qle_condition. change (2 ^ 30) with 1073741824. split; qlra. }
  apply Qabs_Qle_condition in E1. set (v := rnd (inject_Z b - t)) in *.
  assert (S : (exists r, 20 * b - 2442 = 7305 * ((20 * b - 2442) / 7305) + r /\ 3 <= r <= 7303)%Z).
  { exists ((20 * b - 2442) mod 7305)%Z. split; [apply Z.div_mod; lia|]. clear. lia. }
  destruct S as [r [S [R1 R2]]]. toQ S. toQ R1. toQ R2.
  assert (V : v / (1461 # 4) == v * (4 # 1461)) by (unfold Qdiv; reflexivity).
  rewrite V.
  apply floor_rnd; [apply Qabs_Qle_condition; split; qlra|qlra|qlra].
Qed.

Lemma floor_alpha z : (Z.abs z <= 500000000)%Z ->
  Qfloor (fdiv rnd (fsub rnd (inject_Z z) (7468865 # 4)) (146097 # 4)) = ((4 * z - 7468865) / 146097)%Z.
Proof.
  intros Hz. unfold fdiv, fsub.
  assert (E : rnd (inject_Z z - (7468865 # 4)) == inject_Z z - (7468865 # 4)).
  { apply near_exact; [exact N|]. exists (4 * z - 7468865)%Z, (-2)%Z. split.
    - change (2 ^ 53)%Z with 9007199254740992%Z. lia.
    - change (2 ^ (-2))%Q with (1 # 4). zpush. ring. }
  assert (X : rnd (inject_Z z - (7468865 # 4)) / (146097 # 4) == (inject_Z z - (7468865 # 4)) * (4 # 146097)) by (rewrite E; unfold Qdiv; reflexivity).
  rewrite (Qfloor_comp _ _ (near_proper _ N _ _ X)).
  assert (S : (exists r, 4 * z - 7468865 = 146097 * ((4 * z - 7468865) / 146097) + r /\ 0 <= r <= 146096)%Z).
  { exists ((4 * z - 7468865) mod 146097)%Z. split; [apply Z.div_mod; lia|]. clear. lia. }
  destruct S as [r [S [R1 R2]]]. toQ S. toQ R1. toQ R2.
  assert (B1 : (-500000000 <= z)%Z) by lia. assert (B2 : (z <= 500000000)%Z) by lia. toQ B1. toQ B2.
  apply floor_rnd; [apply Qabs_Qle_condition; split; qlra|qlra|qlra].
Qed.

(** ** encode *)
Lemma round12_exd z x : (Z.abs z <= K0)%Z -> x == (z # 2) + dl -> round12 rnd x == x.
Proof.
  intros B E. apply (round12_Vd rnd dl K0).
  - exact prop_rnd.
  - apply k4096_grid.
  - intros u Hu. apply dyadic_fix; assumption.
  - exists z. split; assumption.
Qed.

Lemma jd_meeus_ok y m d q : (Z.abs y <= 1000000)%Z -> (1 <= m <= 12)%Z -> (1 <= d <= 31)%Z ->
  q == inject_Z d + dl -> (gap y m d = false \/ k <> 0%Z) ->
  exists j, jd_meeus rnd y m q = Ok j /\ j == inject_Z (zm y m d) - (1#2) + dl.
Proof.
  intros Hy Hm Hd Hq Hg.
  pose proof dl_range as DL.
  assert (D1 := proj1 Hd). assert (D2 := proj2 Hd). toQ D1. toQ D2.
  unfold jd_meeus.
  assert (P : negb ((y =? 1582)%Z && (m =? 10)%Z && existsb (fun e => Qeqb q (inject_Z e)) [5;6;7;8;9;10;11;12;13;14]%Z) = true).
  { apply negb_true_iff. destruct (existsb (fun e => Qeqb q (inject_Z e)) [5;6;7;8;9;10;11;12;13;14]%Z) eqn:E; [|apply andb_false_r].
    rewrite andb_true_r. apply existsb_exists in E. destruct E as [e [I E]].
    apply Qeq_bool_eq in E. rewrite Hq in E.
    assert (e = d /\ k = 0%Z) as [-> K]. 
    { assert (e = d)%Z. { apply Z.le_antisymm; [destruct (Z_le_gt_dec e d) as [L|L]; [exact L|exfalso; assert (L' : (d + 1 <= e)%Z) by lia; toQ L'; qlra]|].
         destruct (Z_le_gt_dec d e) as [L|L]; [exact L|exfalso; assert (L' : (e + 1 <= d)%Z) by lia; toQ L'; qlra]. }
      split; [assumption|]. subst e. assert (dl == 0) by lra. unfold dl, Qeq in H; cbn [Qnum Qden] in H. lia. }
    destruct Hg as [Hg|Hg]; [|contradiction].
    unfold gap in Hg. cbn [In] in I. lia. }
  rewrite P. cbn [passert bind].
  assert (A15 : Qleb 15 q = (15 <=? d)%Z).
  { destruct (15 <=? d)%Z eqn:E.
    - apply Qleb_le. rewrite Hq. assert (L : (15 <= d)%Z) by lia. toQ L. qlra.
    - apply Qleb_gt. rewrite Hq. assert (L : (d <= 14)%Z) by lia. toQ L. qlra. }
  change (if (m <=? 2)%Z then ((y - 1)%Z, (m + 12)%Z) else (y, m)) with (if (m <=? 2)%Z then ((y - 1)%Z, (m + 12)%Z) else (y, m)).
  assert (EYM : (if (m <=? 2)%Z then ((y - 1)%Z, (m + 12)%Z) else (y, m)) = (sY y m, sM m)) by (unfold sY, sM; destruct (m <=? 2)%Z; reflexivity).
  rewrite EYM. rewrite A15.
  set (Y := sY y m). set (M := sM m).
  change ((1582 <? Y) || (Y =? 1582) && ((10 <? M) || (M =? 10) && (15 <=? d)))%Z%bool with (after Y M d).
  assert (HY : (Z.abs Y <= 1000001)%Z) by (subst Y; unfold sY; destruct (m <=? 2)%Z eqn:?; lia).
  assert (HM : (3 <= M <= 14)%Z) by (subst M; unfold sM; destruct (m <=? 2)%Z eqn:?; lia).
  assert (EB : (if after Y M d then (2 - Qfloor (fdiv rnd (inject_Z Y) 100) + Qfloor (fdiv rnd (inject_Z (Qfloor (fdiv rnd (inject_Z Y) 100))) 4))%Z else 0%Z) = mB Y M d).
  { unfold mB. change 100 with (inject_Z 100). change 4 with (inject_Z 4).
    rewrite (floor_div_int Y 100) by (try lia; auto). rewrite (floor_div_int (Y / 100) 4) by (try lia; auto). reflexivity. }
  cbv zeta. rewrite EB.
  fold C30. rewrite floor_1461 by lia. rewrite floor_306 by lia.
  eexists. split; [reflexivity|].
  set (S := (1461 * Y / 4 + 306001 * (M + 1) / 10000)%Z).
  assert (HS : (Z.abs S <= 400000000)%Z) by (subst S; lia).
  assert (HB : (Z.abs (mB Y M d) <= 20000)%Z) by (unfold mB; destruct (after Y M d); lia).
  assert (Ez : zm y m d = (S + d + mB Y M d + 1720995)%Z) by (unfold zm, S; fold Y M; lia).
  set (B := mB Y M d) in *. clearbody S B.
  assert (E1 : fadd rnd (inject_Z S) q == inject_Z (S + d) + dl).
  { unfold fadd. rewrite (exd (2 * (S + d))); [rewrite Hq; qlra|unfold K0; lia|]. rewrite Hq, twice_half. qlra. }
  assert (E2 : fadd rnd (fadd rnd (inject_Z S) q) (inject_Z B) == inject_Z (S + d + B) + dl).
  { unfold fadd at 1. rewrite E1. rewrite (exd (2 * (S + d + B))); [qlra|unfold K0; lia|]. rewrite twice_half. qlra. }
  assert (E3 : fadd rnd (fadd rnd (fadd rnd (inject_Z S) q) (inject_Z B)) (3441989 # 2) == inject_Z (zm y m d) - (1#2) + dl).
  { unfold fadd at 1. rewrite E2. rewrite (exd (2 * (S + d + B) + 3441989)); [rewrite Ez; qlra|unfold K0; lia|]. hz. qlra. }
  rewrite (round12_exd (2 * zm y m d - 1)); [exact E3|unfold K0; lia|]. rewrite E3. hz. qlra.
Qed.

(** ** decode *)
Lemma date_meeus_ok j z y m d : (Z.abs z <= 400000000)%Z -> j == inject_Z z - (1#2) + dl ->
  (122 < dA z + 1524 - 1461 * dC (dA z + 1524) / 4 <= 500)%Z -> (3 <= dE (dA z + 1524 - 1461 * dC (dA z + 1524) / 4) <= 15)%Z ->
  dm z = (y, m, d) ->
  exists q, date_meeus rnd j = (y, m, q) /\ q == inject_Z d + dl.
Proof.
  intros Hz Ej Hbd He Hdm.
  pose proof dl_range as DL.
  unfold date_meeus.
  assert (Ejd : fadd rnd j (1#2) == inject_Z z + dl).
  { unfold fadd. rewrite (exd (2 * z)); [rewrite Ej; qlra|unfold K0; lia|]. rewrite Ej, twice_half. qlra. }
  set (jd := fadd rnd j (1#2)) in *.
  assert (Ef : Qfloor jd = z).
  { rewrite (Qfloor_comp _ _ Ejd). apply Qfloor_spec; qlra. }
  rewrite Ef.
  assert (Em : fmod1 rnd jd == dl).
  { assert (X : fmod1 rnd jd == jd - inject_Z (Qfloor jd)).
    { apply (fmod1_V rnd dl K0); try exact prop_rnd; try exact DL; try (unfold K0; lia).
      - intros u Hu. apply dyadic_fix0; assumption.
      - intros u Hu. apply dyadic_fix; assumption.
      - right. exists (2 * z)%Z. split; [unfold K0; lia|]. rewrite twice_half. exact Ejd. }
    rewrite X, Ef, Ejd. qlra. }
  set (f := fmod1 rnd jd) in *. cbv zeta.
  assert (EA : (if (2299161 <=? z)%Z then
     (z + 1 + Qfloor (fdiv rnd (fsub rnd (inject_Z z) (7468865 # 4)) (146097 # 4)) -
      Qfloor (fdiv rnd (inject_Z (Qfloor (fdiv rnd (fsub rnd (inject_Z z) (7468865 # 4)) (146097 # 4)))) 4))%Z else z) = dA z).
  { unfold dA. destruct (2299161 <=? z)%Z; [|reflexivity]. cbv zeta.
    rewrite floor_alpha by lia. change 4 with (inject_Z 4). rewrite (floor_div_int _ 4); [reflexivity|auto|lia]. }
  rewrite EA. unfold dm in Hdm. cbv zeta in Hdm.
  assert (HA : (Z.abs (dA z) <= 450000000)%Z) by (unfold dA; destruct (2299161 <=? z)%Z; cbv zeta; lia).
  set (b := (dA z + 1524)%Z) in *.
  assert (Hb : (Z.abs b <= 460000000)%Z) by (subst b; lia).
  rewrite (floor_c b) by lia.
  assert (HC : (Z.abs (dC b) <= 2000000)%Z) by (unfold dC; lia).
  rewrite (floor_1461 (dC b)) by lia.
  set (d0 := (1461 * dC b / 4)%Z) in *.
  fold C30. rewrite (floor_e (b - d0)) by lia.
  set (e := dE (b - d0)) in *.
  rewrite floor_306 by lia.
  assert (Hd : (b - d0 - 306001 * e / 10000)%Z = d) by exact (f_equal snd Hdm).
  assert (Hy := f_equal (fun t => fst (fst t)) Hdm). assert (Hmm := f_equal (fun t => snd (fst t)) Hdm).
  cbv beta delta [fst snd] iota in Hy, Hmm. rewrite Hy, Hmm.
  eexists. split; [reflexivity|].
  assert (Dd : (Z.abs d <= 1000)%Z) by (clear -He Hbd Hd; clearbody e; clearbody d0; clearbody b; lia).
  assert (E1 : fadd rnd (inject_Z (b - d0 - 306001 * e / 10000)) f == inject_Z d + dl).
  { rewrite Hd. unfold fadd. rewrite Em. apply (exd (2 * d)); [unfold K0; lia|]. rewrite twice_half. reflexivity. }
  rewrite (round12_exd (2 * d)); [exact E1|unfold K0; lia|]. rewrite E1, twice_half. reflexivity.
Qed.

End M.

(** * Statements *)
Lemma check_greg_iff rnd y m d : (0 <= m)%Z -> (0 <= d)%Z ->
  (check_greg rnd false y m (inject_Z d) 0 0 0 = Ok tt <-> valid_gdate (leap_rule false) y m d) /\
  (check_greg rnd false y m (inject_Z d) 0 0 0 = Ok tt \/ check_greg rnd false y m (inject_Z d) 0 0 0 = Err AssertionError).
Proof.
  intros Hm Hd. rewrite valid_gdate_iff. unfold check_greg. cbn [andb].
  rewrite (Z.abs_eq m) by lia.
  assert (Aq : Qfloor (Qabs (inject_Z d)) = d).
  { rewrite inject_Z_abs, Z.abs_eq by lia. apply Qfloor_Z. }
  rewrite Aq.
  destruct ((1 <=? m)%Z && (m <=? 12)%Z) eqn:A; cbn [passert bind].
  - assert (B : (nth (Z.to_nat (m - 1)) MONTHS 0 + (if (m =? 2)%Z then b2z (is_leap_g false y) else 0) = mlen (is_leap_g false y) m)%Z).
    { unfold mlen. assert (Hm' : (1 <= m <= 12)%Z) by lia. months Hm'; destruct (is_leap_g false y); reflexivity. }
    rewrite B. destruct ((1 <=? d)%Z && (d <=? mlen (is_leap_g false y) m)%Z) eqn:C; cbn [passert bind].
    + assert (X : (1 <= m <= 12 /\ 1 <= d <= mlen (is_leap_g false y) m)%Z) by lia.
      split; [|left; reflexivity]. split; [intros _; exact X|reflexivity].
    + assert (X : ~ (1 <= m <= 12 /\ 1 <= d <= mlen (is_leap_g false y) m)%Z) by lia.
      split; [|right; reflexivity]. split; [discriminate|intros Y; contradiction].
  - split; [|right; reflexivity]. split; [discriminate|lia].
Qed.

Lemma zero_time rnd : Nearest rnd -> forall q, 
  fadd rnd q (round12 rnd (fadd rnd (fadd rnd (HR rnd 0) (MN rnd 0)) (SEC rnd 0))) == rnd q.
Proof.
  intros N q.
  assert (P : Proper (Qeq ==> Qeq) rnd) by (intros a b E; apply near_proper; [exact N|exact E]).
  assert (R0 : rnd 0 == 0) by (apply (near_int rnd N 0); vm_compute; discriminate).
  assert (D0 : forall x c, x == 0 -> rnd (x / c) == 0).
  { intros x c Ex. unfold Qdiv. rewrite Ex, Qmult_0_l. exact R0. }
  assert (A0 : forall x z, x == 0 -> z == 0 -> rnd (x + z) == 0).
  { intros x z Ex Ez. rewrite Ex, Ez. exact R0. }
  assert (E : fadd rnd (fadd rnd (HR rnd 0) (MN rnd 0)) (SEC rnd 0) == 0).
  { unfold fadd, HR, MN, SEC, fdiv. apply A0; [apply A0|]; repeat apply D0; reflexivity. }
  assert (Z1 : round12 rnd (fadd rnd (fadd rnd (HR rnd 0) (MN rnd 0)) (SEC rnd 0)) == 0).
  { unfold round12, fround. rewrite E. assert (Q0 : qround 12 0 == 0) by reflexivity. rewrite Q0. exact R0. }
  unfold fadd at 1. rewrite Z1, Qplus_0_r. reflexivity.
Qed.

(** encoding of an accepted date *)
Lemma meeus_enc rnd y m d k q alt : Nearest rnd -> (Z.abs y <= 1000000)%Z -> (0 <= k < 4096)%Z ->
  q == inject_Z d + (k # 4096) ->
  valid_gdate (leap_rule false) y m d -> ~ in_reform_gap y m d \/ k <> 0%Z ->
  exists j, jd_from_gregorian_date rnd false alt y m q 0 0 0 = Ok j /\
            j == inject_Z (zm y m d) - (1#2) + (k # 4096).
Proof.
  intros N Hy Hk Hq Hv Hg. apply valid_gdate_iff in Hv. destruct Hv as [Hm Hd].
  pose proof (mlen_range (is_leap_g false y) m Hm) as ML.
  assert (P : Proper (Qeq ==> Qeq) rnd) by (intros a b E; apply near_proper; [exact N|exact E]).
  unfold jd_from_gregorian_date, date_from_ymdhms.
  rewrite (check_greg_ok rnd (k # 4096) K0 (k4096_range k Hk) (fun u Hu => dyadic_fix0 rnd N u Hu) (fun u Hu => dyadic_fix rnd N u k Hu Hk) y m d _ Hm Hd Hq). cbn [bind].
  apply jd_meeus_ok; try assumption; try lia.
  - rewrite zero_time by exact N. rewrite Hq. apply (exd rnd k N Hk (2 * d)); [unfold K0; lia|]. rewrite twice_half. reflexivity.
  - destruct Hg as [Hg|Hg]; [left|right; exact Hg]. unfold gap. unfold in_reform_gap in Hg. lia.
Qed.

Lemma meeus_round_trip rnd y m d k alt : Nearest rnd -> (Z.abs y <= 1000000)%Z -> (0 <= k < 4096)%Z ->
  valid_gdate (leap_rule false) y m d -> ~ in_reform_gap y m d ->
  exists j, jd_from_gregorian_date rnd false alt y m (inject_Z d + (k # 4096)) 0 0 0 = Ok j /\
            exists q, date_meeus rnd j = (y, m, q) /\ q == inject_Z d + (k # 4096).
Proof.
  intros N Hy Hk Hv Hg.
  destruct (meeus_enc rnd y m d k _ alt N Hy Hk (Qeq_refl _) Hv (or_introl Hg)) as [j [E1 E2]].
  exists j. split; [exact E1|].
  apply valid_gdate_iff in Hv. destruct Hv as [Hm Hd].
  pose proof (mlen_range (is_leap_g false y) m Hm) as ML.
  assert (G : gap y m d = false) by (unfold gap; unfold in_reform_gap in Hg; lia).
  destruct (dm_zm y m d Hm Hd G) as (D1 & D2 & D3).
  apply (date_meeus_ok rnd k N Hk j (zm y m d)); try assumption.
  unfold zm, mB, sY, sM. destruct (m <=? 2)%Z, (after _ _ _); lia.
Qed.

Lemma meeus_next rnd y m d y' m' d' alt : Nearest rnd -> (Z.abs y < 1000000)%Z ->
  hist_date y m d -> next_hist (y, m, d) (y', m', d') ->
  valid_gdate (leap_rule false) y m d -> valid_gdate (leap_rule false) y' m' d' ->
  exists j j', jd_from_gregorian_date rnd false alt y m (inject_Z d) 0 0 0 = Ok j /\
               jd_from_gregorian_date rnd false alt y' m' (inject_Z d') 0 0 0 = Ok j' /\ j' == j + 1.
Proof.
  intros N Hy [Hh Hg] Hn Hv Hv'.
  assert (G : gap y m d = false) by (unfold gap; unfold in_reform_gap in Hg; lia).
  assert (Hm : (1 <= m <= 12)%Z) by (apply valid_gdate_iff in Hv; tauto).
  pose proof (zm_next y m d y' m' d' Hn Hm G) as Z1.
  assert (Hg' : ~ in_reform_gap y' m' d' /\ (Z.abs y' <= 1000000)%Z).
  { remember (y, m, d) as p eqn:Ep. remember (y', m', d') as q eqn:Eq.
    destruct Hn as [|y0 m0 d0 q Hne Hn].
    - inversion Ep; inversion Eq; subst. unfold in_reform_gap. split; lia.
    - inversion Ep; subst. clear Ep. unfold in_reform_gap in *.
      inversion Hn; subst; (split; [|lia]); try lia.
      intros (A & B & C). apply Hne. f_equal; [f_equal|]; lia. }
  destruct Hg' as [Hg' Hy'].
  assert (D0 : forall x, inject_Z x == inject_Z x + (0 # 4096)) by (intros; qlra).
  destruct (meeus_enc rnd y m d 0 _ alt N ltac:(lia) ltac:(lia) (D0 d) Hv (or_introl Hg)) as [j [E1 E2]].
  destruct (meeus_enc rnd y' m' d' 0 _ alt N ltac:(lia) ltac:(lia) (D0 d') Hv' (or_introl Hg')) as [j' [E3 E4]].
  exists j, j'. split; [exact E1|]. split; [exact E3|]. rewrite E2, E4, Z1. qlra.
Qed.

(** ** order *)
Local Open Scope Z_scope.
Lemma after_mono Y M d Y' M' d' :
  (Y < Y' \/ (Y = Y' /\ (M < M' \/ (M = M' /\ d <= d')))) -> after Y M d = true -> after Y' M' d' = true.
Proof. unfold after. intros H H1. lia. Qed.

(** the century correction never takes away more than the days between two dates *)
Lemma mB_step Y Y' : 1582 <= Y <= Y' ->
  2 - Y' / 100 + Y' / 100 / 4 >= 2 - Y / 100 + Y / 100 / 4 - (Y' - Y).
Proof. intro H. assert (0 <= Y' / 100 - Y / 100 <= Y' - Y) by lia. lia. Qed.

Lemma mB_le0 Y : 1582 <= Y -> -10 - (Y - 1582) <= 2 - Y / 100 + Y / 100 / 4 <= -10.
Proof. intro H. lia. Qed.

Lemma zm_day y m d n : 1 <= m <= 12 -> 1 <= d -> 0 <= n -> gap y m d = false -> gap y m (d + n) = false ->
  0 < n -> zm y m d < zm y m (d + n).
Proof.
  intros Hm Hd Hn G1 G2 Hp. unfold zm, mB, after, sY, sM, gap in *.
  destruct (m <=? 2) eqn:E.
  - destruct ((1582 <? y - 1) || ((y - 1 =? 1582) && ((10 <? m + 12) || ((m + 12 =? 10) && (15 <=? d))))) eqn:A;
    destruct ((1582 <? y - 1) || ((y - 1 =? 1582) && ((10 <? m + 12) || ((m + 12 =? 10) && (15 <=? d + n))))) eqn:B; lia.
  - destruct ((1582 <? y) || ((y =? 1582) && ((10 <? m) || ((m =? 10) && (15 <=? d))))) eqn:A;
    destruct ((1582 <? y) || ((y =? 1582) && ((10 <? m) || ((m =? 10) && (15 <=? d + n))))) eqn:B; lia.
Qed.

Lemma zm_month y m d d' : 1 <= m <= 12 -> 1 <= d <= mlen (is_leap_g false y) m -> 1 <= d' -> 
  gap y m d = false -> (m < 12 -> gap y (m + 1) d' = false) ->
  zm y m d < (if m =? 12 then zm (y + 1) 1 d' else zm y (m + 1) d').
Proof.
  intros Hm Hd Hd' G1 G2.
  assert (L : is_leap_g false y = true -> y mod 4 = 0 /\ (y mod 100 <> 0 \/ y mod 400 = 0)).
  { intro H. apply is_leap_g_rule in H. unfold leap_rule in H. rewrite <- !Z.mod_divide in H by lia. tauto. }
  unfold zm, mB, after, gap in *.
  destruct (is_leap_g false y); months Hm;
     match type of Hd with context [mlen ?b ?m] => let a' := eval vm_compute in (mlen b m) in change (mlen b m) with a' in Hd end;
     try (assert (L' := L eq_refl)); clear L;
     cbn [Z.eqb Pos.eqb Z.add Pos.add Pos.succ] in G1, G2;
     unfold sY, sM; cbn -[Z.div Z.modulo Z.mul Z.add Z.sub Z.ltb Z.eqb Z.leb];
     repeat match goal with |- context [306001 * (?x) / 10000] => let v := eval vm_compute in (306001 * x / 10000) in change (306001 * x / 10000) with v end;
  repeat match goal with |- context [if ?b then _ else _] => destruct b eqn:? end; try lia.
Qed.

Lemma zm_months n : forall y m d y' m' d', 1 <= m <= 12 -> 1 <= d <= mlen (is_leap_g false y) m ->
  1 <= m' <= 12 -> 1 <= d' -> gap y m d = false -> gap y' m' d' = false ->
  12 * y' + m' = 12 * y + m + Z.of_nat (S n) -> zm y m d < zm y' m' d'.
Proof.
  induction n as [|n IH]; intros y m d y' m' d' Hm Hd Hm' Hd' G G' E.
  - pose proof (zm_month y m d d' Hm Hd Hd' G) as X.
    destruct (m =? 12) eqn:E12.
    + assert (y' = y + 1 /\ m' = 1) as [-> ->] by lia. apply X. lia.
    + assert (y' = y /\ m' = m + 1) as [-> ->] by lia. apply X. intros _. exact G'.
  - set (y1 := if m' =? 1 then y' - 1 else y'). set (m1 := if m' =? 1 then 12 else m' - 1).
    assert (E1 : 12 * y1 + m1 = 12 * y + m + Z.of_nat (S n)) by (subst y1 m1; destruct (m' =? 1) eqn:?; lia).
    assert (Hm1 : 1 <= m1 <= 12) by (subst m1; destruct (m' =? 1) eqn:?; lia).
    assert (G1 : gap y1 m1 1 = false) by (unfold gap; lia).
    pose proof (mlen_range (is_leap_g false y1) m1 Hm1) as ML.
    pose proof (IH y m d y1 m1 1 Hm Hd Hm1 ltac:(lia) G G1 E1) as A.
    pose proof (zm_month y1 m1 1 d' Hm1 ltac:(lia) Hd' G1) as B.
    assert (C : (m1 < 12 -> gap y1 (m1 + 1) d' = false) /\ (if m1 =? 12 then zm (y1 + 1) 1 d' else zm y1 (m1 + 1) d') = zm y' m' d').
    { subst y1 m1. destruct (m' =? 1) eqn:Q1.
      - split; [lia|]. change (12 =? 12) with true. cbv iota. f_equal; lia.
      - replace (m' - 1 =? 12) with false by lia. replace (m' - 1 + 1) with m' by lia. split; [intros _; exact G'|reflexivity]. }
    destruct C as [C1 C2]. specialize (B C1). rewrite C2 in B. lia.
Qed.

Lemma zm_earlier y m d y' m' d' : valid_gdate (leap_rule false) y m d -> valid_gdate (leap_rule false) y' m' d' ->
  ~ in_reform_gap y m d -> ~ in_reform_gap y' m' d' -> earlier y m d y' m' d' -> zm y m d < zm y' m' d'.
Proof.
  intros V V' G G' He. apply valid_gdate_iff in V. apply valid_gdate_iff in V'.
  assert (g : gap y m d = false) by (unfold gap; unfold in_reform_gap in G; lia).
  assert (g' : gap y' m' d' = false) by (unfold gap; unfold in_reform_gap in G'; lia).
  destruct V as [Vm Vd], V' as [Vm' Vd'].
  destruct (Z.eq_dec (12 * y + m) (12 * y' + m')) as [E|E].
  - assert (y' = y /\ m' = m) as [-> ->] by lia. unfold earlier in He.
    assert (Ed : exists n, d' = d + n /\ 0 < n) by (exists (d' - d); lia). destruct Ed as [n [-> Hn]].
    apply zm_day; solve [assumption | lia].
  - apply (zm_months (Z.to_nat (12 * y' + m' - (12 * y + m) - 1))); try assumption; try lia.
    unfold earlier in He. lia.
Qed.

(** C04 order *)
Lemma meeus_order rnd y m d y' m' d' alt : Nearest rnd -> Z.abs y <= 1000000 -> Z.abs y' <= 1000000 ->
  valid_gdate (leap_rule false) y m d -> valid_gdate (leap_rule false) y' m' d' ->
  ~ in_reform_gap y m d -> ~ in_reform_gap y' m' d' -> earlier y m d y' m' d' ->
  exists j j', jd_from_gregorian_date rnd false alt y m (inject_Z d) 0 0 0 = Ok j /\
               jd_from_gregorian_date rnd false alt y' m' (inject_Z d') 0 0 0 = Ok j' /\ (j + 1 <= j')%Q.
Proof.
  intros N Hy Hy' V V' G G' He.
  assert (D0 : forall x, (inject_Z x == inject_Z x + (0 # 4096))%Q) by (intros; qlra).
  destruct (meeus_enc rnd y m d 0 _ alt N ltac:(lia) ltac:(lia) (D0 d) V (or_introl G)) as [j [E1 E2]].
  destruct (meeus_enc rnd y' m' d' 0 _ alt N ltac:(lia) ltac:(lia) (D0 d') V' (or_introl G')) as [j' [E3 E4]].
  pose proof (zm_earlier _ _ _ _ _ _ V V' G G' He) as L.
  exists j, j'. split; [exact E1|]. split; [exact E3|]. rewrite E2, E4.
  assert (L' : zm y m d + 1 <= zm y' m' d') by lia. toQ L'. qlra.
Qed.

(** C04 rejection *)
Lemma meeus_reject rnd alt y m d : Nearest rnd -> Z.abs y <= 1000000 -> 0 <= m -> 0 <= d ->
  (jd_from_gregorian_date rnd false alt y m (inject_Z d) 0 0 0 = Err AssertionError <->
   ~ valid_gdate (leap_rule false) y m d \/ in_reform_gap y m d).
Proof.
  intros N Hy Hm Hd.
  assert (P : Proper (Qeq ==> Qeq) rnd) by (intros a b E; apply near_proper; [exact N|exact E]).
  destruct (check_greg_iff rnd y m d Hm Hd) as [A B].
  split.
  - intro H. destruct B as [B|B].
    + apply A in B. right.
      assert (G : in_reform_gap y m d \/ ~ in_reform_gap y m d) by (unfold in_reform_gap; lia).
      destruct G as [G|G]; [exact G|]. exfalso.
      assert (D0 : (inject_Z d == inject_Z d + (0 # 4096))%Q) by qlra.
      destruct (meeus_enc rnd y m d 0 _ alt N Hy ltac:(lia) D0 B (or_introl G)) as [j [E1 _]].
      congruence.
    + left. intro V. apply A in V. congruence.
  - intro H. unfold jd_from_gregorian_date, date_from_ymdhms. destruct B as [B|B]; rewrite B; cbn [bind]; [|reflexivity].
    destruct H as [H|(-> & -> & Hg)]; [exfalso; apply H, A, B|].
    unfold jd_meeus.
    assert (E : existsb (fun d0 => Qeqb (fadd rnd (inject_Z d) (round12 rnd (fadd rnd (fadd rnd (HR rnd 0) (MN rnd 0)) (SEC rnd 0)))) (inject_Z d0))
                  [5;6;7;8;9;10;11;12;13;14] = true).
    { apply existsb_exists. exists d. split; [cbn [In]; lia|]. apply Qeqb_eq.
      rewrite zero_time by exact N. apply (near_int rnd N). clear -Hg. lia. }
    rewrite E. reflexivity.
Qed.
