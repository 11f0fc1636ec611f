From Coq Require Import ZArith QArith Qround Qabs List Bool Lia Lqa Setoid Morphisms.
From Coq Require Import ZifyBool ZifyNat ZifyN.
From Verif Require Import Base Flt QUtil BaseModel GregModel SpecGreg GregProofs GregProofs2.
Import ListNotations.
Local Open Scope Z_scope.
Ltac Zify.zify_post_hook ::= Z.div_mod_to_equations.

(** * Integer versions *)
(** (year, month) shifted so that the year starts in March *)
Definition sY (y m : Z) := if m <=? 2 then y - 1 else y.
Definition sM (m : Z) := if m <=? 2 then m + 12 else m.
Definition after (y m d : Z) : bool :=
  (1582 <? y) || ((y =? 1582) && ((10 <? m) || ((m =? 10) && (15 <=? d)))).
Definition mB (Y M d : Z) : Z := if after Y M d then 2 - Y / 100 + (Y / 100) / 4 else 0.
(** JD + 1/2 of the beginning of the day *)
Definition zm (y m d : Z) : Z :=
  1461 * sY y m / 4 + 306001 * (sM m + 1) / 10000 + d + mB (sY y m) (sM m) d + 1720995.

Definition dA (z : Z) : Z :=
  if 2299161 <=? z then let al := (4 * z - 7468865) / 146097 in z + 1 + al - al / 4 else z.
Definition dC (b : Z) : Z := (20 * b - 2442) / 7305.
Definition dE (bd : Z) : Z := 10000 * bd / 306001.
Definition dm (z : Z) : Z * Z * Z :=
  let b := dA z + 1524 in
  let c := dC b in
  let d := 1461 * c / 4 in
  let e := dE (b - d) in
  let day := b - d - 306001 * e / 10000 in
  let month := if 13 <? e then e - 13 else e - 1 in
  let year := if 2 <? month then c - 4716 else c - 4715 in
  (year, month, day).

Definition gap (y m d : Z) : bool := (y =? 1582) && (m =? 10) && (5 <=? d) && (d <=? 14).

Lemma div_1461 c : 1461 * (c + 4716) / 4 = 1461 * c / 4 + 1722519.
Proof. lia. Qed.

(** the century correction is undone *)
Lemma dA_greg Y k : 1582 <= Y -> 
  123 <= k <= 488 -> (k = 488 -> (Y + 1) mod 4 = 0 /\ ((Y + 1) mod 100 <> 0 \/ (Y + 1) mod 400 = 0)) ->
  (4 * (1461 * Y / 4 + k + 2 - Y / 100 + (Y / 100) / 4 + 1720995) - 7468865) / 146097 = Y / 100 - 4.
Proof.
  intros HY Hk HL.
  set (a := Y / 100). set (r := Y mod 100).
  assert (EY : Y = 100 * a + r) by (subst a r; lia). assert (Hr : 0 <= r < 100) by (subst r; lia).
  clearbody a r. subst Y.
  replace (1461 * (100 * a + r) / 4) with (36525 * a + 1461 * r / 4) by lia.
  destruct (Z.eq_dec k 488) as [E|E].
  - specialize (HL E). subst k.
    destruct (Z.eq_dec r 99) as [->|Hr'].
    + assert ((100 * a + 99 + 1) mod 100 = 0) by lia. assert (a mod 4 = 3) by lia. clear HL HY.
      replace (1461 * 99 / 4) with 36159 by reflexivity. lia.
    + lia.
  - lia.
Qed.

Lemma dm_zm y m d : 1 <= m <= 12 -> 1 <= d <= mlen (is_leap_g false y) m -> gap y m d = false ->
  dm (zm y m d) = (y, m, d) /\
  (122 < dA (zm y m d) + 1524 - 1461 * dC (dA (zm y m d) + 1524) / 4 <= 500)%Z /\
  (3 <= dE (dA (zm y m d) + 1524 - 1461 * dC (dA (zm y m d) + 1524) / 4) <= 15)%Z.
Proof.
  intros Hm Hd Hg.
  set (Y := sY y m). set (M := sM m).
  set (k := 306001 * (M + 1) / 10000 + d).
  assert (HM : 3 <= M <= 14) by (subst M; unfold sM; destruct (m <=? 2) eqn:?; lia).
  assert (Hk : 123 <= k <= 488 /\ (k = 488 -> (Y + 1) mod 4 = 0 /\ ((Y + 1) mod 100 <> 0 \/ (Y + 1) mod 400 = 0))
        /\ (k = 488 -> (Y + 1) mod 4 = 0)).
  { assert (L : is_leap_g false y = true -> y mod 4 = 0 /\ (y mod 100 <> 0 \/ y mod 400 = 0)).
    { intro H. apply is_leap_g_rule in H. unfold leap_rule in H. rewrite <- !Z.mod_divide in H by lia. tauto. }
    subst k M Y. unfold sM, sY. clear Hg.
    destruct (is_leap_g false y); 
    (assert (Hm' := Hm); months Hm'; 
     match type of Hd with context [mlen ?b ?m] => let a' := eval vm_compute in (mlen b m) in change (mlen b m) with a' in Hd end;
     cbn -[Z.div Z.modulo Z.mul Z.add Z.sub]; 
     try (assert (L' := L eq_refl)); 
     repeat match goal with |- context [306001 * (?x) / 10000] => let v := eval vm_compute in (306001 * x / 10000) in change (306001 * x / 10000) with v end;
     replace (y - 1 + 1) with y by lia;
     lia). }
  destruct Hk as (Hk & HkL & Hk4).
  assert (Ez : zm y m d = 1461 * Y / 4 + k + mB Y M d + 1720995) by (unfold zm; subst k; fold Y M; lia).
  assert (EA : dA (zm y m d) = 1461 * Y / 4 + k + 1720995).
  { unfold dA. rewrite Ez. unfold mB. destruct (after Y M d) eqn:Ea.
    - assert (HY : 1582 <= Y) by (unfold after in Ea; lia).
      assert (Hz : 2299161 <= 1461 * Y / 4 + k + (2 - Y / 100 + Y / 100 / 4) + 1720995).
      { destruct (Z.eq_dec Y 1582) as [E|E].
        - rewrite E in *. change (1461 * 1582 / 4) with 577825. change (1582 / 100) with 15. change (15 / 4) with 3.
          assert (K : 351 <= k); [|lia].
          unfold after in Ea. cbn -[Z.div Z.modulo Z.mul Z.add Z.sub Z.ltb Z.eqb Z.leb] in Ea.
          subst k. clear -Ea HM Hd. assert (X : (10 < M \/ (M = 10 /\ 15 <= d))) by lia.
          destruct X as [X|[X1 X2]]; [assert (367 <= 306001 * (M + 1) / 10000) by lia; lia|subst M].
          rewrite X1. change (306001 * (10 + 1) / 10000) with 336. lia.
        - clear Ez HkL Hk4. lia. }
      replace (2299161 <=? 1461 * Y / 4 + k + (2 - Y / 100 + Y / 100 / 4) + 1720995) with true by lia.
      cbv zeta.
      replace (1461 * Y / 4 + k + (2 - Y / 100 + Y / 100 / 4) + 1720995) with (1461 * Y / 4 + k + 2 - Y / 100 + Y / 100 / 4 + 1720995) by lia.
      rewrite (dA_greg Y k HY Hk HkL). lia.
    - assert (Hz : 1461 * Y / 4 + k + 0 + 1720995 < 2299161).
      { destruct (Z_lt_ge_dec Y 1582) as [L|L].
        - clear Ez HkL Ea. lia.
        - assert (EY : Y = 1582) by (unfold after in Ea; lia). rewrite EY in *.
          change (1461 * 1582 / 4) with 577825.
          assert (k <= 340); [|lia].
          unfold after in Ea. unfold gap in Hg. subst k.
          assert (X : M < 10 \/ (M = 10 /\ d < 15)) by lia.
          destruct X as [X|[X1 X2]].
          + assert (306001 * (M + 1) / 10000 <= 306) by lia. 
            assert (d <= 31) by (pose proof (mlen_range (is_leap_g false y) m Hm); lia). lia.
          + rewrite X1. change (306001 * (10 + 1) / 10000) with 336.
            assert (d < 5); [|lia]. subst M Y. unfold sM, sY in *.
            destruct (m <=? 2) eqn:?; lia. }
      replace (2299161 <=? 1461 * Y / 4 + k + 0 + 1720995) with false by lia. lia. }
  unfold dm. rewrite EA. cbv zeta.
  set (b := 1461 * Y / 4 + k + 1720995 + 1524).
  assert (Eb : b = 1461 * (Y + 4716) / 4 + k) by (rewrite div_1461; subst b; lia).
  assert (EC : dC b = Y + 4716).
  { unfold dC. rewrite Eb. clear -Hk Hk4. set (c := Y + 4716).
    assert (k = 488 -> (c + 1) mod 4 = 0) by (intro E; specialize (Hk4 E); subst c; lia). clearbody c. clear Hk4. lia. }
  rewrite EC.
  assert (Ebd : b - 1461 * (Y + 4716) / 4 = k) by lia. rewrite Ebd.
  assert (EE : dE k = M + 1).
  { unfold dE. subst k.
    assert (d <= 31 /\ (M <> 14 -> True)) as [D31 _] by (pose proof (mlen_range (is_leap_g false y) m Hm); lia).
    assert (Hd1 := proj1 Hd). clear -HM Hd Hd1 D31 Hm M. 
    subst M. unfold sM in *. months Hm;
     destruct (is_leap_g false y);
     match type of Hd with context [mlen ?b ?m] => let a' := eval vm_compute in (mlen b m) in change (mlen b m) with a' in Hd end;
     cbn -[Z.div Z.modulo Z.mul Z.add Z.sub];
     repeat match goal with |- context [306001 * (?x) / 10000] => let v := eval vm_compute in (306001 * x / 10000) in change (306001 * x / 10000) with v end; lia. }
  rewrite EE. split; [|split; lia].
  assert (Edd : k - 306001 * (M + 1) / 10000 = d) by (subst k; lia). rewrite Edd.
  subst M Y. unfold sM, sY. destruct (m <=? 2) eqn:E2.
  - replace (13 <? m + 12 + 1) with true by lia. replace (2 <? m + 12 + 1 - 13) with false by lia. repeat f_equal; lia.
  - replace (13 <? m + 1) with false by lia. replace (2 <? m + 1 - 1) with true by lia. repeat f_equal; lia.
Qed.

(** ** consecutive days *)
Lemma hist_leap_mod y : hist_leap y <-> (if y <=? 1582 then y mod 4 = 0 else y mod 4 = 0 /\ (y mod 100 <> 0 \/ y mod 400 = 0)).
Proof.
  unfold hist_leap, leap_rule. destruct (y <=? 1582); rewrite <- !Z.mod_divide by lia; tauto.
Qed.

Lemma zm_next y m d y' m' d' : next_hist (y, m, d) (y', m', d') ->
  1 <= m <= 12 -> gap y m d = false ->
  zm y' m' d' = zm y m d + 1.
Proof.
  intros Hn Hm Hg. remember (y, m, d) as p eqn:Ep. remember (y', m', d') as q eqn:Eq.
  destruct Hn as [|y0 m0 d0 q Hne Hn].
  - injection Ep as <- <- <-. injection Eq as <- <- <-. reflexivity.
  - injection Ep as -> -> ->. subst q.
    remember (y, m, d) as p eqn:Ep. remember (y', m', d') as q eqn:Eq.
    destruct Hn as [y0 m0 d0 n Hl Hd | y0 m0 n Hl Hd | y0].
    + injection Ep as -> -> ->. injection Eq as <- <- <-.
      unfold zm, mB. replace (after (sY y m) (sM m) (d + 1)) with (after (sY y m) (sM m) d); [lia|].
      assert (d <> 14 \/ y <> 1582 \/ m <> 10) by (unfold gap in Hg; lia).
      unfold after, sY, sM. destruct (m <=? 2) eqn:?; lia.
    + injection Ep as -> -> ->. injection Eq as <- <- <-.
      destruct (Z.eq_dec m 2) as [->|N2].
      * assert (Hn : d = (if y <=? 1582 then (if y mod 4 =? 0 then 29 else 28)
                     else if (y mod 4 =? 0) && (negb (y mod 100 =? 0) || (y mod 400 =? 0)) then 29 else 28)).
        { inversion Hl as [? Hi|? Hi|Hx|Hx]; subst; cbn [In] in *; try lia;
          rewrite hist_leap_mod in Hx; revert Hx; destruct (y <=? 1582); intro Hx;
          destruct (y mod 4 =? 0) eqn:?; destruct (y mod 100 =? 0) eqn:?; destruct (y mod 400 =? 0) eqn:?; cbn [negb orb andb]; lia. }
        unfold zm, mB, sY, sM. change (2 + 1 <=? 2) with false. change (2 <=? 2) with true. cbv iota.
        change (306001 * (2 + 1 + 1) / 10000) with 122. change (306001 * (2 + 12 + 1) / 10000) with 459.
        unfold after. destruct (y <=? 1582) eqn:E1.
        -- replace (1582 <? y) with false by lia. replace (1582 <? y - 1) with false by lia.
           replace (y - 1 =? 1582) with false by lia. change (10 <? 2 + 1) with false. change (2 + 1 =? 10) with false.
           cbn [orb andb]. rewrite andb_false_r. destruct (y mod 4 =? 0) eqn:?; lia.
        -- replace (1582 <? y) with true by lia. cbn [orb].
           replace ((1582 <? y - 1) || ((y - 1 =? 1582) && ((10 <? 2 + 12) || ((2 + 12 =? 10) && (15 <=? d))))) with true by lia.
           destruct (y mod 4 =? 0) eqn:?, (y mod 100 =? 0) eqn:?, (y mod 400 =? 0) eqn:?; cbn [negb orb andb] in Hn; lia.
      * assert (Hd' : d = 30 \/ d = 31) by (inversion Hl; subst; lia).
        assert (Hn : d = (if (m =? 4) || (m =? 6) || (m =? 9) || (m =? 11) then 30 else 31)).
        { inversion Hl as [? Hi|? Hi|Hx|Hx]; subst; cbn [In] in *; try lia;
          repeat (destruct Hi as [<-|Hi]; [reflexivity|]); contradiction. }
        assert (Hdm : 306001 * (sM (m + 1) + 1) / 10000 = 306001 * (sM m + 1) / 10000 + d /\ sY y (m + 1) = sY y m /\
                      after (sY y m) (sM (m + 1)) 1 = after (sY y m) (sM m) d).
        { clear Hl Hg Hne. unfold after, sM, sY. assert (Hm' := Hm). months Hm'; try lia;
            (split; [reflexivity|split; [reflexivity|]]); cbn -[Z.ltb Z.eqb]; try reflexivity; destruct (y =? 1582); reflexivity. }
        destruct Hdm as (E1 & E2 & E3). unfold zm, mB. rewrite E1, E2, E3. lia.
    + injection Ep as -> <- <-. injection Eq as <- <- <-.
      unfold zm, mB, sY, sM; cbn -[Z.div Z.modulo Z.mul Z.add Z.sub after].
      replace (y + 1 - 1) with y by lia.
      change (306001 * (12 + 1) / 10000) with 397. change (306001 * (1 + 12 + 1) / 10000) with 428.
      replace (after y (1 + 12) 1) with (after y 12 31); [lia|]. unfold after. lia.
Qed.
