(** AstroDt.v -- the difference between dynamical and universal time stays under a third of a day or so (proof support). *)
From Coq Require Import ZArith QArith Qround Qabs Qreals Reals Lra Lqa Lia ZifyBool List Bool.
From Verif Require Import Base Flt QUtil BaseModel BaseProofs GregModel GregProofs GregProofs2 MeeusProofs MeeusFloat AstroModel AstroReal AstroFlt AstroNut.
Import ListNotations.
Local Open Scope Q_scope.
Ltac Zify.zify_post_hook ::= Z.div_mod_to_equations.

Section Dt.
Variable rnd : Q -> Q.
Hypothesis N : Nearest rnd.

(** the year and the month of Meeus' algorithm are those of its integer version, for every float and not only for those
    of the days *)
Lemma meeus_ym jd z : Qfloor (fadd rnd jd (1 # 2)) = z -> (Z.abs z <= 400000000)%Z -> fst (date_meeus rnd jd) = fst (dm z).
Proof.
  intros E Hz. unfold date_meeus, dm. cbv zeta. rewrite E.
  assert (EA : (if (2299161 <=? z)%Z then
     (z + 1 + Qfloor (fdiv rnd (fsub rnd (inject_Z z) (7468865 # 4)) (146097 # 4)) -
      Qfloor (fdiv rnd (inject_Z (Qfloor (fdiv rnd (fsub rnd (inject_Z z) (7468865 # 4)) (146097 # 4)))) 4))%Z else z) = dA z).
  { unfold dA. destruct (2299161 <=? z)%Z; [|reflexivity]. cbv zeta.
    rewrite (floor_alpha rnd N) by lia. change 4 with (inject_Z 4). rewrite (floor_div_int rnd N _ 4); [reflexivity|auto|lia]. }
  rewrite EA. assert (HA : (Z.abs (dA z) <= 450000000)%Z) by (unfold dA; destruct (2299161 <=? z)%Z; cbv zeta; lia).
  set (b := (dA z + 1524)%Z) in *. assert (Hb : (Z.abs b <= 460000000)%Z) by (subst b; lia).
  rewrite (floor_c rnd N b) by lia. assert (HC : (Z.abs (dC b) <= 2000000)%Z) by (unfold dC; lia).
  rewrite (floor_1461 rnd N (dC b)) by lia. 
  assert (HD : (123 <= b - 1461 * dC b / 4 <= 488)%Z) by (unfold dC; lia).
  fold (C30 rnd). rewrite (floor_e rnd N) by lia. reflexivity.
Qed.
Lemma year_range jd y mo d : 1700000 <= jd <= 2900000 -> date_meeus rnd jd = (y, mo, d) -> (-63 <= y <= 3301)%Z /\ (1 <= mo <= 12)%Z.
Proof.
  intros [J1 J2] E. set (z := Qfloor (fadd rnd jd (1 # 2))).
  assert (Z : (1699999 <= z <= 2900001)%Z).
  { assert (A : inject_Z 1700000 <= fadd rnd jd (1 # 2)) by (rewrite <- (near_int rnd N) by lia; apply (near_mono rnd N); zconsts; lra).
    assert (B : fadd rnd jd (1 # 2) <= inject_Z 2900001) by (rewrite <- (near_int rnd N) by lia; apply (near_mono rnd N); zconsts; lra).
    apply Qfloor_resp_le in A. apply Qfloor_resp_le in B. rewrite Qfloor_Z in A, B. fold z in A, B. lia. }
  pose proof (meeus_ym jd z eq_refl ltac:(lia)) as M. rewrite E in M. cbn [fst] in M. unfold dm in M. cbv zeta in M. cbn [fst] in M.
  assert (HA : (z <= dA z <= z + 40)%Z) by (unfold dA; destruct (2299161 <=? z)%Z eqn:G; cbv zeta; lia).
  set (b := (dA z + 1524)%Z) in *. assert (HC : (4656 <= dC b <= 7950)%Z) by (unfold dC; lia).
  assert (HD : (123 <= b - 1461 * dC b / 4 <= 488)%Z) by (unfold dC; lia).
  assert (HE : (4 <= dE (b - 1461 * dC b / 4) <= 15)%Z) by (unfold dE; lia).
  injection M as -> ->. set (e := dE _) in *. destruct (13 <? e)%Z eqn:G; destruct (2 <? _)%Z eqn:G2; lia.
Qed.

Lemma poly_le x X a b B : Qabs x <= X -> Forall2 close a b -> pabs X b + perr X b <= B -> Qabs (poly rnd x a) <= B.
Proof.
  intros H F E. pose proof (poly_err rnd N x X a b H F) as P. pose proof (pe_abs x X b H) as Q.
  setoid_replace (poly rnd x a) with (pe x b + (poly rnd x a - pe x b)) by ring. eapply Qle_trans; [apply Qabs_triangle|]. lra.
Qed.
Lemma sub_le year c X : Qabs (year - c) <= X -> Qabs (fsub rnd year c) <= X * (1 + uq).
Proof. intro H. unfold fsub. apply rnd_le; assumption. Qed.
Lemma div_le x X n : Qabs x <= X -> Qabs (fdiv rnd x (Zpos n # 1)) <= X * (1 # n) * (1 + uq).
Proof.
  intro H. unfold fdiv. apply rnd_le; [exact N|]. setoid_replace (x / (Zpos n # 1)) with (x * (1 # n)) by (unfold Qdiv, Qeq, Qmult, Qinv; cbn; lia).
  apply mul_le; [exact H|]. rewrite Qabs_pos by discriminate. apply Qle_refl.
Qed.
Ltac coeffs := repeat (apply Forall2_cons; [first [apply close_refl | apply (close_rnd rnd N); reflexivity]|]); apply Forall2_nil.
Ltac exact_of l :=
  match l with
  | nil => constr:(@nil Q)
  | lit _ ?n ?d :: ?l' => let r := exact_of l' in constr:((n # d) :: r)
  | fdiv _ (?n # 1) (Zpos ?d # 1) :: ?l' => let r := exact_of l' in constr:((n # d) :: r)
  | ?x :: ?l' => let r := exact_of l' in constr:(x :: r)
  end.
Ltac segment X := 
  match goal with |- Qabs (poly rnd ?x ?l) <= _ => let b := exact_of l in apply (poly_le x X l b); [|unfold lit, fdiv; coeffs|vm_compute; discriminate] end.

Lemma far_le year : -63 <= year <= 3303 -> Qabs (far_delta_t rnd year) <= 12000.
Proof.
  intros [A B]. unfold far_delta_t, sq. assert (C : Qabs (year - 1820) <= 1900) by (apply Qabs_iff; split; lra).
  pose proof (div_le _ _ 100 (sub_le _ _ _ C)) as D. set (x := fdiv rnd (fsub rnd year 1820) 100) in *. change (Z.pos 100 # 1) with 100 in D. fold x in D.
  assert (D' : Qabs x <= 1901 # 100) by (eapply Qle_trans; [exact D|vm_compute; discriminate]).
  pose proof (rnd_le rnd N _ _ (mul_le _ _ _ _ D' D')) as E. set (y := rnd (x * x)) in *.
  assert (E' : Qabs y <= 362) by (eapply Qle_trans; [exact E|vm_compute; discriminate]).
  unfold fadd, fmul. assert (F : Qabs (rnd (32 * y)) <= 32 * 362 * (1 + uq)) by (apply rnd_le; [exact N|]; apply (mul_le 32 y 32 362); [discriminate|exact E']).
  assert (G : Qabs (rnd (-20 + rnd (32 * y))) <= (20 + 32 * 362 * (1 + uq)) * (1 + uq)) by (apply rnd_le; [exact N|]; apply add_le; [discriminate|exact F]).
  eapply Qle_trans; [exact G|vm_compute; discriminate].
Qed.
Lemma delta_t_year_le year : -63 <= year <= 3303 -> Qabs (delta_t_year rnd year) <= 30000.
Proof.
  intros Y. unfold delta_t_year.
  assert (SB : forall c X X', Qabs (year - c) <= X -> X * (1 + uq) <= X' -> Qabs (fsub rnd year c) <= X').
  { intros c X X' H E. eapply Qle_trans; [apply sub_le, H|exact E]. }
  assert (G0 : Qltb year (-500) = false) by (apply Qltb_ge; lra). rewrite G0.
  destruct (Qltb year 500) eqn:G1.
  { apply Qltb_lt in G1. segment (501 # 100). assert (H : Qabs year <= 500) by (apply Qabs_iff; split; lra).
    eapply Qle_trans; [apply (div_le _ _ 100 H)|vm_compute; discriminate]. }
  apply Qltb_ge in G1. destruct (Qltb year 1600) eqn:G2.
  { apply Qltb_lt in G2. segment (601 # 100). assert (H : Qabs (year - 1000) <= 600) by (apply Qabs_iff; split; lra).
    eapply Qle_trans; [apply (div_le _ _ 100 (sub_le _ _ _ H))|vm_compute; discriminate]. }
  apply Qltb_ge in G2. destruct (Qltb year 1700) eqn:G3.
  { apply Qltb_lt in G3. segment 101. apply (SB 1600 100); [apply Qabs_iff; split; lra|vm_compute; discriminate]. }
  apply Qltb_ge in G3. destruct (Qltb year 1800) eqn:G4.
  { apply Qltb_lt in G4. segment 101. apply (SB 1700 100); [apply Qabs_iff; split; lra|vm_compute; discriminate]. }
  apply Qltb_ge in G4. destruct (Qltb year 1860) eqn:G5.
  { apply Qltb_lt in G5. segment (601 # 10). apply (SB 1800 60); [apply Qabs_iff; split; lra|vm_compute; discriminate]. }
  apply Qltb_ge in G5. destruct (Qltb year 1900) eqn:G6.
  { apply Qltb_lt in G6. segment 41. apply (SB 1860 40); [apply Qabs_iff; split; lra|vm_compute; discriminate]. }
  apply Qltb_ge in G6. destruct (Qltb year 1920) eqn:G7.
  { apply Qltb_lt in G7. segment 21. apply (SB 1900 20); [apply Qabs_iff; split; lra|vm_compute; discriminate]. }
  apply Qltb_ge in G7. destruct (Qltb year 1941) eqn:G8.
  { apply Qltb_lt in G8. segment 22. apply (SB 1920 21); [apply Qabs_iff; split; lra|vm_compute; discriminate]. }
  apply Qltb_ge in G8. destruct (Qltb year 1961) eqn:G9.
  { apply Qltb_lt in G9. segment 12. apply (SB 1950 11); [apply Qabs_iff; split; lra|vm_compute; discriminate]. }
  apply Qltb_ge in G9. destruct (Qltb year 1986) eqn:G10.
  { apply Qltb_lt in G10. segment 15. apply (SB 1975 14); [apply Qabs_iff; split; lra|vm_compute; discriminate]. }
  apply Qltb_ge in G10. destruct (Qltb year 2005) eqn:G11.
  { apply Qltb_lt in G11. segment 15. apply (SB 2000 14); [apply Qabs_iff; split; lra|vm_compute; discriminate]. }
  apply Qltb_ge in G11. destruct (Qltb year 2050) eqn:G12.
  { apply Qltb_lt in G12. segment 51. apply (SB 2000 50); [apply Qabs_iff; split; lra|vm_compute; discriminate]. }
  apply Qltb_ge in G12. pose proof (far_le year Y) as F. destruct (Qltb year 2150) eqn:G13; [|lra].
  apply Qltb_lt in G13. assert (H : Qabs (2150 - year) <= 100) by (apply Qabs_iff; split; lra).
  pose proof (rnd_le rnd N _ _ H) as H1. pose proof (rnd_le rnd N (5628 # 10000) 1 ltac:(vm_compute; discriminate)) as H2.
  pose proof (rnd_le rnd N _ _ (mul_le _ _ _ _ H2 H1)) as H3.
  unfold fsub, fmul, lit. eapply Qle_trans; [apply (rnd_le rnd N _ (12000 + 200))|vm_compute; discriminate].
  unfold Qminus at 1. apply add_le; [exact F|]. rewrite Qabs_opp. eapply Qle_trans; [exact H3|vm_compute; discriminate].
Qed.
Lemma decimal_year_range y mo : (-63 <= y <= 3301)%Z -> (1 <= mo <= 12)%Z -> -63 <= decimal_year rnd y mo <= 3303.
Proof.
  intros [A B] [C D]. unfold decimal_year, fadd. toQ A. toQ B. toQ C. toQ D.
  assert (E : 0 <= fdiv rnd (inject_Z mo - (1 # 2)) 12 <= 1).
  { unfold fdiv. split.
    - apply (near_nonneg rnd N). apply Qle_shift_div_l; [reflexivity|]. qlra.
    - change 1 with (inject_Z 1). rewrite <- (near_int rnd N 1) by lia. apply (near_mono rnd N). apply Qle_shift_div_r; [reflexivity|]. qlra. }
  set (w := fdiv rnd _ 12) in *. split.
  - change (-63) with (inject_Z (-63)) at 1. rewrite <- (near_int rnd N (-63)) by lia. apply (near_mono rnd N). qlra.
  - change 3303 with (inject_Z 3303). rewrite <- (near_int rnd N 3303) by lia. apply (near_mono rnd N). qlra.
Qed.
Lemma delta_t_le jd : 1700000 <= jd <= 2900000 -> Qabs (delta_t rnd jd false) <= 35 # 100.
Proof.
  intros J. unfold delta_t. destruct (date_meeus rnd jd) as [[y mo] d] eqn:E.
  destruct (year_range jd y mo d J E) as [A B]. pose proof (delta_t_year_le _ (decimal_year_range y mo A B)) as F.
  eapply Qle_trans; [apply (div_le _ _ 86400 F)|vm_compute; discriminate].
Qed.
End Dt.
