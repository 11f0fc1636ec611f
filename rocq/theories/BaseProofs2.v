(** BaseProofs2.v -- exact <-> historical Julian days (C05). *)
From Coq Require Import ZArith QArith Qround Qabs List Bool Lia Lqa Setoid Morphisms.
From Coq Require Import ZifyBool ZifyNat ZifyN.
From Verif Require Import Base Flt QUtil BaseModel GregModel SpecGreg SpecMisc GregProofs GregProofs2 MeeusProofs MeeusFloat BaseProofs.
Import ListNotations.
Local Open Scope Q_scope.
Ltac Zify.zify_post_hook ::= Z.div_mod_to_equations.

(** adding or subtracting up to twelve days is exact *)
Definition shiftable (rnd : Q -> Q) (x : Q) : Prop :=
  forall n, (-12 <= n <= 12)%Z -> rnd (x + inject_Z n) == x + inject_Z n.

Lemma shiftable_dyadic rnd z : Nearest rnd -> (Z.abs z <= 2 ^ 53 - 12 * 2 ^ 31)%Z -> shiftable rnd (z # 2147483648).
Proof.
  intros N Hz n Hn. apply (near_dyadic rnd N _ (z + n * 2147483648) (-31)).
  - change (2 ^ 53 - 12 * 2 ^ 31)%Z with 9007173484937216%Z in Hz. change (2 ^ 53)%Z with 9007199254740992%Z. lia.
  - change (2 ^ (-31)) with (1 # 2147483648). unfold Qeq, Qplus, Qmult, inject_Z; cbn [Qnum Qden]. lia.
Qed.
Lemma shiftable_idr x : shiftable idr x.
Proof. intros n _. reflexivity. Qed.

(** every threshold is a half-integer: work with the number of half days *)
Definition hd (x : Q) : Z := Qfloor (x * 2).
Lemma hd_lt x z : Qltb x (half z) = (hd x <? z)%Z.
Proof.
  unfold hd, half. pose proof (Qfloor_le (x * 2)) as A. pose proof (Qlt_floor (x * 2)) as B.
  rewrite inject_Z_plus in B. change (inject_Z 1) with 1 in B.
  destruct (Qfloor (x * 2) <? z)%Z eqn:E.
  - apply Qltb_lt. assert (L : (Qfloor (x * 2) + 1 <= z)%Z) by lia. toQ L. hz. qlra.
  - apply Qltb_ge. assert (L : (z <= Qfloor (x * 2))%Z) by lia. toQ L. hz. qlra.
Qed.
Lemma hd_le x z : Qleb (half z) x = (z <=? hd x)%Z.
Proof.
  destruct (z <=? hd x)%Z eqn:E.
  - apply Qleb_le. apply Qltb_ge. rewrite hd_lt. lia.
  - apply Qleb_gt. apply Qltb_lt. rewrite hd_lt. lia.
Qed.
Lemma hd_comp x y : x == y -> hd x = hd y.
Proof. intro E. unfold hd. apply Qfloor_comp. rewrite E. reflexivity. Qed.
Lemma hd_shift x n : hd (x + inject_Z n) = (hd x + 2 * n)%Z.
Proof.
  unfold hd. apply Qfloor_spec; pose proof (Qfloor_le (x * 2)) as A; pose proof (Qlt_floor (x * 2)) as B;
  rewrite inject_Z_plus in B; change (inject_Z 1) with 1 in B; qlra.
Qed.
Lemma hd_mono x y : x <= y -> (hd x <= hd y)%Z.
Proof. intro H. unfold hd. apply Qfloor_resp_le. lra. Qed.

(** integer versions *)
Fixpoint zdiff (h : Z) (l : list (Z * Z)) : Z :=
  match l with [] => 2%Z | (j, df) :: l' => if (h <? j)%Z then df else zdiff h l' end.
Lemma find_diff_z jd l : find_diff jd l = zdiff (hd jd) l.
Proof. induction l as [|[j d] l IH]; [reflexivity|]. cbn [find_diff zdiff]. rewrite hd_lt, IH. reflexivity. Qed.
Definition zinvalid (h : Z) : bool := existsb (fun s => (s <=? h) && (h <? s + 2))%Z invalid_days.
Lemma invalid_z jd : in_invalid_day jd = zinvalid (hd jd).
Proof.
  unfold in_invalid_day, zinvalid. induction invalid_days as [|s l IH]; [reflexivity|].
  cbn [existsb]. rewrite hd_le, hd_lt, IH. reflexivity.
Qed.
Definition zgap (h : Z) : bool := ((4598297 <=? h) && (h <? 4598317))%Z.

Local Open Scope Z_scope.
Lemma zdiff_m_cases h : let n := zdiff h meeus_breaks in
  (h < 3515283 /\ n = 0) \/
  (3515283 <= h < 3588331 /\ n = 1) \/
  (3588331 <= h < 3661379 /\ n = 2) \/
  (3661379 <= h < 3807477 /\ n = 3) \/
  (3807477 <= h < 3880525 /\ n = 4) \/
  (3880525 <= h < 3953573 /\ n = 5) \/
  (3953573 <= h < 4099671 /\ n = 6) \/
  (4099671 <= h < 4172719 /\ n = 7) \/
  (4172719 <= h < 4245767 /\ n = 8) \/
  (4245767 <= h < 4391865 /\ n = 9) \/
  (4391865 <= h < 4464913 /\ n = 10) \/
  (4464913 <= h < 4537961 /\ n = 11) \/
  (4537961 <= h < 4598297 /\ n = 12) \/
  (4598297 <= h /\ n = 2).
Proof.
  unfold meeus_breaks. cbn [zdiff]. cbv zeta.
  repeat (match goal with |- context [h <? ?b] => destruct (Z.ltb_spec h b) end; [lia|]).
  lia.
Qed.
Lemma zdiff_e_cases h : let n := zdiff h exact_breaks in
  (h < 3515283 /\ n = 0) \/
  (3515283 <= h < 3588333 /\ n = 1) \/
  (3588333 <= h < 3661383 /\ n = 2) \/
  (3661383 <= h < 3807483 /\ n = 3) \/
  (3807483 <= h < 3880533 /\ n = 4) \/
  (3880533 <= h < 3953583 /\ n = 5) \/
  (3953583 <= h < 4099683 /\ n = 6) \/
  (4099683 <= h < 4172733 /\ n = 7) \/
  (4172733 <= h < 4245783 /\ n = 8) \/
  (4245783 <= h < 4391883 /\ n = 9) \/
  (4391883 <= h < 4464933 /\ n = 10) \/
  (4464933 <= h < 4537983 /\ n = 11) \/
  (4537983 <= h < 4598321 /\ n = 12) \/
  (4598321 <= h /\ n = 2).
Proof.
  unfold exact_breaks. cbn [zdiff]. cbv zeta.
  repeat (match goal with |- context [h <? ?b] => destruct (Z.ltb_spec h b) end; [lia|]).
  lia.
Qed.
Ltac split_or H := repeat match type of H with _ \/ _ => destruct H as [H|H] end; destruct H as [H ->].
Lemma zdiff_m_range h : (0 <= zdiff h meeus_breaks <= 12)%Z.
Proof. pose proof (zdiff_m_cases h) as H. cbv zeta in H. set (n := zdiff h meeus_breaks) in *. clearbody n. split_or H; lia. Qed.
Lemma zdiff_e_range h : (0 <= zdiff h exact_breaks <= 12)%Z.
Proof. pose proof (zdiff_e_cases h) as H. cbv zeta in H. set (n := zdiff h exact_breaks) in *. clearbody n. split_or H; lia. Qed.

Ltac zdecide := repeat (match goal with
  | |- context [?h <? ?b] => first [rewrite (proj2 (Z.ltb_lt h b)) by lia | rewrite (proj2 (Z.ltb_ge h b)) by lia]
  | |- context [?h <=? ?b] => first [rewrite (proj2 (Z.leb_le h b)) by lia | rewrite (proj2 (Z.leb_gt h b)) by lia] end).

Lemma m_e h : zgap h = false -> 
  zdiff (h + 2 * zdiff h meeus_breaks) exact_breaks = zdiff h meeus_breaks /\ zinvalid (h + 2 * zdiff h meeus_breaks) = false.
Proof.
  intro G. assert (G' : h < 4598297 \/ 4598317 <= h) by (unfold zgap in G; lia). clear G.
  pose proof (zdiff_m_cases h) as H. cbv zeta in H.
  set (n := zdiff h meeus_breaks) in *. clearbody n.
  split_or H; unfold zinvalid, invalid_days, exact_breaks; cbn [zdiff existsb];
  (destruct G' as [G'|G']; [|]); try (exfalso; lia); zdecide; split; reflexivity.
Qed.
Lemma e_m h : zinvalid h = false ->
  zdiff (h - 2 * zdiff h exact_breaks) meeus_breaks = zdiff h exact_breaks /\ zgap (h - 2 * zdiff h exact_breaks) = false.
Proof.
  intro G.
  assert (G' : forall s, In s invalid_days -> h < s \/ s + 2 <= h).
  { intros s Hs. destruct ((s <=? h) && (h <? s + 2)) eqn:E; [|lia]. exfalso.
    assert (X : zinvalid h = true) by (apply existsb_exists; exists s; split; [exact Hs|exact E]). congruence. }
  clear G.
  pose proof (zdiff_e_cases h) as H. cbv zeta in H.
  set (n := zdiff h exact_breaks) in *. clearbody n.
  split_or H; unfold zgap, meeus_breaks; cbn [zdiff];
  try match type of H with ?a <= h < _ => pose proof (G' a ltac:(unfold invalid_days; cbn [In]; tauto)) end; clear G';
  zdecide; split; reflexivity.
Qed.
Lemma m_mono h h' : (h <= h')%Z -> zgap h' = false ->
  (zdiff h meeus_breaks <= zdiff h' meeus_breaks)%Z \/ (h < 4598297 /\ 4598317 <= h' /\ zdiff h' meeus_breaks = 2)%Z.
Proof.
  intros L G. assert (G' : h' < 4598297 \/ 4598317 <= h') by (unfold zgap in G; lia). clear G.
  pose proof (zdiff_m_cases h) as H. pose proof (zdiff_m_cases h') as H'. cbv zeta in H, H'.
  set (n := zdiff h meeus_breaks) in *. set (n' := zdiff h' meeus_breaks) in *. clearbody n n'.
  split_or H; split_or H'; lia.
Qed.
Local Open Scope Q_scope.

Lemma meeus_from_exact_z rnd jd : meeus_from_exact rnd jd =
  if zgap (hd jd) then Err ValueError else Ok (fadd rnd jd (inject_Z (zdiff (hd jd) meeus_breaks))).
Proof. unfold meeus_from_exact, zgap. rewrite hd_le, hd_lt, find_diff_z. reflexivity. Qed.
Lemma exact_from_meeus_z rnd jd : exact_from_meeus rnd jd =
  if zinvalid (hd jd) then Err ValueError else Ok (fsub rnd jd (inject_Z (zdiff (hd jd) exact_breaks))).
Proof. unfold exact_from_meeus. rewrite invalid_z, find_diff_z. reflexivity. Qed.

Lemma shift_add rnd x n : shiftable rnd x -> (0 <= n <= 12)%Z -> fadd rnd x (inject_Z n) == x + inject_Z n.
Proof. intros S H. apply S. lia. Qed.
Lemma shift_sub rnd x n : Proper (Qeq ==> Qeq) rnd -> shiftable rnd x -> (0 <= n <= 12)%Z -> fsub rnd x (inject_Z n) == x + inject_Z (- n).
Proof.
  intros P S H. unfold fsub. setoid_replace (x - inject_Z n) with (x + inject_Z (- n)) by (zpush; ring). apply S. lia.
Qed.

(** C05 *)
Lemma exact_meeus_inverse rnd jd j : Proper (Qeq ==> Qeq) rnd -> shiftable rnd jd -> meeus_from_exact rnd jd = Ok j ->
  exists e, exact_from_meeus rnd j = Ok e /\ e == jd.
Proof.
  intros P S H. rewrite meeus_from_exact_z in H. destruct (zgap (hd jd)) eqn:G; [discriminate|].
  pose proof (zdiff_m_range (hd jd)) as R. destruct (m_e _ G) as [A B].
  set (n := zdiff (hd jd) meeus_breaks) in *.
  assert (Ej : j == jd + inject_Z n).
  { assert (X : j = fadd rnd jd (inject_Z n)) by congruence. rewrite X. apply shift_add; assumption. }
  rewrite exact_from_meeus_z, (hd_comp _ _ Ej), hd_shift, B, A.
  eexists. split; [reflexivity|]. unfold fsub. rewrite Ej.
  setoid_replace (jd + inject_Z n - inject_Z n) with (jd + inject_Z 0) by (zconsts; ring).
  rewrite (S 0%Z ltac:(lia)). zconsts. ring.
Qed.
Lemma meeus_exact_inverse rnd jd j : Proper (Qeq ==> Qeq) rnd -> shiftable rnd jd -> exact_from_meeus rnd jd = Ok j ->
  exists e, meeus_from_exact rnd j = Ok e /\ e == jd.
Proof.
  intros P S H. rewrite exact_from_meeus_z in H. destruct (zinvalid (hd jd)) eqn:G; [discriminate|].
  pose proof (zdiff_e_range (hd jd)) as R. destruct (e_m _ G) as [A B].
  set (n := zdiff (hd jd) exact_breaks) in *.
  assert (Ej : j == jd + inject_Z (- n)).
  { assert (X : j = fsub rnd jd (inject_Z n)) by congruence. rewrite X. apply shift_sub; assumption. }
  rewrite meeus_from_exact_z, (hd_comp _ _ Ej), hd_shift. replace (hd jd + 2 * - n)%Z with (hd jd - 2 * n)%Z by lia.
  rewrite B, A.
  eexists. split; [reflexivity|]. unfold fadd. rewrite Ej.
  setoid_replace (jd + inject_Z (- n) + inject_Z n) with (jd + inject_Z 0) by (zpush; ring).
  rewrite (S 0%Z ltac:(lia)). zconsts. ring.
Qed.
Lemma meeus_gap_iff rnd jd : meeus_from_exact rnd jd = Err ValueError <-> 4598297 # 2 <= jd < 4598317 # 2.
Proof.
  rewrite meeus_from_exact_z. unfold zgap. rewrite <- hd_le, <- hd_lt. unfold half.
  destruct (Qleb (4598297 # 2) jd) eqn:A; destruct (Qltb jd (4598317 # 2)) eqn:B; cbn [andb];
  rewrite ?Qleb_le, ?Qleb_gt, ?Qltb_lt, ?Qltb_ge in *; split; intro H; try discriminate; try tauto; try reflexivity; lra.
Qed.
Lemma meeus_total rnd jd : (exists j, meeus_from_exact rnd jd = Ok j) \/ meeus_from_exact rnd jd = Err ValueError.
Proof. rewrite meeus_from_exact_z. destruct (zgap _); [right; reflexivity|left; eexists; reflexivity]. Qed.
Lemma meeus_increasing rnd a b x y : shiftable rnd a -> shiftable rnd b -> a < b ->
  meeus_from_exact rnd a = Ok x -> meeus_from_exact rnd b = Ok y -> x < y.
Proof.
  intros Sa Sb L Ha Hb. rewrite meeus_from_exact_z in Ha, Hb.
  destruct (zgap (hd a)) eqn:Ga; [discriminate|]. destruct (zgap (hd b)) eqn:Gb; [discriminate|].
  pose proof (zdiff_m_range (hd a)) as Ra. pose proof (zdiff_m_range (hd b)) as Rb.
  pose proof (m_mono _ _ (hd_mono a b ltac:(lra)) Gb) as M.
  set (n := zdiff (hd a) meeus_breaks) in *. set (k := zdiff (hd b) meeus_breaks) in *.
  assert (Ex : x == a + inject_Z n).
  { assert (X : x = fadd rnd a (inject_Z n)) by congruence. rewrite X. apply shift_add; assumption. }
  assert (Ey : y == b + inject_Z k).
  { assert (X : y = fadd rnd b (inject_Z k)) by congruence. rewrite X. apply shift_add; assumption. }
  rewrite Ex, Ey. destruct M as [M|(M1 & M2 & M3)].
  - toQ M. qlra.
  - assert (A : a < half 4598297) by (apply Qltb_lt; rewrite hd_lt; lia).
    assert (B : half 4598317 <= b) by (apply Qleb_le; rewrite hd_le; lia).
    destruct Ra as [_ Ra]. toQ Ra. toQ M3. unfold half in *. qlra.
Qed.
Lemma exact_increasing rnd a b x y : Proper (Qeq ==> Qeq) rnd -> shiftable rnd a -> shiftable rnd b -> a < b ->
  exact_from_meeus rnd a = Ok x -> exact_from_meeus rnd b = Ok y -> x < y.
Proof.
  intros P Sa Sb L Ha Hb. rewrite exact_from_meeus_z in Ha, Hb.
  destruct (zinvalid (hd a)) eqn:Ga; [discriminate|]. destruct (zinvalid (hd b)) eqn:Gb; [discriminate|].
  pose proof (zdiff_e_range (hd a)) as Ra. pose proof (zdiff_e_range (hd b)) as Rb.
  destruct (e_m _ Ga) as [A1 A2]. destruct (e_m _ Gb) as [B1 B2].
  set (n := zdiff (hd a) exact_breaks) in *. set (k := zdiff (hd b) exact_breaks) in *.
  assert (Ex : x == a + inject_Z (- n)).
  { assert (X : x = fsub rnd a (inject_Z n)) by congruence. rewrite X. apply shift_sub; assumption. }
  assert (Ey : y == b + inject_Z (- k)).
  { assert (X : y = fsub rnd b (inject_Z k)) by congruence. rewrite X. apply shift_sub; assumption. }
  destruct (Qlt_le_dec x y) as [C|C]; [exact C|]. exfalso.
  rewrite Ex, Ey in C.
  assert (Ua : meeus_from_exact idr (a + inject_Z (- n)) = Ok (fadd idr (a + inject_Z (- n)) (inject_Z n))).
  { rewrite meeus_from_exact_z, hd_shift. replace (hd a + 2 * - n)%Z with (hd a - 2 * n)%Z by lia. rewrite A1, A2. reflexivity. }
  assert (Ub : meeus_from_exact idr (b + inject_Z (- k)) = Ok (fadd idr (b + inject_Z (- k)) (inject_Z k))).
  { rewrite meeus_from_exact_z, hd_shift. replace (hd b + 2 * - k)%Z with (hd b - 2 * k)%Z by lia. rewrite B1, B2. reflexivity. }
  destruct (Qle_lt_or_eq _ _ C) as [LT|EQ].
  - pose proof (meeus_increasing idr _ _ _ _ (shiftable_idr _) (shiftable_idr _) LT Ub Ua) as X.
    unfold fadd, idr in X. zpush. lra.
  - assert (D : n = k).
    { assert (H : (hd a - 2 * n)%Z = (hd b - 2 * k)%Z).
      { pose proof (hd_comp _ _ EQ) as X. rewrite !hd_shift in X. lia. }
      rewrite H in A1. congruence. }
    rewrite D in EQ. lra.
Qed.
Local Open Scope Z_scope.
(** the same civil date in both day counts *)
Definition kk (m d : Z) := 306001 * (sM m + 1) / 10000 + d.
Lemma kk_bounds y m d : 1 <= m <= 12 -> 1 <= d <= mlen (is_leap_g false y) m ->
  123 <= kk m d <= 488 /\ (kk m d = 488 -> (sY y m + 1) mod 4 = 0 /\ ((sY y m + 1) mod 100 <> 0 \/ (sY y m + 1) mod 400 = 0)).
Proof.
  intros Hm Hd.
  assert (L : is_leap_g false y = true -> y mod 4 = 0 /\ (y mod 100 <> 0 \/ y mod 400 = 0)).
  { intro H. apply is_leap_g_rule in H. unfold leap_rule in H. rewrite <- !Z.mod_divide in H by lia. tauto. }
  unfold kk, sM, sY.
  destruct (is_leap_g false y);
    (assert (Hm' := Hm); months Hm';
     match type of Hd with context [mlen ?b ?m] => let a' := eval vm_compute in (mlen b m) in change (mlen b m) with a' in Hd end;
     cbn -[Z.div Z.modulo Z.mul Z.add Z.sub];
     try (assert (L' := L eq_refl));
     repeat match goal with |- context [306001 * (?x) / 10000] => let v := eval vm_compute in (306001 * x / 10000) in change (306001 * x / 10000) with v end;
     replace (y - 1 + 1) with y by lia; lia).
Qed.

Lemma gday_kk y m d : 1 <= m <= 12 ->
  gday false y m d = 1461 * sY y m / 4 - sY y m / 100 + sY y m / 400 + kk m d - 428.
Proof.
  intros Hm.
  assert (L : is_leap_g false y = ((y mod 4 =? 0) && (negb (y mod 100 =? 0) || (y mod 400 =? 0)))%bool).
  { unfold is_leap_g, b2z. destruct (y mod 4 =? 0) eqn:?, (y mod 100 =? 0) eqn:?, (y mod 400 =? 0) eqn:?; cbn [negb orb andb]; lia. }
  unfold gday, kk, sM, sY, days_in_years.
  destruct (is_leap_g false y) eqn:E; symmetry in L;
  (assert (Hm' := Hm); months Hm';
   match goal with |- context [mbefore ?b ?m] => let a' := eval vm_compute in (mbefore b m) in change (mbefore b m) with a' end;
     cbn -[Z.div Z.modulo Z.mul Z.add Z.sub];
     repeat match goal with |- context [306001 * (?x) / 10000] => let v := eval vm_compute in (306001 * x / 10000) in change (306001 * x / 10000) with v end; lia).
Qed.

Lemma after_hd y m d : 1 <= m <= 12 -> 1 <= d <= mlen (is_leap_g false y) m -> gap y m d = false ->
  (after (sY y m) (sM m) d = true -> 2299158 <= gday false y m d + 1721422) /\
  (after (sY y m) (sM m) d = false -> gday false y m d + 1721422 < 2299148 /\ sY y m <= 1582).
Proof.
  intros Hm Hd Hg.
  destruct (kk_bounds y m d Hm Hd) as [K1 K2]. rewrite (gday_kk y m d Hm).
  set (Y := sY y m) in *. set (M := sM m).
  assert (HM : 3 <= M <= 14) by (subst M; unfold sM; destruct (m <=? 2) eqn:?; lia).
  split; intro A.
  - destruct (Z.eq_dec Y 1582) as [E|E].
    + rewrite E in *. change (1461 * 1582 / 4) with 577825. change (1582 / 100) with 15. change (1582 / 400) with 3.
      assert (K : 351 <= kk m d); [|lia].
      unfold kk. fold M. unfold after in A. assert (X : (10 < M \/ (M = 10 /\ 15 <= d))) by lia.
      destruct X as [X|[X1 X2]]; [assert (367 <= 306001 * (M + 1) / 10000) by lia; lia|].
      rewrite X1. change (306001 * (10 + 1) / 10000) with 336. lia.
    + assert (1583 <= Y) by (unfold after in A; lia). clear A K2. lia.
  - destruct (Z_lt_ge_dec Y 1582) as [L|L].
    + split; [|lia]. clear A Hg.
      assert (k488 : kk m d = 488 -> (Y + 1) mod 4 = 0) by tauto. clear K2. lia.
    + assert (EY : Y = 1582) by (unfold after in A; lia). rewrite EY in *.
      change (1461 * 1582 / 4) with 577825. change (1582 / 100) with 15. change (1582 / 400) with 3.
      assert (kk m d <= 340); [|lia].
      unfold kk. fold M. unfold after in A. unfold gap in Hg.
      assert (X : M < 10 \/ (M = 10 /\ d < 15)) by lia.
      destruct X as [X|[X1 X2]].
      * assert (306001 * (M + 1) / 10000 <= 306) by lia.
        assert (d <= 31) by (pose proof (mlen_range (is_leap_g false y) m Hm); lia). lia.
      * rewrite X1. change (306001 * (10 + 1) / 10000) with 336.
        assert (d < 5); [|lia]. subst M Y. unfold sM, sY in *. destruct (m <=? 2) eqn:?; lia.
Qed.

Lemma same_date_z y m d e : 1 <= m <= 12 -> 1 <= d <= mlen (is_leap_g false y) m -> gap y m d = false ->
  (-100 < y \/ (y = -100 /\ 3 <= m)) -> 0 <= e <= 1 ->
  zgap (2 * gday false y m d + 3442845 + e) = false /\
  zm y m d = gday false y m d + 1721423 + zdiff (2 * gday false y m d + 3442845 + e) meeus_breaks.
Proof.
  intros Hm Hd Hg Hy He.
  destruct (kk_bounds y m d Hm Hd) as [K1 K2].
  destruct (after_hd y m d Hm Hd Hg) as [A1 A2].
  assert (HY : -100 <= sY y m) by (unfold sY; destruct (m <=? 2) eqn:?; lia).
  assert (k488 : kk m d = 488 -> (sY y m + 1) mod 4 = 0 /\ ((sY y m + 1) mod 100 <> 0 \/ (sY y m + 1) mod 400 = 0)) by tauto. clear K2.
  assert (Ez : zm y m d = 1461 * sY y m / 4 + kk m d + mB (sY y m) (sM m) d + 1720995) by (unfold zm, kk; lia).
  pose proof (gday_kk y m d Hm) as G.
  split.
  { unfold zgap. destruct (after (sY y m) (sM m) d); [specialize (A1 eq_refl)|specialize (A2 eq_refl)]; lia. }
  pose proof (zdiff_m_cases (2 * gday false y m d + 3442845 + e)) as H. cbv zeta in H.
  set (n := zdiff _ meeus_breaks) in *. clearbody n.
  unfold mB in Ez. set (g := gday false y m d) in *. set (Y := sY y m) in *. set (k := kk m d) in *.
  destruct (after Y (sM m) d).
  - specialize (A1 eq_refl). assert (n = 2) by (clear -H A1 He; clearbody g; lia). subst n. clear H A1 A2. clearbody g Y k. lia.
  - specialize (A2 eq_refl). destruct A2 as [A2 A3]. clear A1.
    assert (Hn : n = Y / 100 - Y / 400); [|clear H; clearbody g Y k; lia].
    clear Ez Hg Hd Hy. clearbody g Y k. 
    split_or H; try lia.
Qed.

(** the twelve days without an exact JD are the 29 Februaries that exist only in the Julian calendar *)
Lemma julian_only_cases y : julian_only_leap y ->
  In y [100;200;300;500;600;700;900;1000;1100;1300;1400;1500].
Proof.
  intros (A & B & C). rewrite <- Z.mod_divide in B by lia. rewrite <- Z.mod_divide in C by lia.
  assert (E : y = 100 * (y / 100)) by lia. set (a := y / 100) in *. assert (1 <= a <= 15) by (subst a; lia).
  clearbody a. subst y. assert (a mod 4 <> 0) by lia. cbn [In].
  assert (a = 1 \/ a = 2 \/ a = 3 \/ a = 5 \/ a = 6 \/ a = 7 \/ a = 9 \/ a = 10 \/ a = 11 \/ a = 13 \/ a = 14 \/ a = 15) by lia.
  lia.
Qed.
Lemma julian_only_back y : In y [100;200;300;500;600;700;900;1000;1100;1300;1400;1500] -> julian_only_leap y.
Proof.
  intro H. unfold julian_only_leap. cbn [In] in H.
  repeat (destruct H as [<-|H]; [split; [lia|split; [rewrite <- Z.mod_divide by lia; reflexivity|rewrite <- Z.mod_divide by lia; discriminate]]|]).
  contradiction.
Qed.

Lemma zinvalid_iff h : zinvalid h = true <-> exists y, julian_only_leap y /\ 2 * zm y 2 28 + 1 <= h < 2 * zm y 2 28 + 3.
Proof.
  unfold zinvalid. rewrite existsb_exists. split.
  - intros [s [I H]]. 
    assert (X : exists y, In y [100;200;300;500;600;700;900;1000;1100;1300;1400;1500] /\ s = 2 * zm y 2 28 + 1).
    { unfold invalid_days in I. cbn [In] in I.
      repeat (destruct I as [<-|I]; [
        first [exists 100; split; [cbn; tauto|reflexivity] | exists 200; split; [cbn; tauto|reflexivity] | exists 300; split; [cbn; tauto|reflexivity]
             | exists 500; split; [cbn; tauto|reflexivity] | exists 600; split; [cbn; tauto|reflexivity] | exists 700; split; [cbn; tauto|reflexivity]
             | exists 900; split; [cbn; tauto|reflexivity] | exists 1000; split; [cbn; tauto|reflexivity] | exists 1100; split; [cbn; tauto|reflexivity]
             | exists 1300; split; [cbn; tauto|reflexivity] | exists 1400; split; [cbn; tauto|reflexivity] | exists 1500; split; [cbn; tauto|reflexivity]] |]).
      contradiction. }
    destruct X as [y [Hy ->]]. exists y. split; [apply julian_only_back, Hy|]. lia.
  - intros [y [Hy H]]. exists (2 * zm y 2 28 + 1). split; [|lia].
    apply julian_only_cases in Hy. cbn [In] in Hy. clear H.
    repeat (destruct Hy as [<-|Hy]; [vm_compute; tauto|]). contradiction.
Qed.

Local Open Scope Q_scope.
Lemma exact_err_iff rnd jd alt : Nearest rnd ->
  (exact_from_meeus rnd jd = Err ValueError <->
   exists y j28, julian_only_leap y /\ jd_from_gregorian_date rnd false alt y 2 28 0 0 0 = Ok j28 /\ j28 + 1 <= jd < j28 + 2).
Proof.
  intro N. rewrite exact_from_meeus_z.
  assert (X : forall y, julian_only_leap y -> exists j28, jd_from_gregorian_date rnd false alt y 2 28 0 0 0 = Ok j28 /\ j28 == inject_Z (zm y 2 28) - (1#2)).
  { intros y Hy. destruct (meeus_enc rnd y 2 28 0 28 alt N) as [j [E1 E2]].
    - destruct Hy. lia.
    - lia.
    - reflexivity.
    - apply valid_gdate_iff. split; [lia|]. pose proof (mlen_range (is_leap_g false y) 2). lia.
    - left. intros (_ & U & _). discriminate.
    - exists j. split; [exact E1|]. rewrite E2. lra. }
  assert (Y : forall y, (2 * zm y 2 28 + 1 <= hd jd < 2 * zm y 2 28 + 3)%Z <-> inject_Z (zm y 2 28) + (1#2) <= jd < inject_Z (zm y 2 28) + (3#2)).
  { intro y. set (z := zm y 2 28). assert (A : (2 * z + 1 <=? hd jd)%Z = Qleb (inject_Z z + (1#2)) jd).
    { rewrite <- hd_le. apply Qleb_comp'; [|reflexivity]. unfold half. hz. qlra. }
    assert (B : (hd jd <? 2 * z + 3)%Z = Qltb jd (inject_Z z + (3#2))).
    { rewrite <- hd_lt. apply Qltb_comp; [reflexivity|]. unfold half. hz. qlra. }
    rewrite <- Z.leb_le, <- Z.ltb_lt, A, B, Qleb_le, Qltb_lt. tauto. }
  destruct (zinvalid (hd jd)) eqn:E.
  - split; [|reflexivity]. intros _. apply zinvalid_iff in E. destruct E as [y [Hy H]].
    destruct (X y Hy) as [j28 [E1 E2]]. exists y, j28. split; [exact Hy|]. split; [exact E1|].
    apply Y in H. rewrite E2. lra.
  - split; [discriminate|]. intros (y & j28 & Hy & E1 & H). exfalso.
    destruct (X y Hy) as [j' [E1' E2]]. assert (j' = j28) by congruence. subst j'. rewrite E2 in H.
    assert (zinvalid (hd jd) = true); [|congruence]. apply zinvalid_iff. exists y. split; [exact Hy|]. apply Y. lra.
Qed.

Lemma same_date rnd y m d k alt : Nearest rnd -> (y <= 1000000)%Z -> (0 <= k < 4096)%Z ->
  (-100 < y \/ (y = -100 /\ 3 <= m))%Z ->
  valid_gdate (leap_rule false) y m d -> ~ in_reform_gap y m d ->
  exists je jm j, jd_from_gregorian_date rnd true false y m (inject_Z d + (k # 4096)) 0 0 0 = Ok je /\
    jd_from_gregorian_date rnd false alt y m (inject_Z d + (k # 4096)) 0 0 0 = Ok jm /\
    meeus_from_exact rnd je = Ok j /\ j == jm.
Proof.
  intros N Hy Hk Hlo Hv Hg.
  destruct (enc_float rnd false y m d k _ N ltac:(lia) Hv Hk (Qeq_refl _)) as [je [E1 E2]].
  destruct (meeus_enc rnd y m d k _ alt N ltac:(lia) Hk (Qeq_refl _) Hv (or_introl Hg)) as [jm [E3 E4]].
  pose proof Hv as Hv'. apply valid_gdate_iff in Hv'. destruct Hv' as [Hm Hd].
  assert (G : gap y m d = false) by (unfold gap; unfold in_reform_gap in Hg; lia).
  assert (P : Proper (Qeq ==> Qeq) rnd) by (intros a b E; apply near_proper; [exact N|exact E]).
  set (g := gday false y m d) in *.
  assert (He : exists e, (0 <= e <= 1)%Z /\ hd je = (2 * g + 3442845 + e)%Z).
  { pose proof (k4096_range k Hk) as R.
    exists (if (k <? 2048)%Z then 0 else 1)%Z. split; [destruct (k <? 2048)%Z; lia|].
    rewrite (hd_comp _ _ E2). unfold hd, GREG0.
    assert (Kq : k # 4096 == inject_Z k * (1 # 4096)) by (unfold Qeq, Qmult, inject_Z; cbn; lia).
    destruct (k <? 2048)%Z eqn:E; apply Qfloor_spec; rewrite Kq in *; zpush.
    - lra.
    - assert (L : (k <= 2047)%Z) by lia. toQ L. qlra.
    - assert (L : (2048 <= k)%Z) by lia. toQ L. qlra.
    - lra. }
  destruct He as (e & He & Hh).
  destruct (same_date_z y m d e Hm Hd G Hlo He) as [S1 S2]. fold g in S1, S2.
  exists je, jm. rewrite meeus_from_exact_z, Hh, S1.
  eexists. split; [exact E1|]. split; [exact E3|]. split; [reflexivity|].
  set (n := zdiff (2 * g + 3442845 + e) meeus_breaks) in *.
  pose proof (zdiff_m_range (2 * g + 3442845 + e)) as Rn. fold n in Rn. clearbody n.
  unfold fadd. rewrite E2, E4, S2. unfold GREG0.
  assert (Eq : inject_Z g + (3442845 # 2) + (k # 4096) + inject_Z n == ((2 * g + 3442845 + 2 * n) # 2) + (k # 4096)).
  { rewrite (half_Z (2 * g + 3442845 + 2 * n)). qlra. }
  rewrite Eq. rewrite (dyadic_fix rnd N _ k); [|unfold K0|exact Hk].
  - rewrite <- Eq. qlra.
  - subst g. unfold gday. pose proof (diy_bounds false (y - 1)). pose proof (mbefore_range (is_leap_g false y) m Hm).
    pose proof (mlen_range (is_leap_g false y) m Hm). clear - H H0 H1 Rn Hy Hlo Hd. lia.
Qed.
