From Coq Require Import ZArith QArith Qround Qabs List Bool Lia Lqa Setoid Morphisms.
From Coq Require Import ZifyBool ZifyNat ZifyN.
From Verif Require Import Base QUtil Flt BaseModel GregModel SpecGreg.
Import ListNotations.
Local Open Scope Z_scope.
Ltac Zify.zify_post_hook ::= Z.div_mod_to_equations.

Lemma is_leap_g_rule alt y : is_leap_g alt y = true <-> leap_rule alt y.
Proof.
  unfold is_leap_g, leap_rule, b2z. destruct alt.
  - rewrite <- !Z.mod_divide by lia.
    destruct (y mod 4 =? 0) eqn:?, (y mod 128 =? 0) eqn:?; cbn [negb]; lia.
  - rewrite <- !Z.mod_divide by lia.
    destruct (y mod 4 =? 0) eqn:?, (y mod 100 =? 0) eqn:?, (y mod 400 =? 0) eqn:?; cbn [negb]; lia.
Qed.

Lemma diy_succ alt y : days_in_years alt (y + 1) = days_in_years alt y + 365 + b2z (is_leap_g alt (y + 1)).
Proof.
  unfold days_in_years, is_leap_g, b2z. destruct alt.
  - destruct ((y + 1) mod 4 =? 0) eqn:E1, ((y+1) mod 128 =? 0) eqn:E2; cbn [negb];
    repeat match goal with |- context[if ?b then _ else _] => let v := eval vm_compute in b in change b with v end; cbv iota; lia.
  - destruct ((y + 1) mod 4 =? 0) eqn:E1, ((y+1) mod 100 =? 0) eqn:E2, ((y+1) mod 400 =? 0) eqn:E3; cbn [negb];
    repeat match goal with |- context[if ?b then _ else _] => let v := eval vm_compute in b in change b with v end; cbv iota; lia.
Qed.

(** Month lengths *)
Definition mlen (leap : bool) (m : Z) : Z := nth (Z.to_nat (m - 1)) (month_days leap) 0.
Definition mbefore (leap : bool) (m : Z) : Z := zsum (slice_to (month_days leap) (m - 1)).

Lemma month_cases m : 1 <= m <= 12 ->
  m = 1 \/ m = 2 \/ m = 3 \/ m = 4 \/ m = 5 \/ m = 6 \/ m = 7 \/ m = 8 \/ m = 9 \/ m = 10 \/ m = 11 \/ m = 12.
Proof. lia. Qed.

Ltac months H :=
  apply month_cases in H;
  destruct H as [H|[H|[H|[H|[H|[H|[H|[H|[H|[H|[H|H]]]]]]]]]]]; subst.

Lemma month_len_mlen (P : Prop) (b : bool) m n : (b = true <-> P) ->
  (month_len P m n <-> (1 <= m <= 12 /\ n = mlen b m)).
Proof.
  intro HP. split.
  - intros [m' Hi | m' Hi | Hl | Hl].
    + cbn [In] in Hi. repeat (destruct Hi as [<-|Hi]); try contradiction; split; try lia; destruct b; reflexivity.
    + cbn [In] in Hi. repeat (destruct Hi as [<-|Hi]); try contradiction; split; try lia; destruct b; reflexivity.
    + apply HP in Hl. subst b. split; [lia|reflexivity].
    + destruct b; [exfalso; apply Hl, HP; reflexivity|]. split; [lia|reflexivity].
  - intros [Hm ->]. months Hm;
    try (replace (mlen b _) with 31 by (destruct b; reflexivity); apply ml31; cbn [In]; tauto);
    try (replace (mlen b _) with 30 by (destruct b; reflexivity); apply ml30; cbn [In]; tauto).
    destruct b.
    + apply (ml29 P). apply HP. reflexivity.
    + apply (ml28 P). intro C. apply HP in C. discriminate.
Qed.

Lemma mlen_range b m : 1 <= m <= 12 -> 28 <= mlen b m <= 31.
Proof. intro H. months H; destruct b; vm_compute; split; discriminate. Qed.

Lemma mbefore_succ b m : 1 <= m < 12 -> mbefore b (m + 1) = mbefore b m + mlen b m.
Proof. intros [H1 H2]. assert (H : 1 <= m <= 12) by lia. months H; try lia; destruct b; reflexivity. Qed.

Lemma mbefore_range b m : 1 <= m <= 12 -> 0 <= mbefore b m <= 335.
Proof. intro H. months H; destruct b; vm_compute; split; discriminate. Qed.

Lemma mbefore_total b m : 1 <= m <= 12 -> mbefore b m + mlen b m <= 365 + b2z b.
Proof. intro H. months H; destruct b; vm_compute; discriminate. Qed.

Lemma mbefore_12 b : mbefore b 12 + 31 = 365 + b2z b.
Proof. destruct b; reflexivity. Qed.
Lemma mbefore_1 b : mbefore b 1 = 0.
Proof. destruct b; reflexivity. Qed.

Lemma valid_gdate_iff alt y m d :
  valid_gdate (leap_rule alt) y m d <-> (1 <= m <= 12 /\ 1 <= d <= mlen (is_leap_g alt y) m).
Proof.
  unfold valid_gdate. split.
  - intros [n [Hn Hd]]. apply (month_len_mlen _ _ _ _ (is_leap_g_rule alt y)) in Hn.
    destruct Hn as [Hm ->]. tauto.
  - intros [Hm Hd]. exists (mlen (is_leap_g alt y) m). split; [|exact Hd].
    apply (month_len_mlen _ _ _ _ (is_leap_g_rule alt y)). tauto.
Qed.

(** * Rounding that is exact on the values of interest *)
Local Open Scope Q_scope.

Lemma diy_bounds alt y :
  (3652421 * y - 31 * Z.abs y - 30000 <= 10000 * days_in_years alt y <= 3652425 * y + 31 * Z.abs y + 30000)%Z.
Proof. unfold days_in_years. destruct alt; cbn -[Z.div Z.mul Z.add Z.sub Z.abs]; lia. Qed.

Lemma diy_mono alt a b : (a <= b)%Z -> (days_in_years alt b >= days_in_years alt a + 365 * (b - a))%Z.
Proof.
  intro H. replace b with (a + Z.of_nat (Z.to_nat (b - a)))%Z by lia.
  induction (Z.to_nat (b - a)) as [|n IH]; [replace (a + Z.of_nat 0)%Z with a by lia; lia|].
  replace (a + Z.of_nat (S n))%Z with (a + Z.of_nat n + 1)%Z by lia. rewrite diy_succ.
  unfold b2z. destruct (is_leap_g alt _); lia.
Qed.

Lemma diy_hi alt y : (10000000 * days_in_years alt y <= 3652425000 * y + 10000000 + (if alt then - 3125 * y else 0))%Z.
Proof. unfold days_in_years. destruct alt; cbn -[Z.div Z.mul Z.add Z.sub]; lia. Qed.

Lemma diy_lo alt y : (10000000 * days_in_years alt y >= 3652425000 * y - 30000000 + (if alt then - 3125 * y else 0))%Z.
Proof. unfold days_in_years. destruct alt; cbn -[Z.div Z.mul Z.add Z.sub]; lia. Qed.

Lemma diy_century y : (y mod 100 = 0 -> y mod 400 <> 0 -> 10000 * days_in_years false y <= 3652425 * y - 2500)%Z.
Proof. unfold days_in_years. cbn -[Z.div Z.mul Z.add Z.sub Z.modulo]. lia. Qed.

(** month search over integers *)
Fixpoint gmonthZ (n d month : Z) (l : list Z) : Z * Z :=
  match l with
  | [] => ((month - 1)%Z, 0%Z)
  | ds :: l' =>
      if (d + ds <? n)%Z then gmonthZ n (d + ds)%Z (month + 1)%Z l' else (month, (n - d)%Z)
  end.

Lemma gmonthZ_in b m n : (1 <= m <= 12)%Z -> (mbefore b m < n <= mbefore b m + mlen b m)%Z ->
  gmonthZ n 0 1 (month_days b) = (m, (n - mbefore b m)%Z).
Proof.
  intros Hm Hn. unfold month_days.
  months Hm; destruct b;
  repeat match type of Hn with
  | context [mbefore ?b ?m] => let a' := eval vm_compute in (mbefore b m) in change (mbefore b m) with a' in *
  | context [mlen ?b ?m] => let a' := eval vm_compute in (mlen b m) in change (mlen b m) with a' in *
  end;
  unfold b2z; cbn [gmonthZ];
  repeat match goal with |- context [(?u <? n)%Z] =>
     first [ replace (u <? n)%Z with true by lia | replace (u <? n)%Z with false by lia ]; cbv iota end;
  f_equal; lia.
Qed.

Lemma gmonthZ_low b n : (n <= 1)%Z -> gmonthZ n 0 1 (month_days b) = (1%Z, n).
Proof.
  intro Hn. unfold month_days. cbn [gmonthZ]. replace (0 + 31 <? n)%Z with false by lia. f_equal; lia.
Qed.

Lemma month_days_bound b e : In e (month_days b) -> (0 <= e <= 31)%Z.
Proof. unfold month_days. cbn [In]. intro H. destruct b; unfold b2z in H; lia. Qed.

Lemma month_days_len b : length (month_days b) = 12%nat.
Proof. reflexivity. Qed.

Definition gday (alt : bool) (y m D : Z) : Z := (days_in_years alt (y - 1) + mbefore (is_leap_g alt y) m + D)%Z.

Section Exact.
Variables (rnd : Q -> Q) (dl : Q) (K : Z).
Hypothesis Hp : Proper (Qeq ==> Qeq) rnd.
(** fraction [dl] of a day, on the decimal grid of 12 places *)
Hypothesis Hdl : 0 <= dl < 1.
Hypothesis Hgrid : exists k, dl * inject_Z (10 ^ 12) == inject_Z k.
Hypothesis Hex0 : forall z, (Z.abs z <= K)%Z -> rnd (z # 2) == (z # 2).
Hypothesis Hex : forall z, (Z.abs z <= K)%Z -> rnd ((z # 2) + dl) == (z # 2) + dl.

Local Instance rnd_proper : Proper (Qeq ==> Qeq) rnd := Hp.
Local Instance round12_proper : Proper (Qeq ==> Qeq) (round12 rnd).
Proof. intros a b E. unfold round12, fround. rewrite E. reflexivity. Qed.

(** values z/2 and z/2 + dl *)
Definition V0 (x : Q) := exists z, (Z.abs z <= K)%Z /\ x == (z # 2).
Definition Vd (x : Q) := exists z, (Z.abs z <= K)%Z /\ x == (z # 2) + dl.

Lemma V0_ex x : V0 x -> rnd x == x.
Proof. intros [z [B E]]. rewrite E. apply Hex0, B. Qed.
Lemma Vd_ex x : Vd x -> rnd x == x.
Proof. intros [z [B E]]. rewrite E. apply Hex, B. Qed.
Lemma V0_intro z x : (Z.abs z <= K)%Z -> x == (z # 2) -> V0 x.
Proof. intros; exists z; auto. Qed.
Lemma Vd_intro z x : (Z.abs z <= K)%Z -> x == (z # 2) + dl -> Vd x.
Proof. intros; exists z; auto. Qed.

Lemma round12_Vd x : Vd x -> round12 rnd x == x.
Proof.
  intros [z [B E]]. unfold round12, fround.
  assert (G : qround 12 x == x).
  { destruct Hgrid as [k Hk]. apply (qround_grid _ _ (z * (10^12/2) + k)).
    rewrite E, inject_Z_plus, inject_Z_mult, <- Hk, half_Z.
    assert (T : inject_Z (10^12/2) == inject_Z (10^12) * (1#2)) by reflexivity. rewrite T. ring. }
  rewrite G. apply Vd_ex. exists z; auto.
Qed.
Lemma round12_V0 x : V0 x -> round12 rnd x == x.
Proof.
  intros [z [B E]]. unfold round12, fround.
  assert (G : qround 12 x == x).
  { apply (qround_grid _ _ (z * (10^12/2))).
    rewrite E, inject_Z_mult, half_Z.
    assert (T : inject_Z (10^12/2) == inject_Z (10^12) * (1#2)) by reflexivity. rewrite T. ring. }
  rewrite G. apply V0_ex. exists z; auto.
Qed.

Lemma fmod1_V x : V0 x \/ Vd x -> (2 <= K)%Z -> fmod1 rnd x == x - inject_Z (Qfloor x).
Proof.
  intros Hx HK. unfold fmod1. set (r := x - inject_Z (Qtrunc x)). cbv zeta.
  pose proof (Qfloor_le x) as F1. pose proof (Qlt_floor x) as F2.
  pose proof (Qle_ceiling x) as C1. pose proof (Qceiling_lt x) as C2.
  unfold Qtrunc in r. destruct (Qleb 0 x) eqn:E.
  - assert (Qltb r 0 = false) as ->; [|reflexivity]. apply Qltb_ge. subst r. lra.
  - apply Qleb_gt in E. destruct (Qltb r 0) eqn:G; subst r.
    + apply Qltb_lt in G.
      assert (FC : (Qceiling x = Qfloor x + 1)%Z).
      { apply Z.le_antisymm; [byQ|].
        destruct (Z_le_gt_dec (Qfloor x + 1) (Qceiling x)) as [L|L]; [exact L|].
        assert (L' : (Qceiling x <= Qfloor x)%Z) by lia. toQ L'. qlra. }
      assert (R : x - inject_Z (Qceiling x) + 1 == x - inject_Z (Qfloor x)).
      { rewrite FC. qlra. }
      rewrite R.
      destruct Hx as [[z [B Ez]]|[z [B Ez]]].
      * apply V0_ex. rewrite half_Z in Ez. exists (z - 2 * Qfloor x)%Z. split.
        -- assert (A : (z - 2 * Qfloor x <= 2)%Z) by byQ.
           assert (A' : (0 <= z - 2 * Qfloor x)%Z) by byQ. lia.
        -- hz. qlra.
      * apply Vd_ex. rewrite half_Z in Ez. exists (z - 2 * Qfloor x)%Z. split.
        -- assert (A : (z - 2 * Qfloor x <= 2)%Z) by byQ.
           assert (A' : (-2 <= z - 2 * Qfloor x)%Z) by byQ. lia.
        -- hz. qlra.
    + apply Qltb_ge in G.
      assert (A : inject_Z (Qceiling x) == x) by lra.
      assert (A' : Qfloor x = Qceiling x) by (rewrite <- A, Qfloor_Z at 1; reflexivity).
      rewrite A'. lra.
Qed.

Hypothesis HK : (10000000000 <= K)%Z.

Lemma rnd0 : rnd 0 == 0.
Proof. apply V0_ex. apply (V0_intro 0); [lia|reflexivity]. Qed.

Lemma Qfloor_Zd z : Qfloor (inject_Z z + dl) = z.
Proof. apply Qfloor_spec; zpush; lra. Qed.

Lemma Vd_int z x : (2 * Z.abs z <= K)%Z -> x == inject_Z z + dl -> Vd x.
Proof. intros B E. apply (Vd_intro (2 * z)); [lia|]. rewrite twice_half. exact E. Qed.
Lemma V0_int z x : (2 * Z.abs z <= K)%Z -> x == inject_Z z -> V0 x.
Proof. intros B E. apply (V0_intro (2 * z)); [lia|]. rewrite twice_half. exact E. Qed.

Lemma check_greg_ok y m D q :
  (1 <= m <= 12)%Z -> (1 <= D <= mlen (is_leap_g false y) m)%Z -> q == inject_Z D + dl ->
  check_greg rnd false y m q 0 0 0 = Ok tt.
Proof.
  intros Hm Hd Hq. unfold check_greg. cbn [andb].
  rewrite (Z.abs_eq m) by lia.
  assert (A : (1 <=? m)%Z && (m <=? 12)%Z = true) by lia. rewrite A. cbn [passert bind].
  assert (Aq : Qabs q == inject_Z D + dl).
  { rewrite Hq. apply Qabs_pos. destruct Hd as [Hd _]. toQ Hd. qlra. }
  rewrite Aq, Qfloor_Zd.
  assert (B : (nth (Z.to_nat (m - 1)) MONTHS 0 + (if (m =? 2)%Z then b2z (is_leap_g false y) else 0) = mlen (is_leap_g false y) m)%Z).
  { unfold mlen. months Hm; destruct (is_leap_g false y); reflexivity. }
  rewrite B. assert (C : (1 <=? D)%Z && (D <=? mlen (is_leap_g false y) m)%Z = true) by lia. rewrite C.
  reflexivity.
Qed.



Lemma jd_exact_ok alt y m D q : (-1000000 <= y <= 1000000)%Z \/ (1000 * Z.abs y + 10000000 <= K)%Z ->
  (1 <= m <= 12)%Z -> (1 <= D <= 31)%Z -> q == inject_Z D + dl ->
  jd_exact rnd alt y m q == inject_Z (gday alt y m D) + GREG0 + dl.
Proof.
  intros Hy Hm HD Hq. unfold jd_exact. cbv zeta.
  pose proof (mbefore_range (is_leap_g alt y) m Hm) as HB.
  pose proof (diy_bounds alt (y-1)) as HDb.
  fold (mbefore (is_leap_g alt y) m). unfold fadd, gday, GREG0 in *.
  set (B := mbefore (is_leap_g alt y) m) in *. set (T := days_in_years alt (y-1)) in *.
  clearbody B T.
  assert (E1 : rnd (inject_Z T + (3442845#2)) == inject_Z T + (3442845#2)).
  { apply V0_ex. apply (V0_intro (2 * T + 3442845)); [lia|]. hz. qlra. }
  assert (E2 : rnd (inject_Z B + q) == inject_Z (B + D) + dl).
  { rewrite Hq. rewrite Vd_ex; [qlra|]. apply (Vd_int (B + D)); [lia|]. qlra. }
  rewrite E1, E2.
  assert (E3 : Vd (inject_Z T + (3442845 # 2) + (inject_Z (B + D) + dl))).
  { apply (Vd_intro (2 * T + 3442845 + 2 * (B + D))); [lia|]. hz. qlra. }
  rewrite (Vd_ex _ E3), (round12_Vd _ E3). qlra.
Qed.

Lemma jd_from_greg_ok alt y m D q : (-1000000 <= y <= 1000000)%Z \/ (1000 * Z.abs y + 10000000 <= K)%Z ->
  (1 <= m <= 12)%Z -> (1 <= D <= mlen (is_leap_g false y) m)%Z -> q == inject_Z D + dl ->
  exists j, jd_from_gregorian_date rnd true alt y m q 0 0 0 = Ok j /\ j == inject_Z (gday alt y m D) + GREG0 + dl.
Proof.
  intros Hy Hm HD Hq. unfold jd_from_gregorian_date, date_from_ymdhms.
  rewrite (check_greg_ok y m D q Hm HD Hq). cbn [bind].
  eexists. split; [reflexivity|].
  pose proof (mlen_range (is_leap_g false y) m Hm) as HM.
  apply (jd_exact_ok alt y m D); [exact Hy|exact Hm|lia|].
  assert (D0 : forall x c, x == 0 -> rnd (x / c) == 0).
  { intros x c Ex. unfold Qdiv. rewrite Ex, Qmult_0_l. apply rnd0. }
  assert (A0 : forall x z, x == 0 -> z == 0 -> rnd (x + z) == 0).
  { intros x z Ex Ez. rewrite Ex, Ez. apply rnd0. }
  assert (Z1 : round12 rnd (fadd rnd (fadd rnd (HR rnd 0) (MN rnd 0)) (SEC rnd 0)) == 0).
  { assert (E : fadd rnd (fadd rnd (HR rnd 0) (MN rnd 0)) (SEC rnd 0) == 0).
    { unfold fadd, HR, MN, SEC, fdiv. apply A0; [apply A0|]; repeat apply D0; reflexivity. }
    rewrite E. rewrite round12_V0; [reflexivity|]. apply (V0_intro 0); [lia|reflexivity]. }
  unfold fadd at 1. rewrite Z1, Qplus_0_r. rewrite Hq. apply Vd_ex. apply (Vd_int D); [lia|reflexivity].
Qed.

(** ** Decoding *)
Hypothesis Hest : forall x, Qabs x <= 8388608 -> Qabs (rnd x - x) <= 1 # 2147483648.

Definition up : Z := if Qeqb dl 0 then 0%Z else 1%Z.

Lemma up_ceil n x : x == inject_Z n + dl -> Qceiling x = (n + up)%Z.
Proof.
  intro E. rewrite (Qceiling_comp _ _ E).
  pose proof (Qle_ceiling (inject_Z n + dl)) as C1.
  pose proof (Qceiling_lt (inject_Z n + dl)) as C2.
  unfold up. destruct (Qeqb dl 0) eqn:G.
  - apply Qeq_bool_eq in G. byQeq.
  - apply Qeq_bool_neq in G. assert (0 < dl).
    { destruct (Qlt_le_dec 0 dl) as [L|L]; [exact L|]. exfalso. apply G. lra. }
    apply Z.le_antisymm; [byQ|].
    destruct (Z_le_gt_dec (n + 1) (Qceiling (inject_Z n + dl))) as [L|L]; [exact L|].
    assert (L' : (Qceiling (inject_Z n + dl) <= n)%Z) by lia. toQ L'. qlra.
Qed.

Lemma gmonth_Z n x : x == inject_Z n + dl -> (Z.abs n <= 1000)%Z ->
  forall l d m, (forall e, In e l -> 0 <= e <= 31)%Z -> (0 <= d <= 1000)%Z -> (Z.of_nat (length l) * 31 + d <= 1000)%Z ->
  exists q, gmonth rnd x d m l = (fst (gmonthZ (n + up) d m l), q) /\ q == inject_Z (snd (gmonthZ (n + up) d m l)).
Proof.
  intros E Hn. induction l as [|ds l IH]; intros d m Hl Hd Hlen.
  - cbn. exists 0. split; reflexivity.
  - cbn [gmonth gmonthZ]. cbv zeta.
    assert (C : Qltb (inject_Z (d + ds)) x = (d + ds <? n + up)%Z).
    { rewrite E. pose proof (up_ceil n _ (Qeq_refl _)) as U.
      pose proof (Qle_ceiling (inject_Z n + dl)) as C1. pose proof (Qceiling_lt (inject_Z n + dl)) as C2.
      rewrite U in C1, C2.
      destruct (d + ds <? n + up)%Z eqn:L.
      - apply Qltb_lt. assert (L' : (d + ds <= n + up - 1)%Z) by lia. toQ L'. qlra.
      - apply Qltb_ge. assert (L' : (n + up <= d + ds)%Z) by lia. toQ L'. qlra. }
    rewrite C. assert (Hds : (0 <= ds <= 31)%Z) by (apply Hl; left; reflexivity).
    destruct (d + ds <? n + up)%Z eqn:L.
    + apply IH; [intros e He; apply Hl; right; exact He| |]; cbn [length] in Hlen; lia.
    + eexists. split; [reflexivity|]. cbn [fst snd].
      assert (F : fsub rnd x (inject_Z (d + ds - ds)) == inject_Z (n - d) + dl).
      { unfold fsub. rewrite Vd_ex; [rewrite E; qlra|]. apply (Vd_int (n - d)); [lia|]. rewrite E. qlra. }
      rewrite (up_ceil _ _ F). replace (n - d + up)%Z with (n + up - d)%Z by lia. reflexivity.
Qed.


(** the fraction correction *)
Lemma frac_corr x N : x == inject_Z N + GREG0 + dl -> (Z.abs N <= 1000000000)%Z ->
  fsub rnd (fmod1 rnd x) (if Qltb (1#2) (fmod1 rnd x) then 3#2 else 1#2) == dl - inject_Z up.
Proof.
  intros E HN. unfold GREG0 in E.
  assert (V : Vd x). { apply (Vd_intro (2 * N + 3442845)); [lia|]. rewrite E. hz. qlra. }
  assert (M : fmod1 rnd x == x - inject_Z (Qfloor x)) by (apply fmod1_V; [right; exact V|lia]).
  unfold up. destruct (Qeqb dl 0) eqn:G.
  - apply Qeq_bool_eq in G.
    assert (F : Qfloor x = (N + 1721422)%Z) by (apply Qfloor_spec; rewrite E; qlra).
    assert (M' : fmod1 rnd x == 1#2) by (rewrite M, F, E; qlra).
    assert (Bq : Qltb (1#2) (fmod1 rnd x) = false) by (rewrite M'; reflexivity). rewrite Bq.
    unfold fsub. rewrite V0_ex; [rewrite M'; qlra|]. apply (V0_intro 0); [lia|]. rewrite M'. reflexivity.
  - apply Qeq_bool_neq in G. assert (0 < dl).
    { destruct (Qlt_le_dec 0 dl) as [L|L]; [exact L|]. exfalso. apply G. lra. }
    destruct (Qlt_le_dec dl (1#2)) as [L|L].
    + assert (F : Qfloor x = (N + 1721422)%Z) by (apply Qfloor_spec; rewrite E; qlra).
      assert (M' : fmod1 rnd x == (1#2) + dl) by (rewrite M, F, E; qlra).
      assert (Bq : Qltb (1#2) (fmod1 rnd x) = true) by (apply Qltb_lt; lra). rewrite Bq.
      unfold fsub. rewrite Vd_ex; [rewrite M'; qlra|]. apply (Vd_intro (-2)); [lia|]. rewrite M'. lra.
    + assert (F : Qfloor x = (N + 1721423)%Z) by (apply Qfloor_spec; rewrite E; qlra).
      assert (M' : fmod1 rnd x == dl - (1#2)) by (rewrite M, F, E; qlra).
      assert (Bq : Qltb (1#2) (fmod1 rnd x) = false) by (apply Qltb_ge; lra). rewrite Bq.
      unfold fsub. rewrite Vd_ex; [rewrite M'; qlra|]. apply (Vd_intro (-2)); [lia|]. rewrite M'. lra.
Qed.

(** the search loop *)
Lemma gloop_ok alt md N s v :
  md == inject_Z N + dl -> (Z.abs N <= 1000000000)%Z ->
  (-3000000 <= s <= v)%Z -> (v <= 3000000)%Z -> (v - s <= 2 * Z.abs s + 4)%Z ->
  (forall u, (s <= u < v)%Z -> 365 < inject_Z (N - days_in_years alt u) + dl) ->
  inject_Z (N - days_in_years alt v) + dl <= 365 ->
  gloop rnd alt md s = Some v.
Proof.
  intros E HN Hs Hv Hf Hlt Hend.
  assert (G : forall u, (-3000000 <= u <= 3000000)%Z ->
     Qltb 365 (fsub rnd md (inject_Z (days_in_years alt u))) = Qltb 365 (inject_Z (N - days_in_years alt u) + dl)).
  { intros u Hu. pose proof (diy_bounds alt u) as B. apply Qltb_comp; [reflexivity|]. unfold fsub. rewrite Vd_ex; [rewrite E; qlra|].
    apply (Vd_int (N - days_in_years alt u)); [lia|]. rewrite E. qlra. }
  assert (I : forall n, (Z.of_nat n <= 2 * Z.abs s + 4)%Z ->
     Nat.iter n (gstep rnd alt md) s = Z.min v (s + Z.of_nat n)).
  { induction n as [|n IH]; intro Hn.
    - cbn. lia.
    - change (Nat.iter (S n) (gstep rnd alt md) s) with (gstep rnd alt md (Nat.iter n (gstep rnd alt md) s)).
      rewrite IH by lia. unfold gstep. rewrite G by lia.
      destruct (Z_lt_ge_dec (s + Z.of_nat n) v) as [L|L].
      + rewrite Z.min_r by lia. assert (H := Hlt (s + Z.of_nat n)%Z ltac:(lia)).
        apply Qltb_lt in H. rewrite H. lia.
      + rewrite Z.min_l by lia. apply Qltb_ge in Hend. rewrite Hend. lia. }
  unfold gloop. cbv zeta.
  assert (P : Pos.iter (gstep rnd alt md) s (Z.to_pos (2 * Z.abs s + 4)) = v).
  { rewrite Pos2Nat.inj_iter. etransitivity; [exact (I (Pos.to_nat (Z.to_pos (2 * Z.abs s + 4))) ltac:(lia))|lia]. }
  rewrite P, G by lia. apply Qltb_ge in Hend. rewrite Hend. reflexivity.
Qed.

Definition gstart (md : Q) : Z :=
  (let year := Qfloor (Qabs (fdiv rnd md (TROPICAL rnd))) + 1 in
   if Qltb md GREG0 then - year else year)%Z.

Lemma trop_near : Qabs (TROPICAL rnd - (3652421897 # 10000000)) <= 1 # 2147483648.
Proof. unfold TROPICAL. apply Hest. vm_compute. discriminate. Qed.

Lemma gstart_near' md : Qabs md <= 1000000000 ->
  exists n, gstart md = (if Qltb md GREG0 then - (n + 1) else n + 1)%Z /\ (0 <= n)%Z /\
    inject_Z n * (3652421897 # 10000000) - (1#200) <= Qabs md /\
    Qabs md <= (inject_Z n + 1) * (3652421897 # 10000000) + (1#200).
Proof.
  intros Hmd. unfold gstart.
  set (w := Qabs (fdiv rnd md (TROPICAL rnd))). exists (Qfloor w).
  split; [reflexivity|].
  pose proof trop_near as T. apply Qabs_Qle_condition in T.
  set (t := TROPICAL rnd) in *. destruct T as [T1 T2].
  assert (Tp : 0 < t) by lra.
  set (u := md / t).
  assert (U : md == u * t). { unfold u. field. lra. }
  assert (Aw : 0 <= w) by apply Qabs_nonneg.
  assert (Au : Qabs md == Qabs u * t). { rewrite U, Qabs_Qmult, (Qabs_pos t); [reflexivity|lra]. }
  set (a := Qabs u) in *. assert (A0 : 0 <= a) by apply Qabs_nonneg.
  assert (Ab : a <= 8388608).
  { destruct (Qlt_le_dec 8388608 a) as [L|L]; [|exact L]. exfalso.
    assert (8388608 * 365 <= a * t); [|lra]. apply Qmult_le_compat_nonneg; lra. }
  assert (W : Qabs (w - a) <= 1 # 2147483648).
  { unfold w, a, fdiv. fold u. eapply Qle_trans; [apply Qabs_Qle_condition; split|].
    - assert (H := Qabs_triangle_reverse u (rnd u)).
      assert (H2 := Qabs_triangle_reverse (rnd u) u).
      rewrite Qabs_Qminus in H. instantiate (1 := Qabs (rnd u - u)). lra.
    - assert (H2 := Qabs_triangle_reverse (rnd u) u). lra.
    - apply Hest. exact Ab. }
  apply Qabs_Qle_condition in W. destruct W as [W1 W2].
  pose proof (Qfloor_le w) as F1. pose proof (Qlt_floor w) as F2.
  split; [byQ|].
  assert (P1 : a * t <= a * (3652421897 # 10000000) + a * (1#2147483648)).
  { rewrite <- Qmult_plus_distr_r. rewrite !(Qmult_comm a). apply Qmult_le_compat_r; lra. }
  assert (P2 : a * (3652421897 # 10000000) - a * (1#2147483648) <= a * t).
  { setoid_replace (a * (3652421897 # 10000000) - a * (1#2147483648)) with (((3652421897 # 10000000) - (1#2147483648)) * a) by ring.
    rewrite (Qmult_comm a). apply Qmult_le_compat_r; lra. }
  rewrite Au. split; qlra.
Qed.

Lemma gstart_near md : Qabs md <= 1000000000 -> md < GREG0 ->
  exists n, gstart md = (- (n + 1))%Z /\ (0 <= n)%Z /\
    inject_Z n * (3652421897 # 10000000) - (1#200) <= Qabs md /\
    Qabs md <= (inject_Z n + 1) * (3652421897 # 10000000) + (1#200).
Proof.
  intros Hmd Hlt. destruct (gstart_near' md Hmd) as [n H]. exists n. apply Qltb_lt in Hlt. rewrite Hlt in H. exact H.
Qed.



(** position of the start year *)
Lemma gstart_ok alt md Y N :
  md == inject_Z N + dl -> md < GREG0 -> (-1000000 <= Y)%Z ->
  (days_in_years alt (Y - 1) + 1 <= N <= days_in_years alt Y)%Z ->
  let s := gstart md in
  (-1100000 <= s <= Y)%Z /\ (s < 0)%Z /\ (Y <= 10000)%Z /\ (Y - s <= 2 * Z.abs s + 4)%Z /\ (Z.abs N <= 370000000)%Z /\
  (s = Y -> (N - days_in_years alt Y >= -30)%Z) /\
  (alt = false -> s = Y -> N = days_in_years alt Y -> dl == 0 -> (Y mod 4 = 0)%Z -> is_leap_g alt Y = true).
Proof.
  intros E Hlt HY HN s. unfold GREG0 in Hlt.
  pose proof (diy_hi alt Y) as H1. pose proof (diy_lo alt (Y - 1)) as H2.
  assert (Nhi : (N <= 1721422)%Z).
  { rewrite E in Hlt. byQ. }
  assert (Yhi : (Y <= 10000)%Z) by (destruct alt; cbv iota in *; lia).
  assert (NB : (Z.abs N <= 370000000)%Z) by (destruct alt; cbv iota in *; lia).
  assert (B : Qabs md <= 1000000000).
  { rewrite E. apply Qabs_Qle_condition. assert (A1 : (N <= 370000000)%Z) by lia. assert (A2 : (-370000000 <= N)%Z) by lia.
    toQ A1. toQ A2. split; qlra. }
  destruct (gstart_near md B Hlt) as [n [Es [Hn [L1 L2]]]]. fold s in Es. rewrite E in L1, L2.
  destruct (Z_lt_ge_dec N 0) as [Neg|Pos].
  - assert (Ab : Qabs (inject_Z N + dl) == - (inject_Z N + dl)).
    { apply Qabs_neg. toQ Neg. qlra. }
    rewrite Ab in L1, L2.
    assert (Y <= 0)%Z.
    { destruct (Z_le_gt_dec Y 0) as [L|L]; [exact L|]. exfalso.
      pose proof (diy_mono alt 0 (Y - 1) ltac:(lia)). replace (days_in_years alt 0) with 0%Z in * by (destruct alt; reflexivity). lia. }
    assert (HNq := proj2 HN). toQ HNq. toQ H1.
    assert (Y0q : (Y <= 0)%Z) by assumption. toQ Y0q.
    assert (s <= Y)%Z.
    { rewrite Es. destruct (Z_le_gt_dec (- (n + 1)) Y) as [L|L]; [exact L|]. exfalso.
      assert (LQ := L). toQ LQ. toQ HY. destruct alt; cbv iota in *; qlra. }
    assert (n <= 1090000)%Z. { assert (X : (-370000000 <= N)%Z) by lia. clear -L1 X Hdl. toQ X.
       destruct (Z_le_gt_dec n 1090000) as [L|L]; [exact L|]. exfalso. toQ L. qlra. }
    repeat split; try lia.
    + intro Eq. assert (X : (- (n + 1) = Y)%Z) by lia. toQ X.
      toQ HY.
      destruct (Z_ge_dec (N - days_in_years alt Y) (-30)) as [L|L]; [exact L|]. exfalso.
      assert (L' : (N - days_in_years alt Y <= -31)%Z) by lia. toQ L'. destruct alt; cbv iota in *; qlra.
    + intros -> Eq EN D0 M4. destruct (is_leap_g false Y) eqn:Lp; [reflexivity|]. exfalso.
      assert (Y mod 100 = 0 /\ Y mod 400 <> 0)%Z as [M1 M2].
      { unfold is_leap_g, b2z in Lp. destruct (Y mod 4 =? 0)%Z eqn:?, (Y mod 100 =? 0)%Z eqn:?, (Y mod 400 =? 0)%Z eqn:?; cbn in Lp; try discriminate; lia. }
      pose proof (diy_century Y M1 M2) as C. assert (X : (- (n + 1) = Y)%Z) by lia.
      assert (Y0 : (Y <= 0)%Z) by lia.
      toQ C. toQ X. toQ EN. toQ Y0. qlra.
  - assert (Ab : Qabs (inject_Z N + dl) == inject_Z N + dl).
    { apply Qabs_pos. toQ Pos. qlra. }
    rewrite Ab in L1, L2.
    assert (0 <= Y)%Z.
    { destruct (Z_le_gt_dec 0 Y) as [L|L]; [exact L|]. exfalso.
      pose proof (diy_mono alt Y 0 ltac:(lia)). replace (days_in_years alt 0) with 0%Z in * by (destruct alt; reflexivity). lia. }
    assert (Y <= n + 5)%Z.
    { assert (X := proj1 HN). toQ X. toQ H2. assert (Yq := Yhi). toQ Yq. assert (Yp : (0 <= Y)%Z) by assumption. toQ Yp.
      destruct (Z_le_gt_dec Y (n + 5)) as [L|L]; [exact L|]. exfalso. toQ L. destruct alt; cbv iota in *; qlra. }
    assert (n <= 1090000)%Z. { assert (X : (N <= 370000000)%Z) by lia. clear -L1 X Hdl. toQ X.
       destruct (Z_le_gt_dec n 1090000) as [L|L]; [exact L|]. exfalso. toQ L. qlra. }
    repeat split; try lia.
Qed.



Lemma date_exact_ok alt jd Y m D :
  (1 <= m <= 12)%Z -> (1 <= D <= mlen (is_leap_g alt Y) m)%Z -> (-1000000 <= Y)%Z ->
  jd == inject_Z (gday alt Y m D) + GREG0 + dl -> jd < 3442845 ->
  (alt = true -> ~ (Y < 0 /\ Y mod 128 = 0 /\ m = 12 /\ D = 31 /\ dl == 0)%Z) ->
  exists q, date_exact rnd alt jd = Some (Y, m, q) /\ q == inject_Z D + dl.
Proof.
  intros Hm HD HY Ej Hjd Halt.
  pose proof (mbefore_range (is_leap_g alt Y) m Hm) as HB.
  pose proof (mbefore_total (is_leap_g alt Y) m Hm) as HT.
  pose proof (mbefore_1 (is_leap_g alt Y)) as M1.
  assert (HS := diy_succ alt (Y - 1)). replace (Y - 1 + 1)%Z with Y in HS by lia.
  set (N := gday alt Y m D) in *.
  assert (EN : N = (days_in_years alt (Y - 1) + mbefore (is_leap_g alt Y) m + D)%Z) by reflexivity.
  assert (HN : (days_in_years alt (Y - 1) + 1 <= N <= days_in_years alt Y)%Z) by lia.
  set (md := fsub rnd jd GREG0).
  assert (NB0 : (Z.abs N <= 1000000000)%Z).
  { pose proof (diy_bounds alt (Y-1)). pose proof (diy_bounds alt Y).
    assert (N <= 1721423)%Z. { unfold GREG0 in Ej. rewrite Ej in Hjd. byQ. } lia. }
  assert (Emd : md == inject_Z N + dl).
  { unfold md, fsub. rewrite Vd_ex; [rewrite Ej; unfold GREG0; qlra|].
    apply (Vd_int N); [lia|]. rewrite Ej. unfold GREG0. qlra. }
  assert (Hlt : md < GREG0). { rewrite Emd. unfold GREG0 in *. lra. }
  destruct (gstart_ok alt md Y N Emd Hlt HY HN) as (Hs & Hs0 & Yhi & Hf & NB & HsY & Hcent).
  unfold date_exact. fold md. cbv zeta.
  change (if Qltb md GREG0 then (- (Qfloor (Qabs (fdiv rnd md (TROPICAL rnd))) + 1))%Z
          else (Qfloor (Qabs (fdiv rnd md (TROPICAL rnd))) + 1)%Z) with (gstart md).
  set (s := gstart md) in *.
  set (b := is_leap_g alt Y) in *.
  assert (Bz : (0 <= b2z b <= 1)%Z) by (destruct b; cbn; lia).
  assert (Hfrac := frac_corr jd N Ej NB0).
  assert (Edays : forall v, (-1200000 <= v <= 1200000)%Z ->
     fsub rnd md (inject_Z (days_in_years alt v)) == inject_Z (N - days_in_years alt v) + dl).
  { intros v Hv. pose proof (diy_bounds alt v). unfold fsub. rewrite Vd_ex; [rewrite Emd; qlra|].
    apply (Vd_int (N - days_in_years alt v)); [lia|]. rewrite Emd. qlra. }
  assert (Hup : (up = 0%Z /\ dl == 0) \/ (up = 1%Z /\ 0 < dl)).
  { unfold up. destruct (Qeqb dl 0) eqn:G.
    - left. apply Qeq_bool_eq in G. split; [reflexivity|exact G].
    - right. apply Qeq_bool_neq in G. split; [reflexivity|].
      destruct (Qlt_le_dec 0 dl) as [L|L]; [exact L|]. exfalso. apply G. lra. }
  assert (Hmin : forall u, (s <= u < Y - 1)%Z -> 365 < inject_Z (N - days_in_years alt u) + dl).
  { intros u Hu. pose proof (diy_mono alt u (Y-1) ltac:(lia)).
    assert (X : (366 <= N - days_in_years alt u)%Z) by lia. toQ X. qlra. }
  assert (Hcase : ((s <= Y - 1)%Z /\ gloop rnd alt md s = Some (Y - 1)%Z /\
                     inject_Z (N - days_in_years alt (Y-1)) + dl <= 365) \/
                  (gloop rnd alt md s = Some Y /\ (N - days_in_years alt Y >= -30)%Z /\
                   (s = Y \/ 365 < inject_Z (N - days_in_years alt (Y-1)) + dl))).
  { destruct (Z_le_gt_dec s (Y - 1)) as [L|L].
    - destruct (Qlt_le_dec 365 (inject_Z (N - days_in_years alt (Y-1)) + dl)) as [Q1|Q1].
      + right. split; [|split; [|right; exact Q1]].
        * apply (gloop_ok alt md N); try assumption; try lia.
          -- intros u Hu. destruct (Z.eq_dec u (Y-1)) as [->|Ne]; [exact Q1|]. apply Hmin. lia.
          -- assert (X : (N - days_in_years alt Y <= 0)%Z) by lia. toQ X. qlra.
        * assert (X : (N - days_in_years alt (Y-1) >= 365)%Z).
          { destruct (Z_ge_dec (N - days_in_years alt (Y-1)) 365) as [G|G]; [exact G|].
            exfalso. assert (G' : (N - days_in_years alt (Y-1) <= 364)%Z) by lia. toQ G'. qlra. }
          unfold b2z in HS. destruct b; lia.
      + left. split; [exact L|]. split; [|exact Q1].
        apply (gloop_ok alt md N); try assumption; try lia.
    - assert (s = Y) by lia. right. split; [|split; [apply HsY; assumption|left; assumption]].
      apply (gloop_ok alt md N); try assumption; try lia.
      assert (X : (N - days_in_years alt Y <= 0)%Z) by lia. toQ X. qlra. }
  destruct Hcase as [(L & GL & Q1) | (GL & Q1 & Q2)]; rewrite GL; clear GL.
  - (* A *)
    set (n := (N - days_in_years alt (Y - 1))%Z) in *.
    assert (En0 : n = (N - days_in_years alt (Y - 1))%Z) by reflexivity.
    assert (En : n = (mbefore b m + D)%Z) by lia.
    specialize (Edays (Y-1)%Z ltac:(lia)). fold n in Edays.
    set (days := fsub rnd md (inject_Z (days_in_years alt (Y - 1)))) in *.
    assert (D0 : Qeqb days 0 = false).
    { destruct (Qeqb days 0) eqn:G; [|reflexivity]. apply Qeq_bool_eq in G. rewrite Edays in G.
      assert (X : (1 <= n)%Z) by lia. toQ X. exfalso. qlra. }
    rewrite D0. replace (Y - 1 + 1)%Z with Y by lia. fold b.
    destruct (gmonth_Z n days Edays ltac:(lia) (month_days b) 0 1 (month_days_bound b) ltac:(lia) ltac:(rewrite month_days_len; lia))
      as [q [Gq Eq]]. rewrite Gq. clear Gq.
    assert (N365 : (n + up <= 365)%Z).
    { destruct Hup as [[-> Z0]|[-> Z0]]; [clear Hfrac; byQ|].
      destruct (Z_le_gt_dec (n + 1) 365) as [G|G]; [exact G|]. exfalso. assert (G' : (365 <= n)%Z) by lia. toQ G'. qlra. }
    destruct (Z_le_gt_dec (D + up) (mlen b m)) as [S|S].
    + rewrite (gmonthZ_in b m (n + up) Hm) in * by lia. cbn [fst snd] in *.
      assert (Dq : fadd rnd q (fsub rnd (fmod1 rnd jd) (if Qltb (1 # 2) (fmod1 rnd jd) then 3 # 2 else 1 # 2)) == inject_Z D + dl).
      { unfold fadd. rewrite Hfrac, Eq.
        assert (X : inject_Z (n + up - mbefore b m) + (dl - inject_Z up) == inject_Z D + dl) by (rewrite En; qlra).
        rewrite X. apply Vd_ex. apply (Vd_int D); [lia|reflexivity]. }
      assert (Bq : Qltb (fadd rnd q (fsub rnd (fmod1 rnd jd) (if Qltb (1 # 2) (fmod1 rnd jd) then 3 # 2 else 1 # 2))) 1 = false).
      { rewrite Dq. apply Qltb_ge. assert (X := proj1 HD). toQ X. qlra. }
      rewrite Bq. eexists. split; [reflexivity|]. rewrite Dq. apply round12_Vd. apply (Vd_int D); [lia|reflexivity].
    + destruct Hup as [[U Z0]|[U Z0]]; [lia|].
      assert (D = mlen b m) by lia.
      assert (m < 12)%Z. { destruct (Z.eq_dec m 12) as [->|]; [|lia]. exfalso. pose proof (mbefore_12 b). unfold b2z in *.
         assert (mlen b 12 = 31)%Z by (destruct b; reflexivity). destruct b; lia. }
      pose proof (mbefore_succ b m ltac:(lia)) as MS.
      pose proof (mlen_range b (m+1) ltac:(lia)) as ML.
      rewrite (gmonthZ_in b (m + 1) (n + up)) in * by lia. cbn [fst snd] in *.
      assert (Dq : fadd rnd q (fsub rnd (fmod1 rnd jd) (if Qltb (1 # 2) (fmod1 rnd jd) then 3 # 2 else 1 # 2)) == dl).
      { unfold fadd. rewrite Hfrac, Eq.
        assert (X : inject_Z (n + up - mbefore b (m+1)) + (dl - inject_Z up) == dl).
        { replace (n + up - mbefore b (m+1))%Z with up by lia. qlra. }
        rewrite X. apply Vd_ex. apply (Vd_int 0); [lia|qlra]. }
      set (dd := fadd rnd q _) in *.
      assert (Bq : Qltb dd 1 = true) by (rewrite Dq; apply Qltb_lt; lra).
      rewrite Bq. replace (1 <? m + 1)%Z with true by lia. replace (m + 1 - 1)%Z with m by lia.
      replace (m =? 12)%Z with false by lia.
      eexists. split; [reflexivity|]. fold (mlen b m). unfold fadd. rewrite Dq.
      assert (X : Vd (inject_Z (mlen b m) + dl)) by (apply (Vd_int D); [lia|subst D; reflexivity]).
      rewrite (Vd_ex _ X), (round12_Vd _ X). subst D. reflexivity.
  - (* B *)
    set (n := (N - days_in_years alt Y)%Z) in *.
    assert (En0 : n = (N - days_in_years alt Y)%Z) by reflexivity.
    assert (En : n = (mbefore b m + D - (365 + b2z b))%Z) by lia.
    assert (m = 12)%Z.
    { destruct (Z.eq_dec m 12) as [G|G]; [exact G|]. exfalso.
      pose proof (mbefore_succ b m ltac:(lia)) as MS. pose proof (mbefore_12 b).
      assert (mbefore b (m + 1) <= mbefore b 12)%Z.
      { clear -Hm G. months Hm; try lia; destruct b; vm_compute; discriminate. }
      lia. }
    subst m. pose proof (mbefore_12 b) as M12.
    assert (L12 : mlen b 12 = 31%Z) by (destruct b; reflexivity).
    specialize (Edays Y ltac:(lia)). fold n in Edays.
    set (days := fsub rnd md (inject_Z (days_in_years alt Y))) in *.
    destruct (Qeqb days 0) eqn:D0.
    + apply Qeq_bool_eq in D0. rewrite Edays in D0.
      assert (n = 0)%Z.
      { destruct (Z_lt_ge_dec n 0) as [G|G]; [exfalso; assert (G' : (n <= -1)%Z) by lia; toQ G'; qlra|lia]. }
      assert (Z0 : dl == 0) by (rewrite H in D0; qlra).
      assert (U : up = 0%Z) by (destruct Hup as [[? _]|[_ ?]]; [assumption|lra]).
      assert (D = 31)%Z by lia. subst D.
      assert (Hq : exists dz, (if ((Y <? 0) && negb (Y mod 4 =? 0))%Z%bool then 365 else 366) == inject_Z dz + dl /\ dz = (365 + b2z b)%Z).
      { destruct Q2 as [Es|Q2].
        - replace (Y <? 0)%Z with true by lia. cbn [andb].
          destruct (Y mod 4 =? 0)%Z eqn:M4; cbn [negb].
          + exists 366%Z. split; [rewrite Z0; reflexivity|].
            destruct alt.
            * destruct b eqn:Eb; [reflexivity|]. exfalso. apply (Halt eq_refl).
              repeat split; try lia; try exact Z0.
              unfold b, is_leap_g, b2z in Eb. rewrite M4 in Eb. destruct (Y mod 128 =? 0)%Z eqn:?; [lia|cbn in Eb; discriminate].
            * assert (Eb : b = true) by (apply Hcent; try assumption; try reflexivity; lia). rewrite Eb. reflexivity.
          + exists 365%Z. split; [rewrite Z0; reflexivity|].
            assert (Eb : b = false) by (unfold b, is_leap_g, b2z; rewrite M4; destruct alt; cbn; [reflexivity|destruct (Y mod 400 =? 0)%Z, (negb (Y mod 100 =? 0)%Z); reflexivity]).
            rewrite Eb. reflexivity.
        - assert (Eb : b = true).
          { destruct b eqn:Eb; [reflexivity|]. exfalso. cbn [b2z] in *.
            assert (X : (N - days_in_years alt (Y - 1) <= 365)%Z) by lia. toQ X. qlra. }
          assert (M4 : (Y mod 4 =? 0)%Z = true).
          { unfold b, is_leap_g, b2z in Eb. destruct alt, (Y mod 4 =? 0)%Z; try reflexivity; cbn in Eb; try discriminate. }
          rewrite M4. cbn [negb]. rewrite andb_false_r. exists 366%Z. split; [rewrite Z0; reflexivity|]. rewrite Eb. reflexivity. }
      destruct Hq as [dz [Hq Edz]].
      set (days' := if ((Y <? 0) && negb (Y mod 4 =? 0))%Z%bool then 365 else 366) in *.
      fold b.
      assert (Hdz : (365 <= dz <= 366)%Z) by (unfold b2z in Edz; destruct b; lia).
      destruct (gmonth_Z dz days' Hq ltac:(lia) (month_days b) 0 1 (month_days_bound b) ltac:(lia) ltac:(rewrite month_days_len; lia))
        as [q [Gq Eq]]. rewrite Gq. clear Gq.
      rewrite (gmonthZ_in b 12 (dz + up)) in * by lia. cbn [fst snd] in *.
      assert (Dq : fadd rnd q (fsub rnd (fmod1 rnd jd) (if Qltb (1 # 2) (fmod1 rnd jd) then 3 # 2 else 1 # 2)) == inject_Z 31 + dl).
      { unfold fadd. rewrite Hfrac, Eq.
        assert (X : inject_Z (dz + up - mbefore b 12) + (dl - inject_Z up) == inject_Z 31 + dl).
        { replace (dz + up - mbefore b 12)%Z with (31 + up)%Z by lia. qlra. }
        rewrite X. apply Vd_ex. apply (Vd_int 31); [lia|reflexivity]. }
      set (dd := fadd rnd q _) in *.
      assert (Bq : Qltb dd 1 = false) by (rewrite Dq; apply Qltb_ge; qlra).
      rewrite Bq. eexists. split; [reflexivity|]. rewrite Dq. apply round12_Vd. apply (Vd_int 31); [lia|reflexivity].
    + set (b' := is_leap_g alt (Y + 1)).
      assert (Nn : (n <= 0)%Z) by lia.
      destruct (gmonth_Z n days Edays ltac:(lia) (month_days b') 0 1 (month_days_bound b') ltac:(lia) ltac:(rewrite month_days_len; lia))
        as [q [Gq Eq]]. rewrite Gq. clear Gq.
      rewrite (gmonthZ_low b' (n + up)) in * by lia. cbn [fst snd] in *.
      assert (Dq : fadd rnd q (fsub rnd (fmod1 rnd jd) (if Qltb (1 # 2) (fmod1 rnd jd) then 3 # 2 else 1 # 2)) == inject_Z n + dl).
      { unfold fadd. rewrite Hfrac, Eq.
        assert (X : inject_Z (n + up) + (dl - inject_Z up) == inject_Z n + dl) by qlra.
        rewrite X. apply Vd_ex. apply (Vd_int n); [lia|reflexivity]. }
      set (dd := fadd rnd q _) in *.
      assert (Bq : Qltb dd 1 = true).
      { rewrite Dq. apply Qltb_lt. assert (X := Nn). toQ X. qlra. }
      rewrite Bq. replace (1 <? 1)%Z with false by reflexivity. replace (1 + 11)%Z with 12%Z by reflexivity.
      replace (12 =? 12)%Z with true by reflexivity. replace (Y + 1 - 1)%Z with Y by lia.
      eexists. split; [reflexivity|]. fold (mlen b' 12). replace (mlen b' 12) with 31%Z by (destruct b'; reflexivity).
      unfold fadd. rewrite Dq.
      assert (X : Vd (inject_Z 31 + (inject_Z n + dl))) by (apply (Vd_int D); [lia|]; replace D with (31 + n)%Z by lia; qlra).
      rewrite (Vd_ex _ X), (round12_Vd _ X). replace D with (31 + n)%Z by lia. qlra.
Qed.

(** beyond the doubling point the start year is already the year itself, and everything before
    December gets a day below 1 *)
Lemma date_exact_bad jd Y m D :
  (1 <= m <= 12)%Z -> (1 <= D <= mlen (is_leap_g false Y) m)%Z -> (4715 <= Y <= 9999)%Z ->
  (4 <= mbefore (is_leap_g false Y) m + D)%Z -> (m <= 11)%Z ->
  jd == inject_Z (gday false Y m D) + GREG0 + dl ->
  exists q, date_exact rnd false jd = Some (Y, 12%Z, q) /\ q < 1.
Proof.
  intros Hm HD HY H4 H11 Ej.
  pose proof (mbefore_range (is_leap_g false Y) m Hm) as HB.
  pose proof (mbefore_succ (is_leap_g false Y) m ltac:(lia)) as MS.
  pose proof (mbefore_12 (is_leap_g false Y)) as M12.
  assert (HT : (mbefore (is_leap_g false Y) (m + 1) <= mbefore (is_leap_g false Y) 12)%Z).
  { clear -Hm H11. months Hm; try lia; destruct (is_leap_g false Y); vm_compute; discriminate. }
  assert (HS := diy_succ false (Y - 1)). replace (Y - 1 + 1)%Z with Y in HS by lia.
  set (N := gday false Y m D) in *.
  assert (EN : N = (days_in_years false (Y - 1) + mbefore (is_leap_g false Y) m + D)%Z) by reflexivity.
  set (b := is_leap_g false Y) in *.
  pose proof (diy_hi false Y) as H1. pose proof (diy_lo false (Y - 1)) as H2. cbv iota in H1, H2.
  pose proof (diy_mono false 4714 (Y-1) ltac:(lia)) as H3.
  replace (days_in_years false 4714) with 1721752%Z in H3 by reflexivity.
  assert (NB0 : (1721756 <= N <= 4000000)%Z) by lia.
  set (md := fsub rnd jd GREG0).
  assert (Emd : md == inject_Z N + dl).
  { unfold md, fsub. rewrite Vd_ex; [rewrite Ej; unfold GREG0; qlra|].
    apply (Vd_int N); [lia|]. rewrite Ej. unfold GREG0. qlra. }
  assert (Nq1 := proj1 NB0). assert (Nq2 := proj2 NB0). toQ Nq1. toQ Nq2.
  assert (Ab : Qabs md == inject_Z N + dl) by (rewrite Emd; apply Qabs_pos; qlra).
  destruct (gstart_near' md) as [n [Es [Hn [L1 L2]]]]; [rewrite Ab; qlra|].
  rewrite Ab in L1, L2.
  assert (Lt : Qltb md GREG0 = false) by (apply Qltb_ge; rewrite Emd; unfold GREG0; qlra).
  rewrite Lt in Es.
  assert (Nlo : (days_in_years false (Y - 1) + 4 <= N)%Z) by lia.
  assert (Nhi : (N <= days_in_years false Y - 31)%Z) by lia.
  assert (EsY : gstart md = Y).
  { rewrite Es. assert (Y1 := proj1 HY). assert (Y2 := proj2 HY). toQ Nlo. toQ Nhi. toQ H1. toQ H2. toQ Y1. toQ Y2.
    apply Z.le_antisymm.
    - destruct (Z_le_gt_dec (n + 1) Y) as [L|L]; [exact L|]. exfalso. assert (L' : (Y <= n)%Z) by lia. toQ L'. qlra.
    - destruct (Z_le_gt_dec Y (n + 1)) as [L|L]; [exact L|]. exfalso. assert (L' : (n + 1 <= Y - 1)%Z) by lia. toQ L'. qlra. }
  unfold date_exact. fold md. cbv zeta.
  change (if Qltb md GREG0 then (- (Qfloor (Qabs (fdiv rnd md (TROPICAL rnd))) + 1))%Z
          else (Qfloor (Qabs (fdiv rnd md (TROPICAL rnd))) + 1)%Z) with (gstart md).
  rewrite EsY.
  set (nn := (N - days_in_years false Y)%Z).
  assert (En0 : nn = (N - days_in_years false Y)%Z) by reflexivity.
  assert (Nn : (-400 <= nn <= -31)%Z) by lia.
  assert (Nnq := proj2 Nn). toQ Nnq.
  assert (Edays : fsub rnd md (inject_Z (days_in_years false Y)) == inject_Z nn + dl).
  { unfold fsub. rewrite Vd_ex; [rewrite Emd; unfold nn; qlra|].
    apply (Vd_int nn); [lia|]. rewrite Emd. unfold nn. qlra. }
  rewrite (gloop_ok false md N Y Y Emd ltac:(lia) ltac:(lia) ltac:(lia) ltac:(lia)); [|intros; lia|fold nn; qlra].
  set (days := fsub rnd md (inject_Z (days_in_years false Y))) in *.
  assert (D0 : Qeqb days 0 = false).
  { destruct (Qeqb days 0) eqn:G; [|reflexivity]. apply Qeq_bool_eq in G. rewrite Edays in G. exfalso. qlra. }
  rewrite D0. set (b' := is_leap_g false (Y + 1)).
  assert (Hup : (0 <= up <= 1)%Z) by (unfold up; destruct (Qeqb dl 0); lia).
  destruct (gmonth_Z nn days Edays ltac:(lia) (month_days b') 0 1 (month_days_bound b') ltac:(lia) ltac:(rewrite month_days_len; lia))
    as [q [Gq Eq]]. rewrite Gq. clear Gq.
  rewrite (gmonthZ_low b' (nn + up)) in * by lia. cbn [fst snd] in *.
  assert (Hfrac := frac_corr jd N Ej ltac:(lia)).
  assert (Dq : fadd rnd q (fsub rnd (fmod1 rnd jd) (if Qltb (1 # 2) (fmod1 rnd jd) then 3 # 2 else 1 # 2)) == inject_Z nn + dl).
  { unfold fadd. rewrite Hfrac, Eq.
    assert (X : inject_Z (nn + up) + (dl - inject_Z up) == inject_Z nn + dl) by qlra.
    rewrite X. apply Vd_ex. apply (Vd_int nn); [lia|reflexivity]. }
  set (dd := fadd rnd q _) in *.
  assert (Bq : Qltb dd 1 = true) by (rewrite Dq; apply Qltb_lt; qlra).
  rewrite Bq. replace (1 <? 1)%Z with false by reflexivity. replace (1 + 11)%Z with 12%Z by reflexivity.
  replace (12 =? 12)%Z with true by reflexivity. replace (Y + 1 - 1)%Z with Y by lia.
  eexists. split; [reflexivity|]. fold (mlen b' 12). replace (mlen b' 12) with 31%Z by (destruct b'; reflexivity).
  unfold fadd. rewrite Dq.
  assert (X : Vd (inject_Z 31 + (inject_Z nn + dl))) by (apply (Vd_int (31 + nn)); [lia|]; qlra).
  rewrite (Vd_ex _ X), (round12_Vd _ X). qlra.
Qed.

End Exact.
