(** GregProofs3.v -- the exact Gregorian decoder on every float of the calendar's range: fractions of up to 32 bits, where
    the year search still works without rounding errors. *)
From Coq Require Import ZArith QArith Qround Qabs List Bool Lia Lqa Morphisms.
From Verif Require Import Base Flt QUtil BaseModel SpecGreg GregModel GregProofs GregProofs2.
Import ListNotations.
Local Open Scope Q_scope.
Notation alt := false (only parsing).

Section Float.
Variables (rnd : Q -> Q) (dl : Q) (MZ : Z).
Hypothesis NR : Nearest rnd.
Hypothesis Hdl : 0 <= dl < 1.
Hypothesis Hex : forall z, (Z.abs z + 2 <= 2 * MZ)%Z -> rnd ((z # 2) + dl) == (z # 2) + dl.
Hypothesis HM : (10000 <= MZ)%Z.
Local Instance rnd_proper : Proper (Qeq ==> Qeq) rnd.
Proof. intros a b E. apply near_proper; assumption. Qed.
Definition Vd (x : Q) := exists z, (Z.abs z + 2 <= 2 * MZ)%Z /\ x == (z # 2) + dl.
Lemma Vd_ex x : Vd x -> rnd x == x.
Proof. intros [z [B E]]. rewrite E. apply Hex, B. Qed.
Lemma Vd_intro z x : (Z.abs z + 2 <= 2 * MZ)%Z -> x == (z # 2) + dl -> Vd x.
Proof. intros; exists z; auto. Qed.
Lemma Vd_int z x : (Z.abs z + 1 <= MZ)%Z -> x == inject_Z z + dl -> Vd x.
Proof. intros B E. apply (Vd_intro (2 * z)); [lia|]. rewrite twice_half. exact E. Qed.
Lemma Hest x : Qabs x <= 8388608 -> Qabs (rnd x - x) <= 1 # 2147483648.
Proof. apply near_err_23. exact NR. Qed.
Notation up := (up dl).
Lemma up_ceil n x : x == inject_Z n + dl -> Qceiling x = (n + up)%Z.
Proof.
  apply (GregProofs.up_ceil rnd dl 0 Hdl); [|intros z Z; apply Hex; lia|exact Hest].
  intros z Z. apply dyadic_fix0; [exact NR|unfold K0; lia].
Qed.
Lemma qround12_near x : Qabs (qround 12 x - x) <= 1 # 2000000000000.
Proof.
  unfold qround. pose proof (rne_err (x * inject_Z (10 ^ 12))) as H. apply Qabs_Qle_condition in H. apply Qabs_Qle_condition.
  change (10 ^ 12)%Z with 1000000000000%Z in *. change (inject_Z 1000000000000) with 1000000000000 in *.
  set (r := inject_Z (rne (x * 1000000000000))) in *.
  assert (Q : r / 1000000000000 == r * (1 # 1000000000000)) by (field). split; lra.
Qed.
Lemma round12_near x : Qabs x <= 512 -> Qabs (round12 rnd x - x) <= 1 # 1000000000000.
Proof.
  intro B. unfold round12, fround. pose proof (qround12_near x) as H. apply Qabs_Qle_condition in H, B.
  assert (B2 : Qabs (qround 12 x) <= 2 ^ 10) by (change (2 ^ 10) with 1024; apply Qabs_Qle_condition; lra).
  pose proof (near_err rnd NR 10 _ B2) as E. change (2 ^ (10 - 54)) with (1 # 17592186044416) in E. apply Qabs_Qle_condition in E. apply Qabs_Qle_condition. lra.
Qed.
Lemma gmonth_Z n x : x == inject_Z n + dl -> (Z.abs n <= 1000)%Z ->
  forall l d m, (forall e, In e l -> 0 <= e <= 31)%Z -> (0 <= d <= 1000)%Z -> (Z.of_nat (length l) * 31 + d <= 1000)%Z ->
  exists q, gmonth rnd x d m l = (fst (gmonthZ (n + up) d m l), q) /\ q == inject_Z (snd (gmonthZ (n + up) d m l)).
Proof.
  intros E Hn. induction l as [|ds l IH]; intros d m Hl Hd Hlen.
  - cbn. exists 0. split; reflexivity.
  - cbn [gmonth gmonthZ]. cbv zeta.
    assert (C : Qltb (inject_Z (d + ds)) x = (d + ds <? n + up)%Z).
    { rewrite E. pose proof (up_ceil n _ (Qeq_refl _)) as U.
      pose proof (Qle_ceiling (inject_Z n + dl)) as C1. pose proof (Qceiling_lt (inject_Z n + dl)) as C2.
      rewrite U in C1, C2.
      destruct (d + ds <? n + up)%Z eqn:L.
      - apply Qltb_lt. assert (L' : (d + ds <= n + up - 1)%Z) by lia. toQ L'. qlra.
      - apply Qltb_ge. assert (L' : (n + up <= d + ds)%Z) by lia. toQ L'. qlra. }
    rewrite C. assert (Hds : (0 <= ds <= 31)%Z) by (apply Hl; left; reflexivity).
    destruct (d + ds <? n + up)%Z eqn:L.
    + apply IH; [intros e He; apply Hl; right; exact He| |]; cbn [length] in Hlen; lia.
    + eexists. split; [reflexivity|]. cbn [fst snd].
      assert (F : fsub rnd x (inject_Z (d + ds - ds)) == inject_Z (n - d) + dl).
      { unfold fsub. rewrite Vd_ex; [rewrite E; qlra|]. apply (Vd_int (n - d)); [lia|]. rewrite E. qlra. }
      rewrite (up_ceil _ _ F). replace (n - d + up)%Z with (n + up - d)%Z by lia. reflexivity.
Qed.



Lemma fmod1_pos x : 0 <= x -> fmod1 rnd x == x - inject_Z (Qfloor x).
Proof.
  intro P. unfold fmod1. cbv zeta. unfold Qtrunc. apply Qleb_le in P. rewrite P. pose proof (Qfloor_le x).
  assert (Qltb (x - inject_Z (Qfloor x)) 0 = false) as ->; [apply Qltb_ge; lra|reflexivity].
Qed.
(** the fraction correction *)
Lemma frac_corr x N : x == inject_Z N + GREG0 + dl -> 0 <= x ->
  fsub rnd (fmod1 rnd x) (if Qltb (1#2) (fmod1 rnd x) then 3#2 else 1#2) == dl - inject_Z up.
Proof.
  intros E P. unfold GREG0 in E. pose proof (fmod1_pos x P) as M.
  unfold GregProofs.up. destruct (Qeqb dl 0) eqn:G.
  - apply Qeq_bool_eq in G.
    assert (F : Qfloor x = (N + 1721422)%Z) by (apply Qfloor_spec; rewrite E; qlra).
    assert (M' : fmod1 rnd x == 1#2) by (rewrite M, F, E; qlra).
    assert (Bq : Qltb (1#2) (fmod1 rnd x) = false) by (rewrite M'; reflexivity). rewrite Bq.
    unfold fsub. rewrite Vd_ex; [rewrite M'; qlra|]. apply (Vd_intro 0); [lia|]. rewrite M'. lra.
  - apply Qeq_bool_neq in G. assert (0 < dl).
    { destruct (Qlt_le_dec 0 dl) as [L|L]; [exact L|]. exfalso. apply G. lra. }
    destruct (Qlt_le_dec dl (1#2)) as [L|L].
    + assert (F : Qfloor x = (N + 1721422)%Z) by (apply Qfloor_spec; rewrite E; qlra).
      assert (M' : fmod1 rnd x == (1#2) + dl) by (rewrite M, F, E; qlra).
      assert (Bq : Qltb (1#2) (fmod1 rnd x) = true) by (apply Qltb_lt; lra). rewrite Bq.
      unfold fsub. rewrite Vd_ex; [rewrite M'; qlra|]. apply (Vd_intro (-2)); [lia|]. rewrite M'. lra.
    + assert (F : Qfloor x = (N + 1721423)%Z) by (apply Qfloor_spec; rewrite E; qlra).
      assert (M' : fmod1 rnd x == dl - (1#2)) by (rewrite M, F, E; qlra).
      assert (Bq : Qltb (1#2) (fmod1 rnd x) = false) by (apply Qltb_ge; lra). rewrite Bq.
      unfold fsub. rewrite Vd_ex; [rewrite M'; qlra|]. apply (Vd_intro (-2)); [lia|]. rewrite M'. lra.
Qed.

(** the search loop *)
Lemma gloop_ok md N s v :
  md == inject_Z N + dl -> (s <= v)%Z -> (v - s <= 2 * Z.abs s + 4)%Z ->
  (forall u, (s <= u <= v)%Z -> Z.abs (N - days_in_years alt u) + 1 <= MZ)%Z ->
  (forall u, (s <= u < v)%Z -> 365 < inject_Z (N - days_in_years alt u) + dl) ->
  inject_Z (N - days_in_years alt v) + dl <= 365 ->
  gloop rnd alt md s = Some v.
Proof.
  intros E Hs Hf Hb Hlt Hend.
  assert (G : forall u, (s <= u <= v)%Z ->
     Qltb 365 (fsub rnd md (inject_Z (days_in_years alt u))) = Qltb 365 (inject_Z (N - days_in_years alt u) + dl)).
  { intros u Hu. specialize (Hb u Hu). apply Qltb_comp; [reflexivity|]. unfold fsub. rewrite Vd_ex; [rewrite E; qlra|].
    apply (Vd_int (N - days_in_years alt u)); [exact Hb|]. rewrite E. qlra. }
  assert (I : forall n, (Z.of_nat n <= 2 * Z.abs s + 4)%Z ->
     Nat.iter n (gstep rnd alt md) s = Z.min v (s + Z.of_nat n)).
  { induction n as [|n IH]; intro Hn.
    - cbn. lia.
    - change (Nat.iter (S n) (gstep rnd alt md) s) with (gstep rnd alt md (Nat.iter n (gstep rnd alt md) s)).
      rewrite IH by lia. unfold gstep. rewrite G by lia.
      destruct (Z_lt_ge_dec (s + Z.of_nat n) v) as [L|L].
      + rewrite Z.min_r by lia. assert (H := Hlt (s + Z.of_nat n)%Z ltac:(lia)).
        apply Qltb_lt in H. rewrite H. lia.
      + rewrite Z.min_l by lia. apply Qltb_ge in Hend. rewrite Hend. lia. }
  unfold gloop. cbv zeta.
  assert (P : Pos.iter (gstep rnd alt md) s (Z.to_pos (2 * Z.abs s + 4)) = v).
  { rewrite Pos2Nat.inj_iter. etransitivity; [exact (I (Pos.to_nat (Z.to_pos (2 * Z.abs s + 4))) ltac:(lia))|lia]. }
  rewrite P, G by lia. apply Qltb_ge in Hend. rewrite Hend. reflexivity.
Qed.
Notation gstart := (gstart rnd).


Lemma start_far md N s : md == inject_Z N + dl -> md < GREG0 -> (-400 <= N)%Z -> s = gstart md -> (days_in_years alt s >= - N - 2000)%Z.
Proof.
  intros E L N1 ->. assert (B : Qabs md <= 1000000000).
  { apply Qabs_Qle_condition. unfold GREG0 in L. rewrite E in *. toQ N1. split; qlra. }
  destruct (gstart_near rnd Hest md B L) as (n & -> & P & L1 & _). pose proof (diy_lo alt (- (n + 1))) as D. cbv iota in D.
  assert (NB : (N <= 1721423)%Z) by (unfold GREG0 in L; rewrite E in L; byQ).
  assert (M : Qabs md <= inject_Z N + 1 + 800).
  { apply Qabs_Qle_condition. rewrite E. toQ N1. split; qlra. }
  toQ D. toQ P. toQ NB. apply Z.le_ge. byQ.
Qed.
Lemma fin_near x D : x == inject_Z D + dl -> (1 <= D <= 31)%Z -> Qabs (round12 rnd x - (inject_Z D + dl)) <= 1 # 1000000000000 /\ inject_Z D <= round12 rnd x.
Proof.
  intros E [D1 D2]. assert (B : Qabs x <= 512) by (rewrite E; toQ D1; toQ D2; apply Qabs_Qle_condition; split; qlra).
  pose proof (round12_near x B) as H. rewrite E in H at 2. split; [exact H|].
  unfold round12, fround. rewrite <- (near_int rnd NR D) by (change (2 ^ 53)%Z with 9007199254740992%Z; lia). apply near_mono; [exact NR|].
  unfold qround. pose proof (rne_err (x * inject_Z (10 ^ 12))) as R. apply Qabs_Qle_condition in R.
  change (10 ^ 12)%Z with 1000000000000%Z in *. change (inject_Z 1000000000000) with 1000000000000 in *.
  set (r := rne (x * 1000000000000)) in *. assert (K : (D * 1000000000000 <= r)%Z) by byQ. toQ K.
  assert (Q : inject_Z r / 1000000000000 == inject_Z r * (1 # 1000000000000)) by field. rewrite Q. qlra.
Qed.

Lemma date_exact_float jd Y m D :
  (1 <= m <= 12)%Z -> (1 <= D <= mlen (is_leap_g alt Y) m)%Z -> (-400 <= gday alt Y m D)%Z -> (2 * gday alt Y m D + 4000 <= MZ)%Z ->
  jd == inject_Z (gday alt Y m D) + GREG0 + dl -> jd < 3442845 ->
  exists q, date_exact rnd alt jd = Some (Y, m, q) /\ Qabs (q - (inject_Z D + dl)) <= 1 # 1000000000000 /\ inject_Z D <= q.
Proof.
  intros Hm HD HN1 HN2 Ej Hjd.
  pose proof (mbefore_range (is_leap_g alt Y) m Hm) as HB.
  pose proof (mbefore_total (is_leap_g alt Y) m Hm) as HT.
  pose proof (mbefore_1 (is_leap_g alt Y)) as M1.
  assert (HS := diy_succ alt (Y - 1)). replace (Y - 1 + 1)%Z with Y in HS by lia.
  set (N := gday alt Y m D) in *.
  assert (EN : N = (days_in_years alt (Y - 1) + mbefore (is_leap_g alt Y) m + D)%Z) by reflexivity.
  assert (HN : (days_in_years alt (Y - 1) + 1 <= N <= days_in_years alt Y)%Z) by lia.
  set (md := fsub rnd jd GREG0).
  assert (HY : (-1000000 <= Y)%Z).
  { destruct (Z_le_gt_dec (-1000000) Y) as [G|G]; [exact G|]. exfalso. pose proof (diy_mono alt Y 0 ltac:(lia)) as X. change (days_in_years alt 0) with 0%Z in X. lia. }
  assert (Emd : md == inject_Z N + dl).
  { unfold md, fsub. rewrite Vd_ex; [rewrite Ej; unfold GREG0; qlra|].
    apply (Vd_int N); [lia|]. rewrite Ej. unfold GREG0. qlra. }
  assert (Hlt : md < GREG0). { rewrite Emd. unfold GREG0 in *. lra. }
  destruct (gstart_ok rnd dl 0 Hdl ltac:(intros z Z; apply dyadic_fix0; [exact NR|unfold K0; lia]) ltac:(intros z Z; apply Hex; lia) Hest alt md Y N Emd Hlt HY HN) as (Hs & Hs0 & Yhi & Hf & NB & HsY & Hcent).
  unfold date_exact. fold md. cbv zeta.
  change (if Qltb md GREG0 then (- (Qfloor (Qabs (fdiv rnd md (TROPICAL rnd))) + 1))%Z
          else (Qfloor (Qabs (fdiv rnd md (TROPICAL rnd))) + 1)%Z) with (gstart md).
  set (s := gstart md) in *.
  set (b := is_leap_g alt Y) in *.
  assert (Bz : (0 <= b2z b <= 1)%Z) by (destruct b; cbn; lia).
  assert (Hfrac : fsub rnd (fmod1 rnd jd) (if Qltb (1#2) (fmod1 rnd jd) then 3#2 else 1#2) == dl - inject_Z up).
  { apply (frac_corr jd N Ej). rewrite Ej. unfold GREG0. toQ HN1. qlra. }
  assert (Hb : forall v, (s <= v <= Y)%Z -> (Z.abs (N - days_in_years alt v) + 1 <= MZ)%Z).
  { intros v Hv. pose proof (diy_mono alt s v ltac:(lia)) as D1. pose proof (diy_mono alt v Y ltac:(lia)) as D2.
    assert (DS : (days_in_years alt s >= - N - 2000)%Z). { exact (start_far md N s Emd Hlt HN1 eq_refl). }
    lia. }
  assert (Edays : forall v, (s <= v <= Y)%Z ->
     fsub rnd md (inject_Z (days_in_years alt v)) == inject_Z (N - days_in_years alt v) + dl).
  { intros v Hv. specialize (Hb v Hv). unfold fsub. rewrite Vd_ex; [rewrite Emd; qlra|].
    apply (Vd_int (N - days_in_years alt v)); [exact Hb|]. rewrite Emd. qlra. }
  assert (Hup : (up = 0%Z /\ dl == 0) \/ (up = 1%Z /\ 0 < dl)).
  { unfold up. destruct (Qeqb dl 0) eqn:G.
    - left. apply Qeq_bool_eq in G. split; [reflexivity|exact G].
    - right. apply Qeq_bool_neq in G. split; [reflexivity|].
      destruct (Qlt_le_dec 0 dl) as [L|L]; [exact L|]. exfalso. apply G. lra. }
  assert (Hmin : forall u, (s <= u < Y - 1)%Z -> 365 < inject_Z (N - days_in_years alt u) + dl).
  { intros u Hu. pose proof (diy_mono alt u (Y-1) ltac:(lia)).
    assert (X : (366 <= N - days_in_years alt u)%Z) by lia. toQ X. qlra. }
  assert (Hcase : ((s <= Y - 1)%Z /\ gloop rnd alt md s = Some (Y - 1)%Z /\
                     inject_Z (N - days_in_years alt (Y-1)) + dl <= 365) \/
                  (gloop rnd alt md s = Some Y /\ (N - days_in_years alt Y >= -30)%Z /\
                   (s = Y \/ 365 < inject_Z (N - days_in_years alt (Y-1)) + dl))).
  { destruct (Z_le_gt_dec s (Y - 1)) as [L|L].
    - destruct (Qlt_le_dec 365 (inject_Z (N - days_in_years alt (Y-1)) + dl)) as [Q1|Q1].
      + right. split; [|split; [|right; exact Q1]].
        * apply (gloop_ok md N); try assumption; try lia; try (intros; apply Hb; lia).
          -- intros u Hu. destruct (Z.eq_dec u (Y-1)) as [->|Ne]; [exact Q1|]. apply Hmin. lia.
          -- assert (X : (N - days_in_years alt Y <= 0)%Z) by lia. toQ X. qlra.
        * assert (X : (N - days_in_years alt (Y-1) >= 365)%Z).
          { destruct (Z_ge_dec (N - days_in_years alt (Y-1)) 365) as [G|G]; [exact G|].
            exfalso. assert (G' : (N - days_in_years alt (Y-1) <= 364)%Z) by lia. toQ G'. qlra. }
          unfold b2z in HS. destruct b; lia.
      + left. split; [exact L|]. split; [|exact Q1].
        apply (gloop_ok md N); try assumption; try lia; try (intros; apply Hb; lia).
    - assert (s = Y) by lia. right. split; [|split; [apply HsY; assumption|left; assumption]].
      apply (gloop_ok md N); try assumption; try lia; try (intros; apply Hb; lia).
      assert (X : (N - days_in_years alt Y <= 0)%Z) by lia. toQ X. qlra. }
  destruct Hcase as [(L & GL & Q1) | (GL & Q1 & Q2)]; rewrite GL; clear GL.
  - (* A *)
    set (n := (N - days_in_years alt (Y - 1))%Z) in *.
    assert (En0 : n = (N - days_in_years alt (Y - 1))%Z) by reflexivity.
    assert (En : n = (mbefore b m + D)%Z) by lia.
    specialize (Edays (Y-1)%Z ltac:(lia)). fold n in Edays.
    set (days := fsub rnd md (inject_Z (days_in_years alt (Y - 1)))) in *.
    assert (D0 : Qeqb days 0 = false).
    { destruct (Qeqb days 0) eqn:G; [|reflexivity]. apply Qeq_bool_eq in G. rewrite Edays in G.
      assert (X : (1 <= n)%Z) by lia. toQ X. exfalso. qlra. }
    rewrite D0. replace (Y - 1 + 1)%Z with Y by lia. fold b.
    destruct (gmonth_Z n days Edays ltac:(lia) (month_days b) 0 1 (month_days_bound b) ltac:(lia) ltac:(rewrite month_days_len; lia))
      as [q [Gq Eq]]. rewrite Gq. clear Gq.
    assert (N365 : (n + up <= 365)%Z).
    { destruct Hup as [[-> Z0]|[-> Z0]]; [clear Hfrac; byQ|].
      destruct (Z_le_gt_dec (n + 1) 365) as [G|G]; [exact G|]. exfalso. assert (G' : (365 <= n)%Z) by lia. toQ G'. qlra. }
    destruct (Z_le_gt_dec (D + up) (mlen b m)) as [S|S].
    + rewrite (gmonthZ_in b m (n + up) Hm) in * by lia. cbn [fst snd] in *.
      assert (Dq : fadd rnd q (fsub rnd (fmod1 rnd jd) (if Qltb (1 # 2) (fmod1 rnd jd) then 3 # 2 else 1 # 2)) == inject_Z D + dl).
      { unfold fadd. rewrite Hfrac, Eq.
        assert (X : inject_Z (n + up - mbefore b m) + (dl - inject_Z up) == inject_Z D + dl) by (rewrite En; qlra).
        rewrite X. apply Vd_ex. apply (Vd_int D); [lia|reflexivity]. }
      assert (Bq : Qltb (fadd rnd q (fsub rnd (fmod1 rnd jd) (if Qltb (1 # 2) (fmod1 rnd jd) then 3 # 2 else 1 # 2))) 1 = false).
      { rewrite Dq. apply Qltb_ge. assert (X := proj1 HD). toQ X. qlra. }
      rewrite Bq. eexists. split; [reflexivity|]. apply fin_near; [exact Dq|]. pose proof (mlen_range b m Hm); lia.
    + destruct Hup as [[U Z0]|[U Z0]]; [lia|].
      assert (D = mlen b m) by lia.
      assert (m < 12)%Z. { destruct (Z.eq_dec m 12) as [->|]; [|lia]. exfalso. pose proof (mbefore_12 b). unfold b2z in *.
         assert (mlen b 12 = 31)%Z by (destruct b; reflexivity). destruct b; lia. }
      pose proof (mbefore_succ b m ltac:(lia)) as MS.
      pose proof (mlen_range b (m+1) ltac:(lia)) as ML.
      rewrite (gmonthZ_in b (m + 1) (n + up)) in * by lia. cbn [fst snd] in *.
      assert (Dq : fadd rnd q (fsub rnd (fmod1 rnd jd) (if Qltb (1 # 2) (fmod1 rnd jd) then 3 # 2 else 1 # 2)) == dl).
      { unfold fadd. rewrite Hfrac, Eq.
        assert (X : inject_Z (n + up - mbefore b (m+1)) + (dl - inject_Z up) == dl).
        { replace (n + up - mbefore b (m+1))%Z with up by lia. qlra. }
        rewrite X. apply Vd_ex. apply (Vd_int 0); [lia|qlra]. }
      set (dd := fadd rnd q _) in *.
      assert (Bq : Qltb dd 1 = true) by (rewrite Dq; apply Qltb_lt; lra).
      rewrite Bq. replace (1 <? m + 1)%Z with true by lia. replace (m + 1 - 1)%Z with m by lia.
      replace (m =? 12)%Z with false by lia.
      eexists. split; [reflexivity|]. fold (mlen b m). unfold fadd.
      assert (X : Vd (inject_Z (mlen b m) + dl)) by (apply (Vd_int D); [lia|subst D; reflexivity]).
      apply fin_near; [rewrite Dq, (Vd_ex _ X); subst D; reflexivity|pose proof (mlen_range b m Hm); lia].
  - (* B *)
    set (n := (N - days_in_years alt Y)%Z) in *.
    assert (En0 : n = (N - days_in_years alt Y)%Z) by reflexivity.
    assert (En : n = (mbefore b m + D - (365 + b2z b))%Z) by lia.
    assert (m = 12)%Z.
    { destruct (Z.eq_dec m 12) as [G|G]; [exact G|]. exfalso.
      pose proof (mbefore_succ b m ltac:(lia)) as MS. pose proof (mbefore_12 b).
      assert (mbefore b (m + 1) <= mbefore b 12)%Z.
      { clear -Hm G. months Hm; try lia; destruct b; vm_compute; discriminate. }
      lia. }
    subst m. pose proof (mbefore_12 b) as M12.
    assert (L12 : mlen b 12 = 31%Z) by (destruct b; reflexivity).
    specialize (Edays Y ltac:(lia)). fold n in Edays.
    set (days := fsub rnd md (inject_Z (days_in_years alt Y))) in *.
    destruct (Qeqb days 0) eqn:D0.
    + apply Qeq_bool_eq in D0. rewrite Edays in D0.
      assert (n = 0)%Z.
      { destruct (Z_lt_ge_dec n 0) as [G|G]; [exfalso; assert (G' : (n <= -1)%Z) by lia; toQ G'; qlra|lia]. }
      assert (Z0 : dl == 0) by (rewrite H in D0; qlra).
      assert (U : up = 0%Z) by (destruct Hup as [[? _]|[_ ?]]; [assumption|lra]).
      assert (D = 31)%Z by lia. subst D.
      assert (Hq : exists dz, (if ((Y <? 0) && negb (Y mod 4 =? 0))%Z%bool then 365 else 366) == inject_Z dz + dl /\ dz = (365 + b2z b)%Z).
      { destruct Q2 as [Es|Q2].
        - replace (Y <? 0)%Z with true by lia. cbn [andb].
          destruct (Y mod 4 =? 0)%Z eqn:M4; cbn [negb].
          + exists 366%Z. split; [rewrite Z0; reflexivity|].
            assert (Eb : b = true) by (apply Hcent; try assumption; try reflexivity; lia). rewrite Eb. reflexivity.
          + exists 365%Z. split; [rewrite Z0; reflexivity|].
            assert (Eb : b = false) by (unfold b, is_leap_g, b2z; rewrite M4; destruct (Y mod 400 =? 0)%Z, (negb (Y mod 100 =? 0)%Z); reflexivity).
            rewrite Eb. reflexivity.
        - assert (Eb : b = true).
          { destruct b eqn:Eb; [reflexivity|]. exfalso. cbn [b2z] in *.
            assert (X : (N - days_in_years alt (Y - 1) <= 365)%Z) by lia. toQ X. qlra. }
          assert (M4 : (Y mod 4 =? 0)%Z = true).
          { unfold b, is_leap_g, b2z in Eb. destruct (Y mod 4 =? 0)%Z; try reflexivity; cbn in Eb; try discriminate. }
          rewrite M4. cbn [negb]. rewrite andb_false_r. exists 366%Z. split; [rewrite Z0; reflexivity|]. rewrite Eb. reflexivity. }
      destruct Hq as [dz [Hq Edz]].
      set (days' := if ((Y <? 0) && negb (Y mod 4 =? 0))%Z%bool then 365 else 366) in *.
      fold b.
      assert (Hdz : (365 <= dz <= 366)%Z) by (unfold b2z in Edz; destruct b; lia).
      destruct (gmonth_Z dz days' Hq ltac:(lia) (month_days b) 0 1 (month_days_bound b) ltac:(lia) ltac:(rewrite month_days_len; lia))
        as [q [Gq Eq]]. rewrite Gq. clear Gq.
      rewrite (gmonthZ_in b 12 (dz + up)) in * by lia. cbn [fst snd] in *.
      assert (Dq : fadd rnd q (fsub rnd (fmod1 rnd jd) (if Qltb (1 # 2) (fmod1 rnd jd) then 3 # 2 else 1 # 2)) == inject_Z 31 + dl).
      { unfold fadd. rewrite Hfrac, Eq.
        assert (X : inject_Z (dz + up - mbefore b 12) + (dl - inject_Z up) == inject_Z 31 + dl).
        { replace (dz + up - mbefore b 12)%Z with (31 + up)%Z by lia. qlra. }
        rewrite X. apply Vd_ex. apply (Vd_int 31); [lia|reflexivity]. }
      set (dd := fadd rnd q _) in *.
      assert (Bq : Qltb dd 1 = false) by (rewrite Dq; apply Qltb_ge; qlra).
      rewrite Bq. eexists. split; [reflexivity|]. apply fin_near; [exact Dq|lia].
    + set (b' := is_leap_g alt (Y + 1)).
      assert (Nn : (n <= 0)%Z) by lia.
      destruct (gmonth_Z n days Edays ltac:(lia) (month_days b') 0 1 (month_days_bound b') ltac:(lia) ltac:(rewrite month_days_len; lia))
        as [q [Gq Eq]]. rewrite Gq. clear Gq.
      rewrite (gmonthZ_low b' (n + up)) in * by lia. cbn [fst snd] in *.
      assert (Dq : fadd rnd q (fsub rnd (fmod1 rnd jd) (if Qltb (1 # 2) (fmod1 rnd jd) then 3 # 2 else 1 # 2)) == inject_Z n + dl).
      { unfold fadd. rewrite Hfrac, Eq.
        assert (X : inject_Z (n + up) + (dl - inject_Z up) == inject_Z n + dl) by qlra.
        rewrite X. apply Vd_ex. apply (Vd_int n); [lia|reflexivity]. }
      set (dd := fadd rnd q _) in *.
      assert (Bq : Qltb dd 1 = true).
      { rewrite Dq. apply Qltb_lt. assert (X := Nn). toQ X. qlra. }
      rewrite Bq. replace (1 <? 1)%Z with false by reflexivity. replace (1 + 11)%Z with 12%Z by reflexivity.
      replace (12 =? 12)%Z with true by reflexivity. replace (Y + 1 - 1)%Z with Y by lia.
      eexists. split; [reflexivity|]. fold (mlen b' 12). replace (mlen b' 12) with 31%Z by (destruct b'; reflexivity).
      unfold fadd.
      assert (X : Vd (inject_Z 31 + (inject_Z n + dl))) by (apply (Vd_int D); [lia|]; replace D with (31 + n)%Z by lia; qlra).
      apply fin_near; [rewrite Dq, (Vd_ex _ X); replace D with (31 + n)%Z by lia; qlra|lia].
Qed.

End Float.
