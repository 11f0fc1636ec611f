(** BadiProofs4.v -- statements on the year table, the lookup, the encoder and the decoder in terms of the API. *)
From Coq Require Import ZArith QArith Qround Qabs List Bool Lia Lqa Setoid Morphisms.
From Coq Require Import ZifyBool ZifyNat ZifyN.
From Verif Require Import Base Flt QUtil BaseModel MiscModel BadiModel BaseProofs BaseProofs2 SunProofs SpecBadi BadiProofs BadiProofs2 LongYear BadiProofs3 DecProofs.
Import ListNotations.
Local Open Scope Q_scope.
Ltac Zify.zify_post_hook ::= Z.div_mod_to_equations.

Lemma doy_dbm leap mo d : (0 <= mo <= 19)%Z -> bday_of_year leap mo d = (zdbm leap mo + d)%Z.
Proof.
  intro M. unfold bday_of_year, zdbm, bmonth_len. change (0 =? 0)%Z with true. cbv iota.
  destruct (Z.eqb_spec mo 0); [reflexivity|]. destruct (Z.eqb_spec mo 19); destruct (Z.ltb_spec mo 19); destruct leap; cbn [b2z]; lia.
Qed.
Lemma next_ext l l' p q : (l (fst (fst p)) = l' (fst (fst p))) -> next_bday l p q -> next_bday l' p q.
Proof.
  intros E H. destruct H; cbn [fst] in E; try (constructor; assumption).
  - constructor; [assumption|]. rewrite <- E. assumption.
  - rewrite E. constructor.
Qed.
Lemma next_valid l y mo d y' mo' d' : next_bday l (y, mo, d) (y', mo', d') ->
  (0 <= mo <= 19 /\ 1 <= d <= bmonth_len (l y) mo /\ 0 <= mo' <= 19 /\ 1 <= d' <= bmonth_len (l y') mo' /\ (y' = y \/ y' = y + 1))%Z.
Proof.
  assert (B : forall b x, (x <> 0)%Z -> bmonth_len b x = 19%Z) by (intros b x H; unfold bmonth_len; destruct (Z.eqb_spec x 0); [contradiction|reflexivity]).
  assert (B0 : forall b, (4 <= bmonth_len b 0 <= 5)%Z) by (intros [|]; vm_compute; split; discriminate).
  intro H. inversion H; subst; clear H.
  - lia.
  - rewrite !B by lia. lia.
  - pose proof (B0 (l y')). pose proof (B (l y') 18%Z ltac:(lia)). lia.
  - pose proof (B0 (l y')). pose proof (B (l y') 19%Z ltac:(lia)). lia.
  - pose proof (B (l y) 19%Z ltac:(lia)). pose proof (B (l (y + 1)%Z) 1%Z ltac:(lia)). lia.
Qed.
Lemma earlier_doy leap mo d mo' d' : (0 <= mo <= 19)%Z -> (1 <= d <= bmonth_len leap mo)%Z -> (0 <= mo' <= 19)%Z -> (1 <= d' <= bmonth_len leap mo')%Z ->
  ((bmonth_pos mo < bmonth_pos mo' \/ (mo = mo' /\ d < d')) <-> bday_of_year leap mo d < bday_of_year leap mo' d')%Z.
Proof.
  unfold bmonth_pos, bday_of_year, bmonth_len. change (0 =? 0)%Z with true. intros.
  destruct (Z.eqb_spec mo 0); destruct (Z.eqb_spec mo' 0); destruct (Z.eqb_spec mo 19); destruct (Z.eqb_spec mo' 19); destruct leap; lia.
Qed.

Section Api.
Variable rnd : Q -> Q.
Hypothesis N : Nearest rnd.
#[local] Instance prop_rnd6 : Proper (Qeq ==> Qeq) rnd.
Proof. intros a b E. apply near_proper; [exact N|exact E]. Qed.
Variable m : Q -> Q -> Q -> Q.
Hypothesis EV : evening rnd m.
Notation LAT := (TEHRAN_LAT rnd).
Notation LON := (TEHRAN_LON rnd).
Notation T := (year_table rnd m).
Let band := band rnd N m EV.

(** C08 *)
Lemma table_domain y : year_table rnd m y <> None <-> (-1843 <= y <= 1162)%Z.
Proof.
  split.
  - intro H. destruct (Z_le_gt_dec (-1843) y); [|exfalso; apply H, year_table_none; lia].
    destruct (Z_le_gt_dec y 1162); [lia|exfalso; apply H, year_table_none; lia].
  - intro H. rewrite (year_table_ok rnd N m EV) by exact H. discriminate.
Qed.
Lemma table_len y : (-1843 <= y <= 1161)%Z -> exists a b, T y = Some a /\ T (y + 1)%Z = Some b /\
  b = (a + (if leap_of rnd m y then 366 else 365))%Z.
Proof.
  intro H. exists (ystart y), (ystart (y + 1)). rewrite !(year_table_ok rnd N m EV) by lia.
  rewrite (leap_of_ok rnd N m EV) by exact H. pose proof (year_len y H) as L. repeat split. destruct (zleap y); cbn [b2z] in L; lia.
Qed.

(** C09 *)
Lemma year_lookup r : (-287 <= r <= 1096902)%Z ->
  exists y a b, badi_year_from_rd rnd T r = Ok y /\ T y = Some a /\ T (y + 1)%Z = Some b /\ (a <= r < b)%Z /\
    (forall y' a' b', T y' = Some a' -> T (y' + 1)%Z = Some b' -> (a' <= r < b')%Z -> y' = y).
Proof.
  intro R. destruct (year_exists r ltac:(lia)) as (y & Y & RY). exists y, (ystart y), (ystart (y + 1)).
  rewrite !(year_table_ok rnd N m EV) by lia. split; [apply (year_from_rd_ok rnd N m EV); assumption || lia|].
  split; [reflexivity|]. split; [reflexivity|]. split; [exact RY|]. intros y' a' b' A B C.
  assert (Y1 : (-1843 <= y' <= 1162)%Z) by (apply table_domain; rewrite A; discriminate).
  assert (Y2 : (-1843 <= y' + 1 <= 1162)%Z) by (apply table_domain; rewrite B; discriminate).
  rewrite (year_table_ok rnd N m EV) in A by lia. rewrite (year_table_ok rnd N m EV) in B by lia.
  assert (ystart y' = a')%Z by congruence. assert (ystart (y' + 1) = b')%Z by congruence. subst a' b'.
  apply (year_unique y' y r); lia.
Qed.

(** C10 *)
Lemma enc_months y mo : (-1843 <= y <= 1161)%Z -> (0 <= mo <= 19)%Z ->
  forall d, exists k, days_before_month_enc T y mo = Ok k /\ (k + d = bday_of_year (leap_of rnd m y) mo d)%Z.
Proof.
  intros Y M d. exists (zdbm (zleap y) mo). split; [apply (dbm_ok rnd N m EV); exact Y|].
  rewrite (leap_of_ok rnd N m EV) by exact Y. rewrite doy_dbm by exact M. reflexivity.
Qed.
Lemma dec_enc leap mo d : (0 <= mo <= 19)%Z -> (1 <= d <= bmonth_len leap mo)%Z ->
  month_day_of_doy (bday_of_year leap mo d) (4 + b2z leap) = (mo, d) /\ (1 <= bday_of_year leap mo d <= 365 + b2z leap)%Z.
Proof. intros M D. rewrite doy_dbm by exact M. split; [apply doy_md; assumption|apply doy_range; assumption]. Qed.
Lemma enc_dec leap n mo d : (1 <= n <= 365 + b2z leap)%Z -> month_day_of_doy n (4 + b2z leap) = (mo, d) ->
  (0 <= mo <= 19 /\ 1 <= d <= bmonth_len leap mo /\ bday_of_year leap mo d = n)%Z.
Proof. intros R E. destruct (md_doy leap n mo d R E) as (A & B & C). rewrite doy_dbm by exact A. tauto. Qed.

(** C43 *)
Lemma to_jd_at y mo d z : (-1843 <= y <= 1161)%Z -> valid_bday (leap_of rnd m) y mo d ->
  ~ In (y, mo, d) (skipped_bdates ++ reform_bdates ++ [after_reform]) -> T y = Some z ->
  let E := (z + bday_of_year (leap_of rnd m y) mo d + 1721422)%Z in
  exists j, to_jd rnd m (bd y mo d) = Ok j /\ is_float j /\ inject_Z E + (7 # 1000) < j < inject_Z E + (208 # 1000) /\
   let n := (HI E - E)%Z in let x := arg rnd (HI E) in (0 <= n <= 12)%Z /\ zgap (2 * E) = false /\
     Qabs (x - (inject_Z (E + n) - (1#2) - (51288701 # 360000000))) <= 1 # 100000000 /\
     Qabs (j - (x - inject_Z n + m x LAT LON)) <= 1 # 10000000.
Proof.
  intros Y [M D] X TZ. rewrite (leap_of_ok rnd N m EV) in * by exact Y. 
  rewrite (year_table_ok rnd N m EV) in TZ by lia. assert (Z : ystart y = z) by congruence. subst z. clear TZ.
  rewrite doy_dbm by exact M. cbv zeta. replace (ystart y + (zdbm (zleap y) mo + d) + 1721422)%Z with (ED y mo d) by (unfold ED, zrd; lia).
  pose proof (to_jd_henc rnd N m EV y mo d Y M D) as H. 
  assert (X1 : inb (y, mo, d) skipped_bdates || inb (y, mo, d) reform_bdates = false).
  { apply orb_false_iff. split; (destruct (inb _ _) eqn:I; [apply inb_in in I; exfalso; apply X; rewrite !in_app_iff; tauto|reflexivity]). }
  assert (X2 : tripleb (y, mo, d) after_reform = false).
  { destruct (tripleb _ _) eqn:I; [|reflexivity]. apply tripleb_eq in I. exfalso. apply X. rewrite !in_app_iff. rewrite I. cbn [In]. tauto. }
  unfold henc_spec in H. rewrite X1, X2 in H. destruct H as (R & j & J & JE & JF).
  exists j. split; [exact J|]. split; [exact JF|].
  assert (G : zgap (2 * ED y mo d) = false /\ zinvalid (2 * HI (ED y mo d)) = false).
  { pose proof (henc_date y mo d Y M D) as HD. unfold henc_spec in HD. rewrite X1, X2 in HD.
    assert (G : zgap (2 * ED y mo d) = false).
    { destruct (zgap (2 * ED y mo d)) eqn:G; [|reflexivity]. exfalso.
      (* days of the gap are reform or after-reform dates *)
      unfold zgap in G. assert (I : In (ED y mo d) windows) by (unfold windows; apply in_or_app; right; apply zlist_in; unfold GAP0; lia).
      assert (W : In y win_years) by (apply (window_year y (ED y mo d)); [exact Y|unfold ED; pose proof (rd_range y mo d Y M D); lia|exact I]).
      assert (K : forallb (fun y => forallb (fun mo => forallb (fun d => negb (zgap (2 * ED y mo d)) || inb (y, mo, d) (reform_bdates ++ [after_reform]))
          (zlist 1 (Z.to_nat (bmonth_len (zleap y) mo)))) (zlist 0 20)) win_years = true) by (vm_compute; reflexivity).
      rewrite forallb_forall in K. specialize (K y W). rewrite forallb_forall in K. specialize (K mo (zlist_in 0 20 mo ltac:(lia))).
      rewrite forallb_forall in K. specialize (K d). 
      assert (Gt : zgap (2 * ED y mo d) = true) by (unfold zgap; lia). rewrite Gt in K. cbn [negb orb] in K.
      apply X. apply in_or_app. right. apply inb_in, K, zlist_in. rewrite Z2Nat.id; [lia|]. unfold bmonth_len. destruct (mo =? 0)%Z; destruct (zleap y); lia. }
    split; [exact G|]. apply (EX_HI _ G). }
  destruct G as [G I]. destruct (EX_HI _ G) as [EX _].
  pose proof (AE_range rnd N m band _ R) as A. rewrite EX in A. split; [rewrite JE; exact A|].
  pose proof (zdiff_e_range (2 * HI (ED y mo d))) as ZR.
  set (n := zdiff (2 * HI (ED y mo d)) exact_breaks) in *.
  assert (HH : (ED y mo d + n = HI (ED y mo d))%Z) by (rewrite <- EX at 1; unfold SunProofs.EX; fold n; lia).
  replace (HI (ED y mo d) - ED y mo d)%Z with n by lia. split; [exact ZR|]. split; [exact G|].
  rewrite HH. pose proof (arg_near rnd N _ R) as B. unfold lf in B. split; [apply Qabs_le_iff; split; lra|].
  destruct (AE_eq rnd N m band _ R) as [AEE _]. rewrite JE, AEE. fold n. pose proof (SS_near rnd N m band _ R) as S. unfold lf in S.
  apply Qabs_le_iff in S. fold (mu rnd m (HI (ED y mo d))). apply Qabs_le_iff. split; lra.
Qed.
Lemma to_jd_value y mo d z : (-1843 <= y <= 1161)%Z -> valid_bday (leap_of rnd m) y mo d ->
  ~ In (y, mo, d) (skipped_bdates ++ reform_bdates ++ [after_reform]) -> T y = Some z ->
  let E := (z + bday_of_year (leap_of rnd m y) mo d + 1721422)%Z in
  exists j, to_jd rnd m (bd y mo d) = Ok j /\ is_float j /\ inject_Z E + (7 # 1000) < j < inject_Z E + (208 # 1000) /\
   exists n x, (0 <= n <= 12)%Z /\ Qabs (x - (inject_Z (E + n) - (1#2) - (51288701 # 360000000))) <= 1 # 100000000 /\
     Qabs (j - (x - inject_Z n + m x LAT LON)) <= 1 # 10000000.
Proof.
  intros Y V X TZ E. destruct (to_jd_at y mo d z Y V X TZ) as (j & J & F & B & n0 & _ & A & C). fold E in B, n0, A, C.
  exists j. repeat (split; [assumption|]). exists (HI E - E)%Z, (arg rnd (HI E)). tauto.
Qed.
Lemma to_jd_refused y mo d : (-1843 <= y <= 1161)%Z -> valid_bday (leap_of rnd m) y mo d ->
  (to_jd rnd m (bd y mo d) = Err ValueError <-> In (y, mo, d) (skipped_bdates ++ reform_bdates)).
Proof.
  intros Y [M D]. rewrite (leap_of_ok rnd N m EV) in D by exact Y.
  pose proof (to_jd_henc rnd N m EV y mo d Y M D) as H. unfold henc_spec in H.
  destruct (inb (y, mo, d) skipped_bdates || inb (y, mo, d) reform_bdates) eqn:X.
  - split; [intros _|intros _; exact H]. apply in_or_app. apply orb_true_iff in X. rewrite !inb_in in X. exact X.
  - split; [|intro I; exfalso; apply in_app_or in I; rewrite <- !inb_in in I; apply orb_false_iff in X; destruct X; destruct I; congruence].
    destruct (tripleb _ _); destruct H as (_ & j & J & _); rewrite J; discriminate.
Qed.
(** the day after the reform gap gets the sunset that (-261, 11, 9) should have had *)
Lemma to_jd_after_reform : exists j j', to_jd rnd m (bd (-261) 11 19) = Ok j /\ to_jd rnd m (bd (-261) 12 1) = Ok j' /\
  j + (107 # 10) < j'.
Proof.
  pose proof (to_jd_henc rnd N m EV (-261) 11 19 ltac:(lia) ltac:(lia)) as H.
  assert (B : bmonth_len (zleap (-261)) 11 = 19%Z) by reflexivity. rewrite B in H. specialize (H ltac:(lia)).
  let v := eval vm_compute in (henc_spec (-261) 11 19) in change (henc_spec (-261) 11 19) with v in H.
  destruct H as (R & j & J & JE & _).
  pose proof (to_jd_henc rnd N m EV (-261) 12 1 ltac:(lia) ltac:(lia)) as H'.
  assert (B' : bmonth_len (zleap (-261)) 12 = 19%Z) by reflexivity. rewrite B' in H'. specialize (H' ltac:(lia)).
  let v := eval vm_compute in (henc_spec (-261) 12 1) in change (henc_spec (-261) 12 1) with v in H'.
  destruct H' as (R' & j' & J' & JE' & _). exists j, j'. split; [exact J|]. split; [exact J'|].
  pose proof (AE_range rnd N m band _ R) as A. pose proof (AE_range rnd N m band _ R') as A'. rewrite <- JE in A. rewrite <- JE' in A'.
  match type of A with context [EX ?h] => let v := eval vm_compute in (EX h) in change (EX h) with v in A end.
  match type of A' with context [EX ?h] => let v := eval vm_compute in (EX h) in change (EX h) with v in A' end.
  zconsts. lra.
Qed.
Lemma rd_earlier y mo d y' mo' d' : (-1843 <= y <= 1161)%Z -> (-1843 <= y' <= 1161)%Z -> valid_bday (leap_of rnd m) y mo d ->
  valid_bday (leap_of rnd m) y' mo' d' -> (bearlier y mo d y' mo' d' <-> (zrd y mo d < zrd y' mo' d')%Z).
Proof.
  intros Y Y' [M D] [M' D']. rewrite (leap_of_ok rnd N m EV) in D, D' by assumption.
  pose proof (rd_range y mo d Y M D) as R. pose proof (rd_range y' mo' d' Y' M' D') as R'.
  unfold bearlier. destruct (Z.lt_trichotomy y y') as [L|[L|L]].
  - pose proof (ystart_mono (y + 1) y' ltac:(lia) ltac:(lia)). split; intros _; [lia|left; exact L].
  - subst y'. pose proof (earlier_doy (zleap y) mo d mo' d' M D M' D') as E. rewrite !doy_dbm in E by assumption. unfold zrd.
    split; [intros [H|[_ H]]; [lia|apply E in H; lia]|intro H; right; split; [reflexivity|apply E; lia]].
  - pose proof (ystart_mono (y' + 1) y ltac:(lia) ltac:(lia)). split; [intros [K|[K _]]; lia|lia].
Qed.
Lemma to_jd_increasing y mo d y' mo' d' j j' : (-1843 <= y <= 1161)%Z -> (-1843 <= y' <= 1161)%Z -> valid_bday (leap_of rnd m) y mo d ->
  valid_bday (leap_of rnd m) y' mo' d' -> (y, mo, d) <> after_reform -> (y', mo', d') <> after_reform ->
  to_jd rnd m (bd y mo d) = Ok j -> to_jd rnd m (bd y' mo' d') = Ok j' -> (bearlier y mo d y' mo' d' <-> j < j').
Proof.
  intros Y Y' V V' X X' J J'.
  assert (I : ~ In (y, mo, d) (skipped_bdates ++ reform_bdates ++ [after_reform])).
  { rewrite app_assoc. intro I. apply in_app_or in I. destruct I as [I|[I|[]]]; [|congruence].
    apply (to_jd_refused y mo d Y V) in I. congruence. }
  assert (I' : ~ In (y', mo', d') (skipped_bdates ++ reform_bdates ++ [after_reform])).
  { rewrite app_assoc. intro I'. apply in_app_or in I'. destruct I' as [I'|[I'|[]]]; [|congruence].
    apply (to_jd_refused y' mo' d' Y' V') in I'. congruence. }
  destruct (to_jd_value y mo d (ystart y) Y V I (year_table_ok rnd N m EV y ltac:(lia))) as (k & K & _ & B & _).
  destruct (to_jd_value y' mo' d' (ystart y') Y' V' I' (year_table_ok rnd N m EV y' ltac:(lia))) as (k' & K' & _ & B' & _).
  rewrite (rd_earlier y mo d y' mo' d' Y Y' V V'). destruct V as [M D]. destruct V' as [M' D'].
  rewrite (leap_of_ok rnd N m EV) in D, D', B, B' by assumption. rewrite doy_dbm in B, B' by assumption.
  assert (k = j) by congruence. assert (k' = j') by congruence. subst k k'.
  replace (ystart y + (zdbm (zleap y) mo + d) + 1721422)%Z with (zrd y mo d + 1721423)%Z in B by (unfold zrd; lia).
  replace (ystart y' + (zdbm (zleap y') mo' + d') + 1721422)%Z with (zrd y' mo' d' + 1721423)%Z in B' by (unfold zrd; lia).
  zpush. split; intro H.
  - toQ H. lra.
  - destruct (Z_lt_ge_dec (zrd y mo d) (zrd y' mo' d')) as [G|G]; [exact G|]. exfalso.
    destruct (Z.eq_dec (zrd y mo d) (zrd y' mo' d')) as [EQ|NE].
    + apply rd_inj in EQ; try assumption. assert (y = y' /\ mo = mo' /\ d = d') as (-> & -> & ->) by (injection EQ; auto).
      rewrite J in J'. assert (j = j') by congruence. subst. lra.
    + assert (G' : (zrd y' mo' d' < zrd y mo d)%Z) by lia. toQ G'. lra.
Qed.
Lemma to_jd_step y mo d y' mo' d' j j' : (-1843 <= y <= 1161)%Z -> (y' <= 1161)%Z -> next_bday (leap_of rnd m) (y, mo, d) (y', mo', d') ->
  (y, mo, d) <> after_reform -> (y', mo', d') <> after_reform ->
  to_jd rnd m (bd y mo d) = Ok j -> to_jd rnd m (bd y' mo' d') = Ok j' -> (4 # 5) - (1 # 100) < j' - j < (6 # 5) + (1 # 100).
Proof.
  intros Y Y1 NX X X' J J'. destruct (next_valid _ _ _ _ _ _ _ NX) as (M & D & M' & D' & YY).
  assert (Y' : (-1843 <= y' <= 1161)%Z) by lia.
  assert (V : valid_bday (leap_of rnd m) y mo d) by (split; assumption). assert (V' : valid_bday (leap_of rnd m) y' mo' d') by (split; assumption).
  assert (I : ~ In (y, mo, d) (skipped_bdates ++ reform_bdates ++ [after_reform])).
  { rewrite app_assoc. intro I. apply in_app_or in I. destruct I as [I|[I|[]]]; [|congruence].
    apply (to_jd_refused y mo d Y V) in I. congruence. }
  assert (I' : ~ In (y', mo', d') (skipped_bdates ++ reform_bdates ++ [after_reform])).
  { rewrite app_assoc. intro I'. apply in_app_or in I'. destruct I' as [I'|[I'|[]]]; [|congruence].
    apply (to_jd_refused y' mo' d' Y' V') in I'. congruence. }
  destruct (to_jd_value y mo d (ystart y) Y V I (year_table_ok rnd N m EV y ltac:(lia))) as (k & K & _ & B & _).
  destruct (to_jd_value y' mo' d' (ystart y') Y' V' I' (year_table_ok rnd N m EV y' ltac:(lia))) as (k' & K' & _ & B' & _).
  assert (k = j) by congruence. assert (k' = j') by congruence. subst k k'.
  rewrite (leap_of_ok rnd N m EV) in B, B' by assumption. rewrite doy_dbm in B, B' by assumption.
  replace (ystart y + (zdbm (zleap y) mo + d) + 1721422)%Z with (zrd y mo d + 1721423)%Z in B by (unfold zrd; lia).
  replace (ystart y' + (zdbm (zleap y') mo' + d') + 1721422)%Z with (zrd y' mo' d' + 1721423)%Z in B' by (unfold zrd; lia).
  assert (NX' : next_bday zleap (y, mo, d) (y', mo', d')).
  { apply (next_ext (leap_of rnd m)); [cbn [fst]; apply (leap_of_ok rnd N m EV); exact Y|exact NX]. }
  pose proof (rd_next _ _ NX') as RN. cbv beta iota in RN. rewrite (RN Y) in B'. zpush. split; lra.
Qed.

(** C42 *)
Lemma of_jd_right_day y mo d y' mo' d' jd sp sq : (-1843 <= y <= 1160)%Z -> next_bday (leap_of rnd m) (y, mo, d) (y', mo', d') ->
  ~ In (y, mo, d) irregular_bdates -> to_jd rnd m (bd y mo d) = Ok sp -> to_jd rnd m (bd y' mo' d') = Ok sq ->
  is_float jd -> sp <= jd -> jd < sq ->
  exists fr, 0 <= fr < 1 /\
    ((jd < sp + 1 /\ of_jd rnd m jd = Ok (y, mo, d, fr) /\ (~ near_midnight jd -> fr == jd - sp)) \/
     (sp + 1 <= jd /\ of_jd rnd m jd = Ok (y', mo', d', fr) /\ Qabs (fr - (jd - sp - 1)) <= 1 # 1000000000)).
Proof.
  intros Y NX I JP JQ F L U. destruct (next_valid _ _ _ _ _ _ _ NX) as (M & D & M' & D' & YY).
  assert (NX' : next_bday zleap (y, mo, d) (y', mo', d')).
  { apply (next_ext (leap_of rnd m)); [cbn [fst]; apply (leap_of_ok rnd N m EV); lia|exact NX]. }
  rewrite (leap_of_ok rnd N m EV) in D, D' by lia.
  pose proof (rd_next _ _ NX') as RN. cbv beta iota in RN. specialize (RN ltac:(lia)).
  assert (RQ : (zrd y' mo' d' <= 1096902)%Z).
  { pose proof (rd_range y mo d ltac:(lia) M D). pose proof (ystart_mono (y + 1) 1161 ltac:(lia) ltac:(lia)). rewrite ystart_1161 in *. lia. }
  assert (C : calm (ED y mo d)) by (apply calm_date; [lia|assumption..]).
  pose proof (ED_days y mo d ltac:(lia) M D) as RE.
  assert (EDN : ED y' mo' d' = (ED y mo d + 1)%Z) by (unfold ED; lia).
  set (n := zdiff (2 * ED y mo d) meeus_breaks).
  assert (HP : henc_spec y mo d = Some (HI (ED y mo d))).
  { unfold henc_spec. assert (X1 : inb (y, mo, d) skipped_bdates || inb (y, mo, d) reform_bdates = false).
    { apply orb_false_iff. split; (destruct (inb _ _) eqn:K; [apply inb_in in K; exfalso; apply I; unfold irregular_bdates; rewrite !in_app_iff; tauto|reflexivity]). }
    assert (X2 : tripleb (y, mo, d) after_reform = false).
    { destruct (tripleb _ _) eqn:K; [|reflexivity]. apply tripleb_eq in K. exfalso. apply I. unfold irregular_bdates. rewrite !in_app_iff, K. cbn [In]. tauto. }
    rewrite X1, X2. reflexivity. }
  pose proof (to_jd_henc rnd N m EV y mo d ltac:(lia) M D) as EP. rewrite HP in EP. destruct EP as (_ & p & P1 & P2 & _).
  assert (p = sp) by congruence. subst p.
  pose proof (to_jd_henc rnd N m EV y' mo' d' ltac:(lia) M' D') as EQ.
  assert (HQ : henc_spec y' mo' d' = None \/ henc_spec y' mo' d' = Some (HI (ED y' mo' d'))).
  { unfold henc_spec. destruct (_ || _); [left; reflexivity|]. destruct (tripleb (y', mo', d') after_reform) eqn:K; [|right; reflexivity].
    exfalso. apply tripleb_eq in K. unfold after_reform in K. 
    assert (y' = -261 /\ mo' = 11 /\ d' = 19)%Z as (-> & -> & ->) by (injection K; auto).
    assert (KP : (y, mo, d) = (-261, 11, 18)%Z).
    { apply rd_inj; [lia|assumption|assumption|lia|lia|vm_compute; split; discriminate|].
      assert (QQ : zrd (-261) 11 19 = (zrd (-261) 11 18 + 1)%Z) by reflexivity. lia. }
    apply I. rewrite KP. unfold irregular_bdates. rewrite !in_app_iff. right. right. left. unfold reform_bdates. cbn [In]. tauto. }
  destruct HQ as [HQ|HQ]; rewrite HQ in EQ; [congruence|]. destruct EQ as (_ & q & Q1 & Q2 & _). assert (q = sq) by congruence. subst q.
  rewrite EDN in Q2. 
  destruct (calm_const _ (2 * (ED y mo d + 1)) C ltac:(lia)) as [ZC _].
  assert (HQ2 : HI (ED y mo d + 1) = (ED y mo d + 1 + n)%Z) by (unfold HI; rewrite ZC; reflexivity). rewrite HQ2 in Q2.
  change (HI (ED y mo d)) with (ED y mo d + n)%Z in P2.
  destruct (dec_core rnd N m EV (ED y mo d) jd ltac:(lia) C F) as (astro & fr & UT & FR & K1 & K2).
  { fold n. rewrite <- P2. exact L. }
  { fold n. rewrite <- Q2. exact U. }
  fold n in K1, K2. rewrite <- P2 in K1, K2. exists fr. split; [exact FR|].
  destruct (Qlt_le_dec jd (sp + 1)) as [G|G].
  - left. split; [exact G|]. destruct (K1 G) as [C1 C2]. split; [|exact C2].
    apply (of_jd_day rnd N m EV jd astro fr y mo d); try assumption; lia.
  - right. split; [exact G|]. destruct (K2 G) as [C1 C2]. split; [|exact C2].
    apply (of_jd_day rnd N m EV jd astro fr y' mo' d'); try assumption; try lia. 
Qed.
End Api.
