(** DecProofs.v -- decoding a Julian day finds the day whose opening sunset is the last one before it. *)
From Coq Require Import ZArith QArith Qround Qabs List Bool Lia Lqa Setoid Morphisms.
From Coq Require Import ZifyBool ZifyNat ZifyN.
From Verif Require Import Base Flt QUtil BaseModel MiscModel BadiModel BaseProofs BaseProofs2 SunProofs SpecBadi BadiProofs BadiProofs2 LongYear BadiProofs3.
Import ListNotations.
Local Open Scope Q_scope.
Ltac Zify.zify_post_hook ::= Z.div_mod_to_equations.

(** a stretch of half-days without a discontinuity *)
Definition calm (E : Z) : Prop := (forall b, In b break_days -> E < b - 1 \/ b < E)%Z /\ (E < GAP0 - 1 \/ GAP0 + 10 < E)%Z.
Lemma calm_const E h : calm E -> (2 * E - 2 <= h <= 2 * E + 2)%Z ->
  zdiff h meeus_breaks = zdiff (2 * E) meeus_breaks /\ zgap h = false.
Proof.
  intros [B G] R. unfold GAP0 in G. split; [|unfold zgap; lia].
  assert (B1 : forall b, In b break_days -> (2 * b - 1 <= 2 * E - 2 \/ 2 * E + 2 < 2 * b - 1)%Z) by (intros b I; specialize (B b I); lia).
  assert (G1 : (4598297 <= 2 * E - 2 \/ 2 * E + 2 < 4598297)%Z) by lia. clear B G.
  set (k := (2 * E)%Z) in *. clearbody k. clear E.
  pose proof (zdiff_m_cases h) as H. pose proof (zdiff_m_cases k) as H'. cbv zeta in H, H'.
  set (n := zdiff h meeus_breaks) in *. set (n' := zdiff k meeus_breaks) in *. clearbody n n'.
  split_or H; split_or H'; try reflexivity; exfalso; try lia;
    (match type of H' with (?z <= k < _)%Z => let b := eval compute in ((z + 1) / 2)%Z in pose proof (B1 b ltac:(cbn; tauto)); lia end) ||
    (match type of H with (?z <= h < _)%Z => let b := eval compute in ((z + 1) / 2)%Z in pose proof (B1 b ltac:(cbn; tauto)); lia end).
Qed.

Lemma float_diff x y : is_float x -> is_float y -> 1048576 <= x -> 1048576 <= y -> Qabs (x - y) <= 1000 -> is_float (x - y).
Proof.
  intros Fx Fy Lx Ly D. destruct (float_grid x Fx Lx) as [a A]. destruct (float_grid y Fy Ly) as [b B].
  apply (is_float_comp ((a - b) # 8589934592)).
  - rewrite A, B. unfold Qeq, Qminus, Qplus, Qopp. cbn [Qnum Qden]. lia.
  - apply grid_float. rewrite A, B in D. apply Qabs_le_iff in D. destruct D as [D1 D2].
    unfold Qle, Qminus, Qplus, Qopp in D1, D2. cbn [Qnum Qden] in D1, D2. change (2 ^ 53)%Z with 9007199254740992%Z. lia.
Qed.

Section Dec.
Variable rnd : Q -> Q.
Hypothesis N : Nearest rnd.
#[local] Instance prop_rnd5 : Proper (Qeq ==> Qeq) rnd.
Proof. intros a b E. apply near_proper; [exact N|exact E]. Qed.
Variable m : Q -> Q -> Q -> Q.
Hypothesis EV : evening rnd m.
Notation LAT := (TEHRAN_LAT rnd).
Notation LON := (TEHRAN_LON rnd).
Notation T := (year_table rnd m).
Notation AE := (AE rnd m).
Let band := band rnd N m EV.

Lemma sub_exact x y : is_float x -> is_float y -> 1048576 <= x -> 1048576 <= y -> Qabs (x - y) <= 1000 -> fsub rnd x y == x - y.
Proof. intros. unfold fsub. apply near_exact; [exact N|]. apply float_diff; assumption. Qed.

(** sunset opening exact civil day [E], as found through historical day [E + n] *)
Lemma calm_sunset E n : (1710000 < E < 2890000)%Z -> calm E -> n = zdiff (2 * E) meeus_breaks ->
  forall F, (E - 1 <= F <= E + 1)%Z -> (1700001 < F + n < 2900000)%Z /\
    exact_from_meeus rnd (SS rnd m (F + n)) = Ok (AE (F + n)) /\ EX (F + n) = F.
Proof.
  intros R C -> F FR. pose proof (zdiff_m_range (2 * E)) as D.
  destruct (calm_const E (2 * F) C ltac:(lia)) as [Z G]. rewrite <- Z. 
  assert (D' : (0 <= zdiff (2 * F) meeus_breaks <= 12)%Z) by (rewrite Z; exact D).
  destruct (EX_HI F G) as [X I]. unfold HI in X, I.
  split; [lia|]. split; [|exact X].
  rewrite (exact_sunset rnd N m band) by lia. rewrite I. reflexivity.
Qed.

Lemma dec_core E jd : (1710000 < E < 2890000)%Z -> calm E -> is_float jd ->
  let n := zdiff (2 * E) meeus_breaks in
  AE (E + n) <= jd -> jd < AE (E + 1 + n) ->
  exists astro fr, utc_to_badi_time rnd m jd LAT LON = Ok (astro, fr) /\ 0 <= fr < 1 /\
    (jd < AE (E + n) + 1 -> cday rnd astro = E /\ (~ near_midnight jd -> fr == jd - AE (E + n))) /\
    (AE (E + n) + 1 <= jd -> cday rnd astro = (E + 1)%Z /\ Qabs (fr - (jd - AE (E + n) - 1)) <= 1 # 1000000000).
Proof.
  intros R C FJ n L U.
  destruct (calm_sunset E n R C eq_refl E ltac:(lia)) as (R0 & S0 & X0).
  destruct (calm_sunset E n R C eq_refl (E + 1)%Z ltac:(lia)) as (R1 & S1 & X1).
  destruct (calm_sunset E n R C eq_refl (E - 1)%Z ltac:(lia)) as (Rm & Sm & Xm).
  pose proof (AE_range rnd N m band _ R0) as A0. rewrite X0 in A0.
  pose proof (AE_range rnd N m band _ R1) as A1. rewrite X1 in A1.
  pose proof (AE_range rnd N m band _ Rm) as Am. rewrite Xm in Am.
  destruct (AE_size rnd N m EV _ R0) as [F0 Z0]. destruct (AE_size rnd N m EV _ R1) as [F1 Z1]. destruct (AE_size rnd N m EV _ Rm) as [Fm Zm].
  set (s0 := AE (E + n)) in *. set (s1 := AE (E + 1 + n)) in *. set (sm := AE (E - 1 + n)) in *.
  rewrite inject_Z_plus in A1. rewrite inject_Z_sub in Am. change (inject_Z 1) with 1 in A1, Am.
  assert (HD : (2 * E - 2 <= hd jd <= 2 * E + 2)%Z).
  { assert (hd jd < 2 * E + 3)%Z by (unfold hd; rewrite Zlt_Qlt; eapply Qle_lt_trans; [apply Qfloor_le|]; qlra).
    assert (2 * E <= hd jd)%Z; [|lia]. unfold hd. rewrite <- (Qfloor_Z (2 * E)). apply Qfloor_resp_le. qlra. }
  destruct (calm_const E (hd jd) C HD) as [ZD ZG].
  unfold utc_to_badi_time. rewrite meeus_from_exact_z, ZG, ZD. cbn [bind]. fold n.
  pose proof (zdiff_m_range (2 * E)) as ND. fold n in ND.
  assert (NQ : 0 <= inject_Z n <= 12) by (change 0 with (inject_Z 0); change 12 with (inject_Z 12); rewrite <- !Zle_Qle; lia).
  assert (H1 : Qabs (jd + inject_Z n) <= 8388608) by (apply Qabs_le_iff; split; lra).
  pose proof (near23 rnd N _ H1) as B1. set (hist := fadd rnd jd (inject_Z n)) in *. unfold fadd in hist. fold hist in B1.
  assert (H2 : Qabs (hist + (-1)) <= 8388608) by (apply Qabs_le_iff; split; lra).
  pose proof (near23 rnd N _ H2) as B2. set (hm := fadd rnd hist (-1)) in *. unfold fadd in hm. fold hm in B2.
  assert (H3 : Qabs (hist + 0) <= 8388608) by (apply Qabs_le_iff; split; lra).
  pose proof (near23 rnd N _ H3) as B3. set (h0 := fadd rnd hist 0) in *. unfold fadd in h0. fold h0 in B3.
  rewrite !sun_setting_SS. 
  assert (Q1 : Qabs hm <= 8388600) by (apply Qabs_le_iff; split; lra).
  assert (Q2 : Qabs h0 <= 8388600) by (apply Qabs_le_iff; split; lra).
  destruct (cday_near rnd N hm Q1) as [Cm1 Cm2]. destruct (cday_near rnd N h0 Q2) as [C01 C02]. unfold lf in *.
  (* the two civil days *)
  assert (CA : (cday rnd h0 = E + n \/ cday rnd h0 = E + 1 + n)%Z).
  { assert (cday rnd h0 < E + 2 + n)%Z by byQ. assert (E + n < cday rnd h0 + 1)%Z by byQ. lia. }
  assert (CB : (cday rnd hm = E - 1 + n \/ cday rnd hm = E + n)%Z).
  { assert (cday rnd hm < E + 1 + n)%Z by byQ. assert (E - 1 + n < cday rnd hm + 1)%Z by byQ. lia. }
  assert (X : exists ssp, exact_from_meeus rnd (SS rnd m (cday rnd hm)) = Ok ssp /\
     ((cday rnd hm = E - 1 + n)%Z /\ ssp = sm \/ (cday rnd hm = E + n)%Z /\ ssp = s0)).
  { destruct CB as [W | W]; rewrite W; [exists sm|exists s0]; (split; [assumption|]); [left|right]; split; reflexivity. }
  destruct X as (ssp & -> & SP). cbn [bind].
  assert (Near : (cday rnd h0 = E + 1 + n)%Z -> inject_Z E + (35 # 100) < jd).
  { intro W. rewrite W in C01. zpush. lra. }
  assert (NearMid : (cday rnd h0 = E + 1 + n)%Z -> (cday rnd hm = E - 1 + n)%Z -> near_midnight jd).
  { intros W1 W2. rewrite W1 in C01. rewrite W2 in Cm2. exists (E + 1)%Z. zpush. apply Qabs_Qlt_condition. split; lra. }
  destruct CA as [CA | CA]; rewrite CA.
  - (* evening: today's sunset is the opening one *)
    rewrite S0. cbn [bind]. fold s0.
    assert (Y : Qleb s0 jd = true) by (apply Qleb_le; exact L). rewrite Y.
    assert (U2 : jd < inject_Z E + (36 # 100)). { rewrite CA in C02. zpush. lra. }
    assert (D : fsub rnd jd s0 == jd - s0) by (apply sub_exact; [exact FJ|exact F0|lra|lra|apply Qabs_le_iff; split; lra]).
    assert (Y1 : Qltb (fsub rnd jd s0) 0 = false) by (apply Qltb_ge; rewrite D; lra).
    assert (Y2 : Qleb 1 (fsub rnd jd s0) = false).
    { destruct (Qleb 1 (fsub rnd jd s0)) eqn:Y2; [|reflexivity]. apply Qleb_le in Y2. rewrite D in Y2. exfalso. lra. }
    rewrite Y1, Y2. exists s0, (fsub rnd jd s0). split; [reflexivity|]. rewrite D. split; [split; lra|]. split.
    + intros _. split; [etransitivity; [apply (cday_AE rnd N m band); exact R0|exact X0]|]. intros _. reflexivity.
    + intro G. exfalso. lra.
  - rewrite S1. cbn [bind]. fold s1.
    assert (Y : Qleb s1 jd = false) by (destruct (Qleb s1 jd) eqn:Y; [apply Qleb_le in Y; exfalso; lra|reflexivity]). rewrite Y.
    specialize (Near CA). destruct SP as [[W ->]|[W ->]].
    + (* only within rounding error of midnight: yesterday's sunset plus one day *)
      specialize (NearMid CA W). rewrite W in Cm2. zpush.
      assert (D : fsub rnd jd sm == jd - sm) by (apply sub_exact; [exact FJ|exact Fm|lra|lra|apply Qabs_le_iff; split; lra]).
      assert (Y1 : Qltb (fsub rnd jd sm) 0 = false) by (apply Qltb_ge; rewrite D; lra).
      assert (Y2 : Qleb 1 (fsub rnd jd sm) = true) by (apply Qleb_le; rewrite D; lra).
      rewrite Y1, Y2.
      assert (H4 : Qabs (sm + 1) <= 8388608) by (apply Qabs_le_iff; split; lra).
      pose proof (near23 rnd N _ H4) as B4. set (st := fadd rnd sm 1). unfold fadd in st. fold st in B4.
      assert (FS : is_float st) by (apply near_float, N).
      assert (D2 : fsub rnd jd st == jd - st) by (apply sub_exact; [exact FJ|exact FS|lra|lra|apply Qabs_le_iff; split; lra]).
      exists st, (fsub rnd jd st). split; [reflexivity|]. rewrite D2. split; [split; lra|]. split.
      * intros _. split; [|intro K; contradiction]. apply (cday_spec rnd N); unfold lf; [apply Qabs_le_iff; split; lra|lra|lra].
      * intro G. exfalso. lra.
    + assert (D : fsub rnd jd s0 == jd - s0) by (apply sub_exact; [exact FJ|exact F0|lra|lra|apply Qabs_le_iff; split; lra]).
      assert (Y1 : Qltb (fsub rnd jd s0) 0 = false) by (apply Qltb_ge; rewrite D; lra). rewrite Y1.
      destruct (Qleb 1 (fsub rnd jd s0)) eqn:Y2.
      * apply Qleb_le in Y2. rewrite D in Y2.
        assert (H4 : Qabs (s0 + 1) <= 8388608) by (apply Qabs_le_iff; split; lra).
        pose proof (near23 rnd N _ H4) as B4. 
        pose proof (near_mono rnd N (s0 + 1) jd ltac:(lra)) as B5. rewrite (near_exact rnd N jd FJ) in B5.
        set (st := fadd rnd s0 1). unfold fadd in st. fold st in B4, B5.
        assert (FS : is_float st) by (apply near_float, N).
        assert (D2 : fsub rnd jd st == jd - st) by (apply sub_exact; [exact FJ|exact FS|lra|lra|apply Qabs_le_iff; split; lra]).
        exists st, (fsub rnd jd st). split; [reflexivity|]. rewrite D2. split; [split; lra|]. split; [intro G; exfalso; lra|].
        intros _. split; [apply (cday_spec rnd N); unfold lf; zpush; [apply Qabs_le_iff; split; lra|lra|lra]|].
        apply Qabs_le_iff. split; lra.
      * assert (Y3 : jd - s0 < 1).
        { rewrite <- D. apply Qnot_le_lt. intro K. apply Qleb_le in K. rewrite K in Y2. discriminate. }
        exists s0, (fsub rnd jd s0). split; [reflexivity|]. rewrite D. split; [split; lra|]. split; [|intro G; exfalso; lra].
        intros _. split; [etransitivity; [apply (cday_AE rnd N m band); exact R0|exact X0]|]. intros _. reflexivity.
Qed.

Lemma civil_epoch : Qfloor (fadd rnd PROLEPTIC_GREG_1ST_DAY (1#2)) = 1721424%Z.
Proof.
  unfold fadd, PROLEPTIC_GREG_1ST_DAY.
  assert (X : rnd ((3442847 # 2) + (1 # 2)) == inject_Z 1721424).
  { setoid_replace ((3442847 # 2) + (1 # 2)) with (inject_Z 1721424) by reflexivity. apply near_int; [exact N|lia]. }
  rewrite X. apply Qfloor_Z.
Qed.
(** from the opening sunset to the date *)
Lemma of_jd_day jd astro fr y mo d : (-1843 <= y <= 1161)%Z -> (0 <= mo <= 19)%Z -> (1 <= d <= bmonth_len (zleap y) mo)%Z ->
  (zrd y mo d <= 1096902)%Z ->
  utc_to_badi_time rnd m jd LAT LON = Ok (astro, fr) -> cday rnd astro = ED y mo d -> of_jd rnd m jd = Ok (y, mo, d, fr).
Proof.
  intros Y M D R U C. unfold of_jd, badi_day_from_jd. rewrite U. cbn [bind].
  change (Qfloor (fadd rnd (fadd rnd astro (fdiv rnd LON 360)) (1#2))) with (cday rnd astro). rewrite C, civil_epoch.
  replace (ED y mo d - 1721424 + 1)%Z with (zrd y mo d) by (unfold ED; lia).
  pose proof (rd_range y mo d Y M D) as RR.
  rewrite (year_from_rd_ok rnd N m EV (zrd y mo d) y Y RR R). cbn [bind]. rewrite (lookup_ok rnd N m EV) by lia. cbn [bind].
  rewrite (is_leap_ok rnd N m EV) by exact Y. cbn [bind].
  replace (zrd y mo d - ystart y + 1)%Z with (zdbm (zleap y) mo + d)%Z by (unfold zrd; lia).
  rewrite doy_md by assumption. reflexivity.
Qed.
Lemma of_jd_late jd astro fr E : (1096902 + 1721423 < E)%Z ->
  utc_to_badi_time rnd m jd LAT LON = Ok (astro, fr) -> cday rnd astro = E -> of_jd rnd m jd = Err AssertionError.
Proof.
  intros R U C. unfold of_jd, badi_day_from_jd. rewrite U. cbn [bind].
  change (Qfloor (fadd rnd (fadd rnd astro (fdiv rnd LON 360)) (1#2))) with (cday rnd astro). rewrite C, civil_epoch.
  rewrite (year_from_rd_err rnd N m EV) by lia. reflexivity.
Qed.
End Dec.

(** ** the irregular dates are exactly those near a discontinuity *)
Definition calmb (E : Z) : bool := forallb (fun b => (E <? b - 1) || (b <? E))%Z break_days && ((E <? GAP0 - 1) || (GAP0 + 10 <? E))%Z.
Lemma calmb_ok E : calmb E = true <-> calm E.
Proof.
  unfold calmb, calm. rewrite andb_true_iff, forallb_forall. split.
  - intros [A B]. split; [intros b I; specialize (A b I); lia|lia].
  - intros [A B]. split; [intros b I; specialize (A b I); lia|lia].
Qed.
Definition windows2 : list Z := flat_map (fun b => [b - 1; b])%Z break_days ++ zlist (GAP0 - 1) 12.
Lemma not_calm_window E : calmb E = false -> In E windows2.
Proof.
  intro H. unfold calmb in H. apply andb_false_iff in H. unfold windows2. apply in_or_app. destruct H as [H|H].
  - left. assert (X : existsb (fun b => negb ((E <? b - 1) || (b <? E)))%Z break_days = true).
    { clear -H. induction break_days as [|b l IH]; [discriminate|]. cbn [forallb existsb] in *.
      destruct ((E <? b - 1) || (b <? E))%Z; [cbn [negb orb andb] in *; apply IH; exact H|reflexivity]. }
    apply existsb_exists in X. destruct X as (b & I & X). apply in_flat_map. exists b. split; [exact I|]. cbn [In].
    destruct (Z.eq_dec E (b - 1)); [left; lia|right; left; lia].
  - right. apply zlist_in. lia.
Qed.
Lemma window2_year y E : (-1843 <= y <= 1161)%Z -> (ystart y <= E - 1721423 < ystart (y + 1))%Z -> In E windows2 -> In y win_years.
Proof.
  intros Y R W.
  assert (A : forallb (fun E => existsb (fun y' => (ystart y' <=? E - 1721423) && (E - 1721423 <? ystart (y' + 1)))%Z win_years) windows2 = true)
      by (vm_compute; reflexivity).
  rewrite forallb_forall in A. specialize (A E W). apply existsb_exists in A. destruct A as (y' & I & X).
  assert (Y' : (-1843 <= y' <= 1161)%Z).
  { assert (A : forallb (fun y' => (-1843 <=? y') && (y' <=? 1161))%Z win_years = true) by reflexivity.
    rewrite forallb_forall in A. specialize (A y' I). lia. }
  rewrite (year_unique y y' (E - 1721423)); [exact I|exact Y|exact Y'|exact R|lia].
Qed.
Definition calm_check (y : Z) : bool :=
  forallb (fun mo => forallb (fun d => Bool.eqb (calmb (ED y mo d)) (negb (inb (y, mo, d) irregular_bdates)))
     (zlist 1 (Z.to_nat (bmonth_len (zleap y) mo)))) (zlist 0 20).
Lemma calm_checked : forallb calm_check win_years = true.
Proof. vm_compute. reflexivity. Qed.
Lemma irregular_year p : In p irregular_bdates -> In (fst (fst p)) win_years.
Proof.
  intro I. assert (A : forallb (fun p => existsb (Z.eqb (fst (fst p))) win_years) irregular_bdates = true) by reflexivity.
  rewrite forallb_forall in A. apply A in I. apply existsb_exists in I. destruct I as (z & I & E).
  apply Z.eqb_eq in E. rewrite E. exact I.
Qed.
Lemma calm_date y mo d : (-1843 <= y <= 1161)%Z -> (0 <= mo <= 19)%Z -> (1 <= d <= bmonth_len (zleap y) mo)%Z ->
  (calm (ED y mo d) <-> ~ In (y, mo, d) irregular_bdates).
Proof.
  intros Y M D. rewrite <- calmb_ok. rewrite <- inb_in.
  assert (X : calmb (ED y mo d) = negb (inb (y, mo, d) irregular_bdates)).
  { destruct (in_dec Z.eq_dec y win_years) as [W|W].
    - pose proof calm_checked as K. rewrite forallb_forall in K. specialize (K y W). unfold calm_check in K.
      rewrite forallb_forall in K. specialize (K mo (zlist_in 0 20 mo ltac:(lia))). rewrite forallb_forall in K.
      apply eqb_prop, K, zlist_in. rewrite Z2Nat.id; [lia|]. unfold bmonth_len. destruct (mo =? 0)%Z; destruct (zleap y); lia.
    - assert (I : inb (y, mo, d) irregular_bdates = false).
      { destruct (inb _ _) eqn:I; [|reflexivity]. exfalso. apply W. apply inb_in in I. apply irregular_year in I. exact I. }
      rewrite I. destruct (calmb (ED y mo d)) eqn:C; [reflexivity|]. exfalso. apply W. apply not_calm_window in C.
      apply (window2_year y (ED y mo d)); [exact Y| |exact C]. unfold ED. pose proof (rd_range y mo d Y M D). lia. }
  rewrite X. destruct (inb (y, mo, d) irregular_bdates); cbn [negb]; split; intro H; try discriminate; try reflexivity.
  exfalso. apply H. reflexivity.
Qed.
