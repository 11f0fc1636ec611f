(** TduProofs.v -- decoding at Universal Time midnight: fromordinal. *)
From Coq Require Import ZArith QArith Qround Qabs List Bool Lia Lqa Setoid Morphisms.
From Coq Require Import ZifyBool ZifyNat ZifyN.
From Verif Require Import Base Flt QUtil BaseModel MiscModel BadiModel BaseProofs BaseProofs2 MiscProofs SunProofs SpecMisc SpecBadi BadiProofs BadiProofs2 LongYear BadiProofs3 DecProofs BadiProofs4 LongProofs BadiProofs5 ClockProofs ClockProofs2 TduModel.
Import ListNotations.
Local Open Scope Q_scope.
Ltac Zify.zify_post_hook ::= Z.div_mod_to_equations.

(** the historical day number of exact day [D], read at the following midnight UT *)
Definition hk (D : Z) : Z := (D + zdiff (2 * D + 1) meeus_breaks)%Z.
Definition zbad (D : Z) : bool := zgap (2 * D + 1) || zinvalid (2 * hk D) || zinvalid (2 * (hk D + 1)).
Definition zgood (D : Z) : bool := negb (zbad D) && (EX (hk D) =? D)%Z && (EX (hk D + 1) =? D + 1)%Z.
Definition D_REFORM : Z := 2299158.

Lemma calm_good D : calm D -> zgood D = true.
Proof.
  intro C. unfold zgood, zbad, hk.
  destruct (calm_const D (2 * D + 1) C ltac:(lia)) as [Z1 G1]. destruct (calm_const D (2 * D + 2) C ltac:(lia)) as [Z2 G2].
  destruct (calm_const D (2 * D) C ltac:(lia)) as [Z0 G0]. rewrite Z1, G1.
  destruct (EX_HI D G0) as [A B]. unfold HI in A, B. rewrite A, B.
  replace (2 * D + 2)%Z with (2 * (D + 1))%Z in * by lia. destruct (EX_HI (D + 1) G2) as [A' B']. unfold HI in A', B'. rewrite Z2 in A', B'.
  replace (D + zdiff (2 * D) meeus_breaks + 1)%Z with (D + 1 + zdiff (2 * D) meeus_breaks)%Z by lia. rewrite A', B'.
  rewrite !Z.eqb_refl. reflexivity.
Qed.
Lemma window_mid : forallb (fun D => zbad D || zgood D || (D =? D_REFORM)%Z) windows2 = true.
Proof. vm_compute. reflexivity. Qed.
Lemma mid_cases D : zbad D = true \/ zgood D = true \/ D = D_REFORM.
Proof.
  destruct (calmb D) eqn:C; [right; left; apply calm_good, calmb_ok, C|]. apply not_calm_window in C.
  pose proof (proj1 (forallb_forall _ _) window_mid D C) as K. cbv beta in K.
  apply orb_prop in K. destruct K as [K|K]; [apply orb_prop in K; tauto|]. apply Z.eqb_eq in K. tauto.
Qed.
Definition bad_check (y : Z) : bool :=
  forallb (fun mo => forallb (fun d => Bool.eqb (zbad (ED y mo d)) (inb (y, mo, d) (skipped_bdates ++ reform_bdates)))
     (zlist 1 (Z.to_nat (bmonth_len (zleap y) mo)))) (zlist 0 20).
Lemma bad_checked : forallb bad_check win_years = true.
Proof. vm_compute. reflexivity. Qed.
Lemma bad_date y mo d : (-1843 <= y <= 1161)%Z -> (0 <= mo <= 19)%Z -> (1 <= d <= bmonth_len (zleap y) mo)%Z ->
  zbad (ED y mo d) = inb (y, mo, d) (skipped_bdates ++ reform_bdates).
Proof.
  intros Y M D. destruct (in_dec Z.eq_dec y win_years) as [W|W].
  - pose proof (proj1 (forallb_forall _ _) bad_checked y W) as K. unfold bad_check in K.
    pose proof (proj1 (forallb_forall _ _) K mo (zlist_in 0 20 mo ltac:(lia))) as K1. cbv beta in K1.
    assert (I : In d (zlist 1 (Z.to_nat (bmonth_len (zleap y) mo)))) by (apply zlist_in; lia).
    pose proof (proj1 (forallb_forall _ _) K1 d I) as K2. apply eqb_prop in K2. exact K2.
  - assert (NI : ~ In (y, mo, d) irregular_bdates) by (intro I; apply W; exact (irregular_year _ I)).
    pose proof (calm_good _ (proj2 (calm_date y mo d Y M D) NI)) as G. unfold zgood in G.
    destruct (zbad (ED y mo d)); [discriminate|]. symmetry. destruct (inb _ _) eqn:I; [|reflexivity]. exfalso. apply NI.
    apply inb_in in I. unfold irregular_bdates. rewrite !in_app_iff in *. tauto.
Qed.

Section Mid.
Variable rnd : Q -> Q.
Hypothesis N : Nearest rnd.
#[local] Instance prop_rnd13 : Proper (Qeq ==> Qeq) rnd.
Proof. intros a b E. apply near_proper; [exact N|exact E]. Qed.
Variable m : Q -> Q -> Q -> Q.
Hypothesis EV : evening rnd m.
Notation LAT := (TEHRAN_LAT rnd).
Notation LON := (TEHRAN_LON rnd).
Notation T := (year_table rnd m).
Notation AE := (AE rnd m).
Let band := band rnd N m EV.

Lemma mid_time D jd : (1710000 < D < 2890000)%Z -> jd == inject_Z D + (1 # 2) ->
  utc_to_badi_time rnd m jd LAT LON =
  if zbad D then Err ValueError else
  let prev := AE (hk D) in let curr := AE (hk D + 1) in
  let astro := if Qleb curr jd then curr else prev in
  let delta := fsub rnd jd astro in
  let astro := if Qltb delta 0 then fsub rnd astro 1 else if Qleb 1 delta then fadd rnd astro 1 else astro in
  Ok (astro, fsub rnd jd astro).
Proof.
  intros R J. unfold utc_to_badi_time, zbad.
  assert (H : hd jd = (2 * D + 1)%Z) by (unfold hd; apply Qfloor_spec; rewrite J; qlra).
  rewrite meeus_from_exact_z, H. destruct (zgap (2 * D + 1)); [reflexivity|]. cbn [bind orb].
  pose proof (zdiff_m_range (2 * D + 1)) as ND. unfold hk. set (n := zdiff (2 * D + 1) meeus_breaks) in *.
  assert (DQ : 1710000 <= inject_Z D <= 2890000) by (change 1710000 with (inject_Z 1710000); change 2890000 with (inject_Z 2890000); rewrite <- !Zle_Qle; lia).
  assert (NQ : 0 <= inject_Z n <= 12) by (change 0 with (inject_Z 0); change 12 with (inject_Z 12); rewrite <- !Zle_Qle; lia).
  assert (H1 : Qabs (jd + inject_Z n) <= 8388608) by (apply Qabs_le_iff; split; lra).
  pose proof (near23 rnd N _ H1) as B1. set (hist := fadd rnd jd (inject_Z n)) in *. unfold fadd in hist. fold hist in B1.
  assert (H2 : Qabs (hist + (-1)) <= 8388608) by (apply Qabs_le_iff; split; lra).
  pose proof (near23 rnd N _ H2) as B2. set (hm := fadd rnd hist (-1)) in *. unfold fadd in hm. fold hm in B2.
  assert (H3 : Qabs (hist + 0) <= 8388608) by (apply Qabs_le_iff; split; lra).
  pose proof (near23 rnd N _ H3) as B3. set (h0 := fadd rnd hist 0) in *. unfold fadd in h0. fold h0 in B3.
  rewrite !sun_setting_SS.
  assert (C1 : cday rnd hm = (D + n)%Z) by (apply (cday_spec rnd N); unfold lf; zpush; [apply Qabs_le_iff; split; lra|lra|lra]).
  assert (C2 : cday rnd h0 = (D + n + 1)%Z) by (apply (cday_spec rnd N); unfold lf; zpush; [apply Qabs_le_iff; split; lra|lra|lra]).
  rewrite C1, C2, !(exact_sunset rnd N m band) by lia.
  destruct (zinvalid (2 * (D + n))); [reflexivity|]. cbn [bind orb].
  destruct (zinvalid (2 * (D + n + 1))); reflexivity.
Qed.

Lemma half_float D jd : (0 <= D < 2890000)%Z -> jd == inject_Z D + (1 # 2) -> is_float jd.
Proof.
  intros R J. exists (2 * D + 1)%Z, (-1)%Z. split; [lia|]. rewrite J. change (2 ^ (-1)) with (1 # 2). zpush. ring.
Qed.

Lemma mid_good D jd : (1710000 < D < 2890000)%Z -> jd == inject_Z D + (1 # 2) -> zgood D = true ->
  exists fr, utc_to_badi_time rnd m jd LAT LON = Ok (AE (hk D), fr) /\ cday rnd (AE (hk D)) = D /\ 0 <= fr <= 494 # 1000.
Proof.
  intros R J G. pose proof (half_float D jd ltac:(lia) J) as FJ. unfold zgood in G. apply andb_prop in G. destruct G as [G E1]. apply andb_prop in G. destruct G as [G E0].
  apply Z.eqb_eq in E0, E1. apply negb_true_iff in G.
  rewrite (mid_time D jd R J), G. cbv zeta. unfold hk in *. pose proof (zdiff_m_range (2 * D + 1)) as ND.
  set (n := zdiff (2 * D + 1) meeus_breaks) in *.
  pose proof (AE_range rnd N m band (D + n) ltac:(lia)) as A0. rewrite E0 in A0.
  pose proof (AE_range rnd N m band (D + n + 1) ltac:(lia)) as A1. rewrite E1 in A1.
  destruct (AE_size rnd N m EV (D + n) ltac:(lia)) as [F0 S0]. zpush.
  assert (DQ : 1710000 <= inject_Z D <= 2890000) by (change 1710000 with (inject_Z 1710000); change 2890000 with (inject_Z 2890000); rewrite <- !Zle_Qle; lia).
  assert (Y : Qleb (AE (D + n + 1)) jd = false) by (apply Qleb_gt; rewrite J; lra). rewrite Y.
  set (s := AE (D + n)) in *.
  assert (X : fsub rnd jd s == jd - s) by (apply (sub_exact rnd N); [exact FJ|exact F0|lra|lra|apply Qabs_le_iff; split; lra]).
  assert (Y1 : Qltb (fsub rnd jd s) 0 = false) by (apply Qltb_ge; rewrite X; lra). rewrite Y1.
  assert (Y2 : Qleb 1 (fsub rnd jd s) = false) by (apply Qleb_gt; rewrite X; lra). rewrite Y2.
  exists (fsub rnd jd s). split; [reflexivity|]. split; [|rewrite X; split; lra].
  etransitivity; [apply (cday_AE rnd N m band); lia|exact E0].
Qed.

(** the day after the reform gap: the previous sunset found is eleven days back *)
Lemma mid_reform jd : jd == inject_Z D_REFORM + (1 # 2) ->
  exists astro fr, utc_to_badi_time rnd m jd LAT LON = Ok (astro, fr) /\ cday rnd astro = (D_REFORM - 9)%Z /\ 92 # 10 <= fr <= 9494 # 1000.
Proof.
  intro J. pose proof (half_float D_REFORM jd ltac:(unfold D_REFORM; lia) J) as FJ.
  rewrite (mid_time D_REFORM jd ltac:(unfold D_REFORM; lia) J).
  assert (B : zbad D_REFORM = false) by (vm_compute; reflexivity). rewrite B. cbv zeta.
  assert (K : hk D_REFORM = 2299160%Z) by (vm_compute; reflexivity). rewrite K. clear B K.
  pose proof (AE_range rnd N m band 2299160 ltac:(lia)) as A0. pose proof (AE_range rnd N m band (2299160 + 1) ltac:(lia)) as A1.
  assert (E0 : EX 2299160 = 2299148%Z) by (vm_compute; reflexivity). assert (E1 : EX (2299160 + 1) = 2299159%Z) by (vm_compute; reflexivity).
  rewrite E0 in A0. rewrite E1 in A1. destruct (AE_size rnd N m EV 2299160 ltac:(lia)) as [F0 S0].
  change (inject_Z 2299148) with 2299148 in A0. change (inject_Z 2299159) with 2299159 in A1. change (inject_Z D_REFORM) with 2299158 in J.
  assert (Y : Qleb (AE (2299160 + 1)) jd = false) by (apply Qleb_gt; rewrite J; lra). rewrite Y. set (s := AE 2299160) in *.
  assert (X : fsub rnd jd s == jd - s) by (apply (sub_exact rnd N); [exact FJ|exact F0|lra|lra|apply Qabs_le_iff; split; lra]).
  assert (Y1 : Qltb (fsub rnd jd s) 0 = false) by (apply Qltb_ge; rewrite X; lra). rewrite Y1.
  assert (Y2 : Qleb 1 (fsub rnd jd s) = true) by (apply Qleb_le; rewrite X; lra). rewrite Y2.
  assert (H4 : Qabs (s + 1) <= 8388608) by (apply Qabs_le_iff; split; lra).
  pose proof (near23 rnd N _ H4) as B4. set (st := fadd rnd s 1). unfold fadd in st. fold st in B4.
  assert (FS : is_float st) by (apply near_float, N).
  assert (D2 : fsub rnd jd st == jd - st) by (apply (sub_exact rnd N); [exact FJ|exact FS|lra|lra|apply Qabs_le_iff; split; lra]).
  exists st, (fsub rnd jd st). split; [reflexivity|]. rewrite D2. split; [|split; lra].
  change (D_REFORM - 9)%Z with 2299149%Z. apply (cday_spec rnd N); unfold lf; change (inject_Z 2299149) with 2299149; [apply Qabs_le_iff; split; lra|lra|lra].
Qed.

(** the Julian day that _ord2ymd decodes *)
Definition ord_jd (n : Z) : Q :=
  fadd rnd (inject_Z (Qfloor (fadd rnd (fsub rnd (fsub rnd (ORDINAL_1ST_YEAR_EPOCH rnd) 1) (inject_Z DAYS_BEFORE_1ST_YEAR)) (inject_Z n)))) (1 # 2).
Lemma ord_jd_ok n : (-20000 <= n <= 1168000)%Z -> ord_jd n == inject_Z (1721423 + n) + (1 # 2).
Proof.
  intro R. unfold ord_jd, ORDINAL_1ST_YEAR_EPOCH, DAYS_BEFORE_1ST_YEAR. change (inject_Z 77) with 77.
  assert (NQ : - (20000) <= inject_Z n <= 1168000) by (change (-(20000)) with (inject_Z (-20000)); change 1168000 with (inject_Z 1168000); rewrite <- !Zle_Qle; lia).
  assert (H0 : Qabs (1721501260417 # 1000000) <= 8388608) by (vm_compute; discriminate).
  pose proof (near23 rnd N _ H0) as B0. set (a := rnd (1721501260417 # 1000000)) in *.
  assert (H1 : Qabs (a - 1) <= 8388608) by (apply Qabs_le_iff; split; lra). pose proof (near23 rnd N _ H1) as B1.
  unfold fsub. set (b := rnd (a - 1)) in *.
  assert (H2 : Qabs (b - 77) <= 8388608) by (apply Qabs_le_iff; split; lra). pose proof (near23 rnd N _ H2) as B2. set (c := rnd (b - 77)) in *.
  assert (H3 : Qabs (c + inject_Z n) <= 8388608) by (apply Qabs_le_iff; split; lra). pose proof (near23 rnd N _ H3) as B3.
  unfold fadd. set (x := rnd (c + inject_Z n)) in *.
  assert (F : Qfloor x = (1721423 + n)%Z) by (apply Qfloor_spec; zpush; lra). rewrite F. apply near_exact; [exact N|].
  apply (half_float (1721423 + n) _ ltac:(lia)). reflexivity.
Qed.

Lemma ord_date y mo d : (-1843 <= y <= 1161)%Z -> (0 <= mo <= 19)%Z -> (1 <= d <= bmonth_len (zleap y) mo)%Z -> (zrd y mo d <= 1096902)%Z ->
  ord2ymd rnd m true (zrd y mo d) = if inb (y, mo, d) (skipped_bdates ++ reform_bdates) then Err ValueError else Ok (Short (bd y mo d)).
Proof.
  intros Y M D L. unfold ord2ymd. fold (ord_jd (zrd y mo d)).
  pose proof (rd_range y mo d Y M D) as RR. pose proof (ystart_range y ltac:(lia)). pose proof (ystart_range (y + 1) ltac:(lia)).
  pose proof (ord_jd_ok (zrd y mo d) ltac:(lia)) as J. set (jd := ord_jd (zrd y mo d)) in *.
  replace (1721423 + zrd y mo d)%Z with (ED y mo d) in J by (unfold ED; lia).
  assert (DR : (1710000 < ED y mo d < 2890000)%Z) by (unfold ED; lia).
  rewrite <- (bad_date y mo d Y M D).
  destruct (mid_cases (ED y mo d)) as [B|[G|E]].
  - rewrite B. unfold badi_date_from_jd. change (xor_boolean [false; false; true]) with true. cbn [passert bind].
    unfold badi_day_from_jd. rewrite (mid_time _ jd DR J), B. reflexivity.
  - assert (B : zbad (ED y mo d) = false) by (unfold zgood in G; destruct (zbad _); [discriminate|reflexivity]). rewrite B.
    destruct (mid_good _ jd DR J G) as (fr & U & C & F).
    pose proof (of_jd_day rnd N m EV jd _ fr y mo d Y M D L U C) as O.
    destruct (rtd_decode rnd N m EV jd y mo d fr O ltac:(split; lra) true) as (d' & K & K1 & _). rewrite K, K1 by lra. reflexivity.
  - assert (B : zbad (ED y mo d) = false) by (rewrite E; vm_compute; reflexivity). rewrite B.
    rewrite E in J. destruct (mid_reform jd J) as (astro & fr & U & C & F).
    assert (Q1 : zrd y mo d = zrd (-261) 11 19) by (unfold ED, D_REFORM in E; change (zrd (-261) 11 19) with 577735%Z; lia).
    apply rd_inj in Q1; [|assumption|assumption|assumption|lia|lia|vm_compute; split; discriminate]. 
    assert (y = -261 /\ mo = 11 /\ d = 19)%Z as (-> & -> & ->) by (repeat split; congruence).
    assert (C' : cday rnd astro = ED (-261) 11 10) by (rewrite C; vm_compute; reflexivity).
    pose proof (of_jd_day rnd N m EV jd astro fr (-261) 11 10 ltac:(lia) ltac:(lia) ltac:(vm_compute; split; discriminate) ltac:(vm_compute; discriminate) U C') as O.
    unfold badi_date_from_jd. change (xor_boolean [false; false; true]) with true. cbn [passert bind].
    unfold of_jd in O. rewrite O. cbn [bind]. unfold bd. do 4 f_equal. change (inject_Z 10) with 10.
    assert (A : Qabs (10 + fr) <= 8388608) by (apply Qabs_le_iff; split; lra).
    pose proof (near23 rnd N _ A) as B3. unfold fadd. set (x := rnd (10 + fr)) in *.
    pose proof (rne_err x) as R. apply Qabs_le_iff in R. destruct R as [R1 R2].
    assert (rne x < 20)%Z by byQ. assert (18 < rne x)%Z by byQ. lia.
Qed.
End Mid.
