(** ConvProofs2.v -- Badi dates to Gregorian dates and back. *)
From Coq Require Import ZArith QArith Qround Qabs List Bool Lia Lqa Morphisms.
From Verif Require Import Base Flt QUtil BaseModel BaseProofs SpecGreg SpecConv GregModel GregProofs GregProofs2 GregProofs3 GregProofs4
  BadiModel SpecBadi BadiProofs BadiProofs2 BadiProofs4 BadiProofs5 LongProofs ClockProofs2 ClockProofs3 ConvModel ConvProofs.
Import ListNotations.
Local Open Scope Q_scope.

Section C.
Variable rnd : Q -> Q.
Hypothesis N : Nearest rnd.
Variable m : Q -> Q -> Q -> Q.
Hypothesis EV : evening rnd m.
Notation T := (year_table rnd m).
Notation LAT := (TEHRAN_LAT rnd).
Notation LON := (TEHRAN_LON rnd).
Notation IRR := (skipped_bdates ++ reform_bdates ++ [after_reform]).

Lemma days_gday p q n : days_after p q n -> 
  let '(y, mo, d) := p in let '(y', mo', d') := q in gday false y' mo' d' = (gday false y mo d + n)%Z.
Proof.
  induction 1 as [[[y mo] d]|[[y mo] d] [[y1 mo1] d1] [[y2 mo2] d2] n A IH B]; [lia|]. apply gday_next in B. cbv beta iota in *. lia.
Qed.
Lemma midnight_gday Y M D g : midnight Y M D g -> g == inject_Z (gday false Y M D) + GREG0.
Proof.
  intros (n & A & E). apply days_gday in A. cbv beta iota in A. change (gday false 0 1 1) with (-365)%Z in A. rewrite E. replace n with (gday false Y M D + 365)%Z by lia.
  unfold GREG0. qlra.
Qed.
Lemma gday_midnight Y M D : days_after (0, 1, 1)%Z (Y, M, D) (gday false Y M D + 365) -> midnight Y M D (inject_Z (gday false Y M D) + GREG0).
Proof. intro A. exists (gday false Y M D + 365)%Z. split; [exact A|]. unfold GREG0. qlra. Qed.

(** the instant *)
Lemma to_greg_instant us b j : to_jd rnd m b = Ok j -> 1721101 <= j <= 2859999 ->
  exists Y M D c g, gregorian_date_from_badi_date rnd m T us true b LAT LON TEHRAN_ZONE = Ok (Some (Y, M, inject_Z D, c)) /\
    valid_gdate (leap_rule false) Y M D /\ midnight Y M D g /\ proper_clock c /\ (length c = if us then 4 else 3)%nat /\
    Qabs (g + clock_seconds c / 86400 - (j + (7 # 48))) < 1 # 20000000.
Proof.
  intros J [R1 R2]. destruct (local_near rnd N j ltac:(split; lra)) as [F L]. apply Qabs_Qle_condition in L.
  destruct (from_jd_ok rnd N us _ F ltac:(lra) ltac:(lra)) as (Y & M & D & dl & V & Hdl & E & DA & G & _ & c & C1 & C2 & C3 & C4).
  exists Y, M, D, c, (inject_Z (gday false Y M D) + GREG0). unfold gregorian_date_from_badi_date. unfold to_jd in J. rewrite J. cbn [bind].
  split; [exact C1|]. split; [exact V|]. split; [apply gday_midnight, DA|]. split; [exact C2|]. split; [exact C3|].
  apply Qabs_Qlt_condition in C4. apply Qabs_Qlt_condition. unfold Qdiv. change (/ 86400) with (1 # 86400). split; lra.
Qed.

(** the day *)
Lemma in_app_irr p : ~ In p IRR -> ~ In p (skipped_bdates ++ reform_bdates) /\ p <> after_reform.
Proof. intro H. split; [intro I; apply H; apply in_app_iff in I; rewrite !in_app_iff; tauto|intros ->; apply H; rewrite !in_app_iff; right; right; left; reflexivity]. Qed.

Definition evening_of (z k : Z) (jd : Q) : Prop := inject_Z (z + k + 1721422) + (7 # 1000) < jd < inject_Z (z + k + 1721422) + (208 # 1000).
Lemma greg_of_evening (us : bool) z k jd : (-287 <= z + k <= 1100000)%Z -> evening_of z k jd ->
  exists Y M D, valid_gdate (leap_rule false) Y M D /\ gday false Y M D = (z + k - 1)%Z /\
    days_after (0, 1, 1)%Z (Y, M, D) (gday false Y M D + 365) /\
    (exists q, gregorian_date_from_jd rnd false us true false (fadd rnd jd (HR rnd TEHRAN_ZONE)) = Ok (Some (Y, M, q, [])) /\ Qfloor q = D /\
      Qabs (q - (inject_Z D + (jd + (7 # 48) - (inject_Z (z + k - 1) + GREG0)))) <= 1 # 1000000000) /\
    exists c, gregorian_date_from_jd rnd true us true false (fadd rnd jd (HR rnd TEHRAN_ZONE)) = Ok (Some (Y, M, inject_Z D, c)) /\ proper_clock c /\
      (length c = if us then 4 else 3)%nat /\ 56340 < clock_seconds c < 73800 /\
      Qabs (clock_seconds c - (jd + (7 # 48) - (inject_Z (z + k - 1) + GREG0)) * 86400) < 5 # 1000.
Proof.
  intros [R1 R2] [E1 E2]. toQ R1. toQ R2.
  assert (X : inject_Z (z + k + 1721422) == inject_Z (z + k) + 1721422) by (rewrite inject_Z_plus; reflexivity). rewrite X in E1, E2.
  assert (X' : inject_Z (z + k - 1) == inject_Z (z + k) - 1) by (unfold Z.sub; rewrite inject_Z_plus; reflexivity).
  destruct (local_near rnd N jd ltac:(split; qlra)) as [F L]. apply Qabs_Qle_condition in L. unfold GREG0 in *.
  destruct (from_jd_ok rnd N us _ F ltac:(qlra) ltac:(qlra)) as (Y & M & D & dl & V & Hdl & E & DA & G & (q & Q1 & Q2) & c & C1 & C2 & C3 & C4).
  set (jl := fadd rnd jd (HR rnd TEHRAN_ZONE)) in *. unfold GREG0 in *.
  assert (GD : gday false Y M D = (z + k - 1)%Z).
  { assert (A1 : (gday false Y M D < z + k)%Z) by byQ. assert (A2 : (z + k < gday false Y M D + 2)%Z) by byQ. lia. }
  rewrite GD in E. rewrite X' in E.
  exists Y, M, D. split; [exact V|]. split; [exact GD|]. split; [exact DA|]. apply Qabs_Qle_condition in Q2. apply Qabs_Qlt_condition in C4. split.
  - exists q. split; [exact Q1|]. split.
    + pose proof (Qfloor_le q) as A. pose proof (Qlt_floor q) as B. rewrite inject_Z_plus in B. change (inject_Z 1) with 1 in B.
      assert (X1 : (D < Qfloor q + 1)%Z) by byQ. assert (X2 : (Qfloor q < D + 1)%Z) by byQ. lia.
    + rewrite X'. apply Qabs_Qle_condition. split; lra.
  - exists c. split; [exact C1|]. split; [exact C2|]. split; [exact C3|]. split; [split; lra|]. rewrite X'. apply Qabs_Qlt_condition. split; lra.
Qed.

Lemma badi_evening y mo d : (-1843 <= y <= 1161)%Z -> valid_bday (leap_of rnd m) y mo d -> ~ In (y, mo, d) IRR ->
  exists z j, T y = Some z /\ to_jd rnd m (bd y mo d) = Ok j /\ is_float j /\ evening_of z (bday_of_year (leap_of rnd m y) mo d) j /\
    (-287 <= z + bday_of_year (leap_of rnd m y) mo d <= 1100000)%Z /\ (1 <= bday_of_year (leap_of rnd m y) mo d <= 366)%Z.
Proof.
  intros Y V X. pose proof (year_table_ok rnd N m EV y ltac:(lia)) as TY.
  destruct (to_jd_value rnd N m EV y mo d _ Y V X TY) as (j & J & F & R & _). exists (ystart y), j.
  assert (B : (1 <= bday_of_year (leap_of rnd m y) mo d <= 366)%Z).
  { destruct V as [M D]. unfold bday_of_year, bmonth_len in *. cbn [Z.eqb] in *.
    destruct (mo =? 0)%Z eqn:M0; [destruct (leap_of rnd m y); lia|]. destruct (mo =? 19)%Z eqn:M19; destruct (leap_of rnd m y); lia. }
  pose proof (ystart_range y ltac:(lia)). split; [exact TY|]. split; [exact J|]. split; [exact F|]. split; [exact R|]. split; lia.
Qed.

Lemma march_naw y : (-1843 <= y <= 1161)%Z -> exists D, (18 <= D <= 21)%Z /\ T y = Some (gday false (y + 1843) 3 D).
Proof. intro Y. destruct (naw_ruz_march rnd N m EV y Y) as (D & g & j & A & _ & B & _). exists D. split; assumption. Qed.
Lemma march_valid y D : (1 <= D <= 31)%Z -> valid_gdate (leap_rule false) y 3 D.
Proof. intro H. exists 31%Z. split; [apply ml31; cbn; tauto|exact H]. Qed.
Lemma regular_naw y : ~ In (y, 1, 1)%Z IRR.
Proof. cbn [skipped_bdates reform_bdates after_reform app In]. unfold after_reform. intro I. repeat (destruct I as [I|I]; [congruence|]). exact I. Qed.
Lemma regular_ridvan y : ~ In (y, 2, 13)%Z IRR.
Proof. cbn [skipped_bdates reform_bdates after_reform app In]. unfold after_reform. intro I. repeat (destruct I as [I|I]; [congruence|]). exact I. Qed.

Lemma to_greg_day us y mo d : (-1843 <= y <= 1161)%Z -> valid_bday (leap_of rnd m) y mo d -> ~ In (y, mo, d) IRR ->
  exists D0 q0 Y M D c, (18 <= D0 <= 21)%Z /\
    naw_ruz_g_date rnd m T false y LAT LON TEHRAN_ZONE = Ok (Some (y + 1843, 3, q0, []))%Z /\ Qfloor q0 = D0 /\
    gregorian_date_from_badi_date rnd m T us true (bd y mo d) LAT LON TEHRAN_ZONE = Ok (Some (Y, M, inject_Z D, c)) /\
    valid_gdate (leap_rule false) Y M D /\ days_after (y + 1843, 3, D0)%Z (Y, M, D) (bday_of_year (leap_of rnd m y) mo d - 1) /\
    proper_clock c /\ (length c = if us then 4 else 3)%nat /\ 56340 < clock_seconds c < 73800.
Proof.
  intros Y V X. destruct (badi_evening y mo d Y V X) as (z & j & TZ & J & F & E & R & K).
  assert (V1 : valid_bday (leap_of rnd m) y 1 1) by (split; [lia|cbn; lia]).
  destruct (badi_evening y 1 1 Y V1 (regular_naw y)) as (z1 & j1 & TZ1 & J1 & F1 & E1 & R1 & K1).
  assert (z1 = z) by congruence. subst z1. change (bday_of_year (leap_of rnd m y) 1 1) with 1%Z in *.
  destruct (march_naw y Y) as (D0 & HD0 & TD). assert (ZD : z = gday false (y + 1843) 3 D0) by congruence.
  destruct (greg_of_evening us z _ j R E) as (YY & M & D & GV & GD & DA & _ & c & C1 & C2 & C3 & C4 & _).
  destruct (greg_of_evening false z 1 j1 R1 E1) as (Y1 & M1 & D1 & GV1 & GD1 & DA1 & (q & Q1 & Q2 & _) & _).
  pose proof (march_valid (y + 1843) D0 ltac:(lia)) as GV0.
  destruct (gday_inj Y1 M1 D1 (y + 1843) 3 D0 GV1 GV0 ltac:(lia)) as (-> & -> & ->).
  exists D0, q, YY, M, D, c. split; [exact HD0|]. split.
  { unfold naw_ruz_g_date. unfold to_jd, bd in J1. change 1 with (inject_Z 1) at 1. rewrite J1. cbn [bind]. exact Q1. }
  split; [exact Q2|]. split.
  { unfold gregorian_date_from_badi_date. unfold to_jd in J. rewrite J. cbn [bind]. exact C1. }
  split; [exact GV|]. split.
  { pose proof (gday_after _ _ _ _ _ _ GV0 GV ltac:(lia)) as A. rewrite GD in A. replace (z + bday_of_year (leap_of rnd m y) mo d - 1 - gday false (y + 1843) 3 D0)%Z with (bday_of_year (leap_of rnd m y) mo d - 1)%Z in A by lia. exact A. }
  split; [exact C2|]. split; [exact C3|exact C4].
Qed.

Lemma to_greg_next us y mo d y' mo' d' : (-1843 <= y)%Z -> (y' <= 1161)%Z -> next_bday (leap_of rnd m) (y, mo, d) (y', mo', d') ->
  ~ In (y, mo, d) IRR -> ~ In (y', mo', d') IRR ->
  exists Y M D c Y' M' D' c',
    gregorian_date_from_badi_date rnd m T us true (bd y mo d) LAT LON TEHRAN_ZONE = Ok (Some (Y, M, inject_Z D, c)) /\
    gregorian_date_from_badi_date rnd m T us true (bd y' mo' d') LAT LON TEHRAN_ZONE = Ok (Some (Y', M', inject_Z D', c')) /\
    next_gday (leap_rule false) (Y, M, D) (Y', M', D').
Proof.
  intros Y Y' NX X X'. destruct (next_valid _ _ _ _ _ _ _ NX) as (M & D & M' & D' & YY).
  assert (V : valid_bday (leap_of rnd m) y mo d) by (split; assumption). assert (V' : valid_bday (leap_of rnd m) y' mo' d') by (split; assumption).
  assert (Yr : (-1843 <= y <= 1161)%Z) by lia. assert (Yr' : (-1843 <= y' <= 1161)%Z) by lia.
  destruct (badi_evening y mo d Yr V X) as (z & j & TZ & J & F & E & R & K).
  destruct (badi_evening y' mo' d' Yr' V' X') as (z' & j' & TZ' & J' & F' & E' & R' & K').
  destruct (greg_of_evening us z _ j R E) as (Y1 & M1 & D1 & GV & GD & DA & _ & c & C1 & _).
  destruct (greg_of_evening us z' _ j' R' E') as (Y2 & M2 & D2 & GV' & GD' & DA' & _ & c' & C1' & _).
  exists Y1, M1, D1, c, Y2, M2, D2, c'. unfold gregorian_date_from_badi_date. unfold to_jd in J, J'. rewrite J, J'. cbn [bind].
  split; [exact C1|]. split; [exact C1'|]. apply gday_succ; [exact GV|exact GV'|]. rewrite GD, GD'.
  rewrite (year_table_ok rnd N m EV) in TZ, TZ' by lia. assert (z = ystart y) by congruence. assert (z' = ystart y') by congruence. subst z z'.
  rewrite !(leap_of_ok rnd N m EV) by lia. rewrite (leap_of_ok rnd N m EV) in D by lia. rewrite (leap_of_ok rnd N m EV) in D' by lia.
  rewrite !doy_dbm by assumption.
  assert (NX' : next_bday zleap (y, mo, d) (y', mo', d')).
  { apply (next_ext (leap_of rnd m)); [cbn [fst]; apply (leap_of_ok rnd N m EV); exact Yr|exact NX]. }
  pose proof (rd_next _ _ NX') as RN. cbv beta iota in RN. specialize (RN Yr). unfold zrd in RN. lia.
Qed.

(** the first day of Ridvan *)
Lemma ridvan_april y : (-1843 <= y <= 1161)%Z -> exists D0 q0 q c0 c, (18 <= D0 <= 21)%Z /\
    naw_ruz_g_date rnd m T false y LAT LON TEHRAN_ZONE = Ok (Some (y + 1843, 3, q0, []))%Z /\ Qfloor q0 = D0 /\
    first_day_of_ridvan_g_date rnd m T false y LAT LON TEHRAN_ZONE = Ok (Some (y + 1843, 4, q, []))%Z /\ Qfloor q = D0 /\
    naw_ruz_g_date rnd m T true y LAT LON TEHRAN_ZONE = Ok (Some (y + 1843, 3, inject_Z D0, c0))%Z /\
    first_day_of_ridvan_g_date rnd m T true y LAT LON TEHRAN_ZONE = Ok (Some (y + 1843, 4, inject_Z D0, c))%Z /\
    proper_clock c0 /\ proper_clock c /\ 56340 < clock_seconds c0 < 73800 /\ 56340 < clock_seconds c < 73800.
Proof.
  intro Y.
  assert (V1 : valid_bday (leap_of rnd m) y 1 1) by (split; [lia|cbn; lia]).
  assert (V2 : valid_bday (leap_of rnd m) y 2 13) by (split; [lia|cbn; lia]).
  destruct (badi_evening y 1 1 Y V1 (regular_naw y)) as (z & j & TZ & J & F & E & R & K).
  destruct (badi_evening y 2 13 Y V2 (regular_ridvan y)) as (z2 & j2 & TZ2 & J2 & F2 & E2 & R2 & K2).
  assert (z2 = z) by congruence. subst z2.
  change (bday_of_year (leap_of rnd m y) 1 1) with 1%Z in *. change (bday_of_year (leap_of rnd m y) 2 13) with 32%Z in *.
  destruct (march_naw y Y) as (D0 & HD0 & TD). assert (ZD : z = gday false (y + 1843) 3 D0) by congruence.
  destruct (greg_of_evening false z 1 j R E) as (Y1 & M1 & D1 & GV1 & GD1 & DA1 & (q1 & Q1 & Q1' & _) & c1 & C1 & P1 & _ & S1 & _).
  destruct (greg_of_evening false z 32 j2 R2 E2) as (Y2 & M2 & D2 & GV2 & GD2 & DA2 & (q2 & Q2 & Q2' & _) & c2 & C2 & P2 & _ & S2 & _).
  destruct (gday_inj Y1 M1 D1 (y + 1843) 3 D0 GV1 (march_valid (y + 1843) D0 ltac:(lia)) ltac:(lia)) as (-> & -> & ->).
  assert (GV4 : valid_gdate (leap_rule false) (y + 1843) 4 D0) by (exists 30%Z; split; [apply ml30; cbn; tauto|lia]).
  assert (G4 : gday false (y + 1843) 4 D0 = (gday false (y + 1843) 3 D0 + 31)%Z).
  { unfold gday. change 4%Z with (3 + 1)%Z. rewrite mbefore_succ by lia. replace (mlen (is_leap_g false (y + 1843)) 3) with 31%Z by (destruct (is_leap_g false (y + 1843)); reflexivity). lia. }
  destruct (gday_inj Y2 M2 D2 (y + 1843) 4 D0 GV2 GV4 ltac:(lia)) as (-> & -> & ->).
  exists D0, q1, q2, c1, c2. unfold naw_ruz_g_date, first_day_of_ridvan_g_date. unfold to_jd, bd in J, J2.
  change {| s_y := y; s_m := 1; s_d := 1; s_t := [] |} with {| s_y := y; s_m := 1; s_d := inject_Z 1; s_t := [] |}.
  change {| s_y := y; s_m := 2; s_d := 13; s_t := [] |} with {| s_y := y; s_m := 2; s_d := inject_Z 13; s_t := [] |}.
  rewrite J, J2. cbn [bind]. split; [exact HD0|]. repeat (split; [first [exact Q1|exact Q1'|exact Q2|exact Q2'|exact C1|exact C2|exact P1|exact P2|exact S1|exact S2]|]). exact S2.
Qed.

(** sunset *)
Lemma and_swap3 (A B C D : Prop) : C /\ (A /\ B /\ D) -> A /\ B /\ C /\ D. Proof. tauto. Qed.
Lemma sunset_local y mo d : (-1843 <= y <= 1161)%Z -> valid_bday (leap_of rnd m) y mo d -> ~ In (y, mo, d) IRR ->
  exists Y M D c c' j (n : Z), gregorian_date_from_badi_date rnd m T false true (bd y mo d) LAT LON TEHRAN_ZONE = Ok (Some (Y, M, inject_Z D, c)) /\
    to_jd rnd m (bd y mo d) = Ok j /\ 0 <= j - inject_Z n - (1 # 2) < 1 /\ Qabs (clock_seconds c' - ((j - inject_Z n - (1 # 2)) * 86400 + 12600)) < 1 # 100 /\
    utc_sunset rnd m T (bd y mo d) LAT LON TEHRAN_ZONE = Ok c' /\ proper_clock c' /\ 56340 < clock_seconds c' < 73800 /\
    Qabs (clock_seconds c' - clock_seconds c) < 1 # 100.
Proof.
  intros Y V X. destruct (badi_evening y mo d Y V X) as (z & j & TZ & J & F & E & R & K).
  destruct (greg_of_evening false z _ j R E) as (YY & M & D & GV & GD & DA & _ & c & C1 & C2 & C3 & C4 & C5).
  exists YY, M, D, c, (clock_of rnd false (fadd rnd (fadd rnd j (HR rnd TEHRAN_ZONE)) (1 # 2))), j, (z + bday_of_year (leap_of rnd m y) mo d + 1721421)%Z.
  split; [unfold gregorian_date_from_badi_date; unfold to_jd in J; rewrite J; exact C1|]. split; [exact J|].
  apply and_swap3.
  split; [unfold utc_sunset; cbn [s_y s_m s_d bd]; unfold to_jd, bd in J; cbn [bd s_y s_m s_d]; rewrite J; reflexivity|].
  set (k := bday_of_year (leap_of rnd m y) mo d) in *. destruct E as [E1 E2]. destruct R as [R1 R2]. toQ R1. toQ R2.
  assert (X1 : inject_Z (z + k + 1721422) == inject_Z (z + k) + 1721422) by (rewrite inject_Z_plus; reflexivity). rewrite X1 in E1, E2.
  assert (X' : inject_Z (z + k - 1) == inject_Z (z + k) - 1) by (unfold Z.sub; rewrite inject_Z_plus; reflexivity). rewrite X' in C5. clear X'. unfold GREG0 in C5.
  destruct (local_near rnd N j ltac:(split; qlra)) as [_ L]. apply Qabs_Qle_condition in L. set (jl := fadd rnd j (HR rnd TEHRAN_ZONE)) in *. clearbody jl.
  assert (H : Qabs (fadd rnd jl (1 # 2) - (jl + (1 # 2))) <= 1 # 2147483648) by (unfold fadd; apply near_err_23; [exact N|]; apply Qabs_Qle_condition; split; qlra).
  apply Qabs_Qle_condition in H. set (q := fadd rnd jl (1 # 2)) in *. clearbody q.
  destruct (clock_ok rnd N false q ltac:(qlra)) as [P1 P2]. set (c' := clock_of rnd false q) in *. clearbody c'.
  assert (FQ : Qfloor q = (z + k + 1721422)%Z).
  { pose proof (Qfloor_le q) as A. pose proof (Qlt_floor q) as B. rewrite inject_Z_plus in B. change (inject_Z 1) with 1 in B.
    assert (Y1 : (z + k + 1721422 < Qfloor q + 1)%Z) by byQ. assert (Y2 : (Qfloor q < z + k + 1721422 + 1)%Z) by byQ. lia. }
  rewrite FQ, X1 in P2. apply Qabs_Qlt_condition in P2, C5.
  assert (X2 : inject_Z (z + k + 1721421) == inject_Z (z + k) + 1721421) by (rewrite inject_Z_plus; reflexivity).
  split; [rewrite X2; split; lra|]. split; [rewrite X2; apply Qabs_Qlt_condition; split; lra|].
  split; [exact P1|]. split; [split; lra|]. apply Qabs_Qlt_condition. split; lra.
Qed.

(** from a Gregorian date to the Badi date *)
Lemma from_greg us trim y mo d y' mo' d' sp sq Y M D h mi s g : (-1843 <= y <= 1160)%Z ->
  next_bday (leap_of rnd m) (y, mo, d) (y', mo', d') -> ~ In (y, mo, d) irregular_bdates ->
  to_jd rnd m (bd y mo d) = Ok sp -> to_jd rnd m (bd y' mo' d') = Ok sq ->
  valid_gdate (leap_rule false) Y M D -> midnight Y M D g -> (0 <= h <= 23)%Z -> (0 <= mi <= 59)%Z -> 0 <= s < 60 ->
  let x := g + (inject_Z h * 3600 + inject_Z mi * 60 + s) / 86400 in
  sp + (1 # 100000000) <= x -> x <= sq - (1 # 100000000) -> x <= sp + 1 - (1 # 30000000) ->
  (forall k : Z, (1 # 50000000) <= Qabs (x + (51288701 # 360000000) + (1 # 2) - inject_Z k)) ->
  exists sd h' mi' s' u', badi_date_from_gregorian_date rnd m T us true trim false true Y M (inject_Z D) (inject_Z h) (inject_Z mi) s LAT LON = Ok (Short sd) /\
    s_y sd = y /\ s_m sd = mo /\ s_d sd = inject_Z d /\ same_clock (s_t sd) [inject_Z h'; inject_Z mi'; s'; inject_Z u'] /\
    (0 <= h' <= 23)%Z /\ (0 <= mi' <= 59)%Z /\ 0 <= s' < 60 /\ (0 <= u' <= 999999)%Z /\
    Qabs ((inject_Z h' * 3600 + inject_Z mi' * 60 + s' + (u' # 1000000)) - (x - sp) * 86400) < 4 # 1000.
Proof.
  intros Yr NX I SP SQ V G H MI S. cbv zeta. intros L U1 U2 NM. apply midnight_gday in G.
  destruct (next_valid _ _ _ _ _ _ _ NX) as (VM & VD & _).
  assert (I' : ~ In (y, mo, d) IRR).
  { intro I'. apply I. unfold irregular_bdates. rewrite !in_app_iff in *. destruct I' as [I'|[I'|[I'|[]]]]; [tauto|tauto|]. right; right; right. left. exact I'. }
  destruct (badi_evening y mo d ltac:(lia) ltac:(split; assumption) I') as (z & j & TZ & J & F & [E1 E2] & [R1 R2] & K).
  assert (j = sp) by congruence. subst j.
  set (k := bday_of_year (leap_of rnd m y) mo d) in *. toQ R1. toQ R2.
  assert (X1 : inject_Z (z + k + 1721422) == inject_Z (z + k) + 1721422) by (rewrite inject_Z_plus; reflexivity). rewrite X1 in E1, E2.
  set (cs := inject_Z h * 3600 + inject_Z mi * 60 + s) in *.
  assert (CS : 0 <= cs < 86400).
  { unfold cs. destruct H as [H1 H2]. destruct MI as [M1 M2]. toQ H1. toQ H2. toQ M1. toQ M2. split; qlra. }
  unfold Qdiv in *. change (/ 86400) with (1 # 86400) in *.
  assert (GB : (-1000000 <= gday false Y M D <= 2000000)%Z) by (unfold GREG0 in G; split; byQ).
  destruct (jd_clock rnd N Y M D h mi s V H MI S GB) as (jd & JD & FJ & NJ). fold cs in NJ. rewrite <- G in NJ. unfold Qdiv in NJ. change (/ 86400) with (1 # 86400) in NJ.
  apply Qabs_Qle_condition in NJ. unfold badi_date_from_gregorian_date. rewrite JD. cbn [bind].
  destruct (full_decode rnd N m EV us trim y mo d y' mo' d' jd sp sq Yr NX I SP SQ FJ) as (sd & h' & mi' & s' & u' & A1 & A2 & A3 & A4 & A5 & A6 & A7 & A8 & A9 & _ & A10).
  - intros (k0 & NK). specialize (NM k0). apply Qabs_Qlt_condition in NK.
    assert (Z : Qabs (g + cs * (1 # 86400) + (51288701 # 360000000) + (1 # 2) - inject_Z k0) < 1 # 50000000) by (apply Qabs_Qlt_condition; split; lra). lra.
  - lra.
  - lra.
  - lra.
  - exists sd, h', mi', s', u'. split; [exact A1|]. repeat (split; [assumption|]). apply Qabs_Qlt_condition in A10. apply Qabs_Qlt_condition. split; lra.
Qed.

(** there and back: the local evening, read as UT, is three and a half hours into the same Badi day *)
Lemma round_trip us trim y mo d y' mo' d' : (-1843 <= y <= 1160)%Z -> next_bday (leap_of rnd m) (y, mo, d) (y', mo', d') ->
  ~ In (y, mo, d) irregular_bdates -> ~ In (y', mo', d') skipped_bdates -> ~ In (y', mo', d') reform_bdates ->
  exists Y M D h mi s sd h' mi' s' u',
    gregorian_date_from_badi_date rnd m T false true (bd y mo d) LAT LON TEHRAN_ZONE = Ok (Some (Y, M, inject_Z D, [inject_Z h; inject_Z mi; s])) /\
    badi_date_from_gregorian_date rnd m T us true trim false true Y M (inject_Z D) (inject_Z h) (inject_Z mi) s LAT LON = Ok (Short sd) /\
    s_y sd = y /\ s_m sd = mo /\ s_d sd = inject_Z d /\ same_clock (s_t sd) [inject_Z h'; inject_Z mi'; s'; inject_Z u'] /\
    (0 <= h' <= 23)%Z /\ (0 <= mi' <= 59)%Z /\ 0 <= s' < 60 /\ (0 <= u' <= 999999)%Z /\
    Qabs ((inject_Z h' * 3600 + inject_Z mi' * 60 + s' + (u' # 1000000)) - 12600) < 1 # 100.
Proof.
  intros Yr NX I I1 I2. destruct (next_valid _ _ _ _ _ _ _ NX) as (VM & VD & VM' & VD' & YY).
  assert (AR : (y, mo, d) <> after_reform) by (intro A; apply I; rewrite A; unfold irregular_bdates; rewrite !in_app_iff; right; right; right; left; reflexivity).
  assert (I' : ~ In (y, mo, d) IRR).
  { intro I'. apply I. unfold irregular_bdates. rewrite !in_app_iff in *. destruct I' as [I'|[I'|[I'|[]]]]; [tauto|tauto|]. congruence. }
  assert (AR' : (y', mo', d') <> after_reform).
  { intro A. apply I. unfold irregular_bdates, after_reform in *. assert (EE : (y, mo, d) = (-261, 11, 18)%Z).
    { assert (y' = -261 /\ mo' = 11 /\ d' = 19)%Z as (-> & -> & ->) by (injection A; auto). inversion NX; subst; try lia; replace d with 18%Z by lia; reflexivity. }
    rewrite EE. cbn. tauto. }
  assert (I'' : ~ In (y', mo', d') IRR) by (rewrite !in_app_iff; intros [A|[A|[A|[]]]]; [tauto|tauto|congruence]).
  destruct (badi_evening y mo d ltac:(lia) ltac:(split; assumption) I') as (z & sp & TZ & SP & F & E & R & K).
  destruct (badi_evening y' mo' d' ltac:(lia) ltac:(split; assumption) I'') as (z' & sq & TZ' & SQ & _).
  destruct (to_jd_step rnd N m EV y mo d y' mo' d' sp sq ltac:(lia) ltac:(lia) NX AR AR' SP SQ) as [ST _].
  destruct (greg_of_evening false z _ sp R E) as (Y & M & D & GV & GD & DA & _ & c & C1 & C2 & C3 & C4 & C5).
  destruct C2 as (h & mi & u & s & [[EC _]|EC] & H & MI & S & _ & H24); [|subst c; discriminate C3]. subst c.
  unfold clock_seconds in *. cbn [nth] in *.
  assert (H23 : (0 <= h <= 23)%Z).
  { split; [lia|]. destruct (Z_le_gt_dec h 23) as [G|G]; [exact G|]. exfalso. assert (HH : h = 24%Z) by lia. subst h. destruct MI as [M1 _]. toQ M1. qlra. }
  set (k := bday_of_year (leap_of rnd m y) mo d) in *. pose proof E as E'. destruct E' as [E1 E2]. destruct R as [R1 R2]. toQ R1. toQ R2.
  assert (X1 : inject_Z (z + k + 1721422) == inject_Z (z + k) + 1721422) by (rewrite inject_Z_plus; reflexivity). rewrite X1 in E1, E2.
  assert (X' : inject_Z (z + k - 1) == inject_Z (z + k) - 1) by (unfold Z.sub; rewrite inject_Z_plus; reflexivity). rewrite X' in C5.
  pose proof (gday_midnight Y M D DA) as MID. rewrite GD in MID.
  apply Qabs_Qlt_condition in C5. unfold GREG0 in *.
  destruct (from_greg us trim y mo d y' mo' d' sp sq Y M D h mi s _ Yr NX I SP SQ GV MID H23 MI S) as (sd & h' & mi' & s' & u' & A1 & A2 & A3 & A4 & A5 & A6 & A7 & A8 & A9 & A10).
  - unfold Qdiv. change (/ 86400) with (1 # 86400). rewrite X'. lra.
  - unfold Qdiv. change (/ 86400) with (1 # 86400). rewrite X'. lra.
  - unfold Qdiv. change (/ 86400) with (1 # 86400). rewrite X'. lra.
  - intro k0. unfold Qdiv. change (/ 86400) with (1 # 86400). rewrite X'.
    destruct (Z_le_gt_dec k0 (z + k + 1721422)) as [G|G].
    + toQ G. rewrite X1 in G. apply Qle_trans with (2 := Qle_Qabs _). lra.
    + assert (G' : (z + k + 1721422 + 1 <= k0)%Z) by lia. clear G. toQ G'. rewrite inject_Z_plus, X1 in G'. change (inject_Z 1) with 1 in G'. rewrite <- Qabs_opp. apply Qle_trans with (2 := Qle_Qabs _). lra.
  - exists Y, M, D, h, mi, s, sd, h', mi', s', u'. split; [unfold gregorian_date_from_badi_date; unfold to_jd in SP; rewrite SP; exact C1|].
    split; [exact A1|]. repeat (split; [assumption|]). unfold Qdiv in A10. change (/ 86400) with (1 # 86400) in A10. rewrite X' in A10.
    apply Qabs_Qlt_condition in A10. apply Qabs_Qlt_condition. split; lra.
Qed.
End C.
