(** NoonProofs.v -- the midday of a date (proof support for C62). *)
From Coq Require Import ZArith QArith Qround Qabs Qreals Lqa Reals Lra Lia List Bool.
From Coq Require Import ZifyBool.
From Verif Require Import Base Flt QUtil BaseModel BaseProofs BaseProofs2 MiscModel BadiModel SpecBadi SunProofs GregProofs4 StrfModel AstroModel SpecAstro AstroReal AstroFlt AstroApx AstroSun AstroRA AstroRise5 PropertiesAstro DayProofs PropertiesDay.
Import ListNotations.
Local Open Scope Q_scope.

Section Noon.
Variable rnd : Q -> Q.
Hypothesis N : Nearest rnd.

(** ** Floats between 2^21 and 2^22 are the multiples of 2^-31 *)
Lemma grid31_float z : (Z.abs z <= 9007199254740992)%Z -> is_float (z # 2147483648).
Proof.
  intro H. exists z, (-31)%Z. split; [exact H|]. change (2 ^ (-31)) with (1 # 2147483648).
  unfold Qeq, Qmult, inject_Z. cbn [Qnum Qden]. lia.
Qed.
Lemma near_grid x z : (4503599627370497 <= z <= 9007199254740992)%Z -> Qabs (x - (z # 2147483648)) < 1 # 4294967296 -> rnd x == z # 2147483648.
Proof.
  intros Z H. pose proof (grid31_float z ltac:(lia)) as F. pose proof (grid31_float (z - 1) ltac:(lia)) as F1.
  destruct N as (_ & NF & NN). pose proof (NN x _ F) as C.
  assert (C1 : Qabs (rnd x - x) < 1 # 4294967296). { eapply Qle_lt_trans; [exact C|]. rewrite Qabs_Qminus. exact H. }
  apply Qabs_Qlt_condition in H. apply Qabs_Qlt_condition in C1.
  assert (S : (z # 2147483648) - (1 # 2147483648) == (z - 1) # 2147483648) by (unfold Qeq, Qminus, Qplus, Qopp; cbn [Qnum Qden]; lia).
  assert (B : 2097152 <= rnd x).
  { apply Qle_trans with ((z - 1) # 2147483648); [unfold Qle; cbn [Qnum Qden]; lia|]. rewrite <- (near_exact rnd N _ F1). apply near_mono; [exact N|]. rewrite <- S. Lqa.lra. }
  destruct (float_grid31 (rnd x) (NF x) B) as [z' E]. rewrite E in *.
  assert (D : (z' # 2147483648) - (z # 2147483648) == (z' - z) # 2147483648) by (unfold Qeq, Qminus, Qplus, Qopp; cbn [Qnum Qden]; lia).
  assert (D1 : -(1 # 2147483648) < (z' - z) # 2147483648 < 1 # 2147483648) by (rewrite <- D; Lqa.lra).
  assert (z' = z); [|subst; reflexivity]. destruct D1 as [D1 D2]. unfold Qlt in D1, D2. cbn [Qnum Qden Qopp] in D1, D2. lia.
Qed.
Lemma floor_grid z : Qfloor (z # 2147483648) = (z / 2147483648)%Z.
Proof. reflexivity. Qed.

(** ** The longitude of Greenwich as a fraction of a turn is not half way between two steps of the grid *)
Lemma gmt_lon : Qabs (GMT_LON rnd - (-1545 # 1000000)) <= 1 # 18014398509481984.
Proof. unfold GMT_LON. apply (near_err rnd N 0). unfold Qle, Qabs. cbn. lia. Qed.
Lemma gmt_turn : -(92164 # 21474836480) <= fdiv rnd (GMT_LON rnd) 360 <= -(92160 # 21474836480).
Proof.
  pose proof gmt_lon as L. apply Qabs_le_iff in L. unfold fdiv. set (l := GMT_LON rnd) in *.
  assert (D : l / 360 == l * (1 # 360)) by (unfold Qdiv; reflexivity).
  assert (B : Qabs (l / 360) <= 2 ^ 0) by (apply Qabs_le_iff; change (2 ^ 0) with 1; rewrite D; split; Lqa.lra).
  pose proof (near_err rnd N 0 _ B) as E. change (2 ^ (0 - 54)) with (1 # 18014398509481984) in E. apply Qabs_le_iff in E.
  destruct E as [E1 E2]. set (r := rnd (l / 360)) in *. set (x := l / 360) in *. clearbody r x. split; Lqa.lra.
Qed.
Lemma day_of_grid jd z : jd == z # 2147483648 -> (4503599627400000 <= z <= 9007199254000000 - 1073741824)%Z ->
  day_of rnd jd (GMT_LON rnd) = ((z - 9216 + 1073741824) / 2147483648)%Z.
Proof.
  intros E Z. unfold day_of. pose proof gmt_turn as T. set (t := fdiv rnd (GMT_LON rnd) 360) in *.
  assert (S : forall k, (z + k) # 2147483648 == (z # 2147483648) + (k # 2147483648)) by (intro k; unfold Qeq, Qplus; cbn [Qnum Qden]; lia).
  assert (E1 : fadd rnd jd t == (z - 9216) # 2147483648).
  { unfold fadd. apply near_grid; [lia|]. apply Qabs_Qlt_condition. replace (z - 9216)%Z with (z + - 9216)%Z by lia. rewrite S, E. split; Lqa.lra. }
  assert (E2 : fadd rnd (fadd rnd jd t) (1 # 2) == (z - 9216 + 1073741824) # 2147483648).
  { unfold fadd at 1. rewrite (near_proper rnd N _ ((z - 9216 + 1073741824) # 2147483648)); [apply near_exact; [exact N|apply grid31_float; lia]|].
    rewrite E1. unfold Qeq, Qplus. cbn [Qnum Qden]. lia. }
  rewrite (Qfloor_comp _ _ E2). apply floor_grid.
Qed.

(** ** After the reform, the two scales are two days apart *)
Lemma meeus_late j z : j == z # 2147483648 -> 2299160 <= j -> (z <= 9007199254000000 - 4294967296)%Z ->
  exists j', meeus_from_exact rnd j = Ok j' /\ j' == (z + 4294967296) # 2147483648.
Proof.
  intros E B Z. assert (H : (4598320 <= hd j)%Z) by (change 4598320%Z with (hd 2299160); apply hd_mono, B).
  rewrite meeus_from_exact_z. assert (G : zgap (hd j) = false) by (unfold zgap; lia). rewrite G.
  assert (D : zdiff (hd j) meeus_breaks = 2%Z) by (pose proof (zdiff_m_cases (hd j)) as C; cbv zeta in C; lia). rewrite D.
  eexists. split; [reflexivity|]. unfold fadd.
  assert (P : (0 <= z)%Z). { destruct (Z_lt_ge_dec z 0) as [L|L]; [exfalso|lia]. assert (C : (z # 2147483648) < 0) by (unfold Qlt; cbn [Qnum Qden]; lia). rewrite <- E in C. Lqa.lra. }
  rewrite (near_proper rnd N _ ((z + 4294967296) # 2147483648)); [apply near_exact; [exact N|apply grid31_float; lia]|].
  rewrite E. unfold Qeq, Qplus, inject_Z. cbn [Qnum Qden]. lia.
Qed.

Variable lm : libm.
Hypothesis A : accurate lm.
Notation m := (astro_set rnd lm).
Lemma gmt_close : (Rabs (Q2R (GMT_LAT rnd) - 51.477928) <= 0.000000000001)%R /\ (Rabs (Q2R (GMT_LON rnd) + 0.001545) <= 0.000000000001)%R.
Proof.
  assert (LON_ : apx (GMT_LON rnd) (-0.001545) 1 (1 / 1000000000000)).
  { eapply apx_eq; [eapply apx_weaken; [apply (apx_litc rnd (-1545) 1000000 N)| |]|]; cbn [Z.abs]; unfold u; lra. }
  assert (LAT_ : apx (GMT_LAT rnd) 51.477928 52 (1 / 1000000000000)).
  { eapply apx_eq; [eapply apx_weaken; [apply (apx_litc rnd 51477928 1000000 N)| |]|]; cbn [Z.abs]; unfold u; lra. }
  destruct LON_ as [LO _]. destruct LAT_ as [LA _]. apply Rabs_le_iff in LA. apply Rabs_le_iff in LO. split; apply Rabs_le_iff; lra.
Qed.
Lemma gmt_place : (-52 <= Q2R (GMT_LAT rnd) <= 52)%R /\ (-180 <= Q2R (GMT_LON rnd) <= 180)%R.
Proof. destruct gmt_close as [LA LO]. apply Rabs_le_iff in LA. apply Rabs_le_iff in LO. lra. Qed.
Lemma grid_R j z : j == z # 2147483648 -> (Q2R j = IZR z / 2147483648)%R.
Proof. intro E. rewrite (Qeq_eqR _ _ E). apply Q2R_lit. Qed.
Lemma midday_near d j : to_jd rnd m d = Ok j -> is_float j -> 2299160 <= j <= 2899990 ->
  exists q, midday rnd m d = Ok q /\ (Rabs (Q2R q - 1 / 2) <= 0.0023051)%R /\
    exists j1 j2 s0 s1, j1 == j + 2 /\ j2 == j + 3 /\ sun_event rnd lm true j1 (GMT_LAT rnd) (GMT_LON rnd) = Ok s0 /\ sun_event rnd lm true j2 (GMT_LAT rnd) (GMT_LON rnd) = Ok s1 /\
      (Rabs (Q2R q - (Q2R s1 - Q2R s0) / 2) <= 0.000000002)%R.
Proof.
  intros J F [B1 B2]. destruct (float_grid31 j F ltac:(Lqa.lra)) as [z E].
  assert (ZB : (4937408504135680 <= z <= 6227681104363520)%Z).
  { rewrite E in B1, B2. unfold Qle in B1, B2. cbn [Qnum Qden] in B1, B2. lia. }
  destruct (meeus_late j z E B1 ltac:(lia)) as (j1 & M1 & E1).
  assert (JP : fadd rnd j 1 == (z + 2147483648) # 2147483648).
  { unfold fadd. rewrite (near_proper rnd N _ ((z + 2147483648) # 2147483648)); [apply near_exact; [exact N|apply grid31_float; lia]|].
    rewrite E. unfold Qeq, Qplus. cbn [Qnum Qden]. lia. }
  assert (B3 : 2299160 <= fadd rnd j 1) by (rewrite JP; unfold Qle; cbn [Qnum Qden]; lia).
  destruct (meeus_late _ _ JP B3 ltac:(lia)) as (j2 & M2 & E2).
  assert (ZR : (4937408504135680 <= IZR z <= 6227681104363520)%R) by (split; apply IZR_le; lia).
  assert (R1 : (1700003 <= Q2R j1 <= 2899998)%R) by (rewrite (grid_R _ _ E1), plus_IZR; lra).
  assert (R2 : (1700003 <= Q2R j2 <= 2899998)%R) by (rewrite (grid_R _ _ E2), !plus_IZR; lra).
  destruct gmt_place as [LA LO].
  pose proof (C86_same_sunset rnd lm j1 _ _ N A R1 LA LO) as S1. pose proof (C86_same_sunset rnd lm j2 _ _ N A R2 LA LO) as S2.
  assert (DD : day_of rnd j2 (GMT_LON rnd) = (day_of rnd j1 (GMT_LON rnd) + 1)%Z).
  { rewrite (day_of_grid _ _ E1), (day_of_grid _ _ E2) by lia.
    replace (z + 2147483648 + 4294967296 - 9216 + 1073741824)%Z with (z + 4294967296 - 9216 + 1073741824 + 1 * 2147483648)%Z by lia. rewrite Z.div_add by lia. reflexivity. }
  destruct (events_apart rnd N lm A true j1 j2 _ _ _ _ R1 R2 ltac:(apply Rabs_le_iff; exact LA) ltac:(apply Rabs_le_iff; exact LO) DD S1 S2) as [D _].
  unfold midday. unfold to_jd in J. rewrite J. cbn [bind]. rewrite M1. cbn [bind]. cbv zeta. rewrite M2. cbn [bind].
  set (s0 := sun_setting rnd m j1 _ _) in *. set (s1 := sun_setting rnd m j2 _ _) in *. clearbody s0 s1. apply Rabs_le_iff in D.
  assert (U1 : (Rabs (Q2R (fsub rnd s1 s0) - (Q2R s1 - Q2R s0)) <= 2 * u)%R) by (apply fsub_R; [exact N|apply Rabs_le_iff; lra]).
  unfold u in U1. apply Rabs_le_iff in U1. set (w := fsub rnd s1 s0) in *.
  assert (T2 : (Q2R 2 = 2)%R) by (unfold Q2R; cbn [Qnum Qden]; lra).
  assert (U2 : (Rabs (Q2R (fdiv rnd w 2) - (Q2R w / Q2R 2)) <= 1 * u)%R) by (apply fdiv_R; [exact N|discriminate|rewrite T2; apply Rabs_le_iff; lra]).
  rewrite T2 in U2. unfold u in U2. apply Rabs_le_iff in U2. set (v := fdiv rnd w 2) in *.
  unfold local_zone_correction. change (Qleb (-180) 0 && Qleb 0 180)%bool with true. cbn [passert bind]. cbv zeta.
  eexists. split; [reflexivity|].
  assert (Z0 : HR rnd 0 == 0) by (unfold HR, fdiv; rewrite (near_proper rnd N _ (inject_Z 0)) by reflexivity; apply (near_int rnd N 0); lia).
  assert (Z0R : (Q2R (HR rnd 0) = 0)%R) by (rewrite (Qeq_eqR _ _ Z0); unfold Q2R; cbn [Qnum Qden]; lra).
  assert (U3 : (Rabs (Q2R (fadd rnd v (HR rnd 0)) - (Q2R v + Q2R (HR rnd 0))) <= 1 * u)%R) by (apply fadd_R; [exact N|rewrite Z0R; apply Rabs_le_iff; lra]).
  rewrite Z0R in U3. unfold u in U3. apply Rabs_le_iff in U3. set (p := fadd rnd v (HR rnd 0)) in *.
  assert (P0 : 0 <= p) by (apply Rle_Qle; replace (Q2R 0) with 0%R by (unfold Q2R; cbn [Qnum Qden]; lra); lra).
  destruct (fmod1_nonneg rnd p P0) as [FE _].
  assert (P1 : Qfloor p = 0%Z).
  { assert (P2 : p < 1) by (apply Rlt_Qlt; replace (Q2R 1) with 1%R by (unfold Q2R; cbn [Qnum Qden]; lra); lra).
    pose proof (Qfloor_le p) as F1. pose proof (Qlt_floor p) as F2. assert (X1 : inject_Z (Qfloor p) < inject_Z 1) by (change (inject_Z 1) with 1; Lqa.lra).
    assert (X2 : inject_Z 0 < inject_Z (Qfloor p + 1)) by (change (inject_Z 0) with 0; Lqa.lra). rewrite <- Zlt_Qlt in X1, X2. lia. }
  rewrite P1 in FE. assert (FR : Q2R (fmod1 rnd p) = Q2R p).
  { apply Qeq_eqR. rewrite FE. change (inject_Z 0) with 0. ring. }
  pose proof (round_len rnd N (fmod1 rnd p) ltac:(rewrite FR; apply Rabs_le_iff; lra)) as R. rewrite FR in R. apply Rabs_le_iff in R. split; [apply Rabs_le_iff; lra|].
  exists j1, j2, s0, s1. split; [rewrite E1, E; unfold Qeq, Qplus; cbn [Qnum Qden]; lia|]. split; [rewrite E2, E; unfold Qeq, Qplus; cbn [Qnum Qden]; lia|].
  split; [exact S1|]. split; [exact S2|]. apply Rabs_le_iff. lra.
Qed.
End Noon.
