(** ClockProofs3.v -- the encoder on clock times and day fractions; packing of clock times. *)
From Coq Require Import ZArith QArith Qround Qabs List Bool Lia Lqa Setoid Morphisms.
From Coq Require Import ZifyBool ZifyNat ZifyN.
From Verif Require Import Base Flt QUtil BaseModel MiscModel BadiModel BaseProofs BaseProofs2 MiscProofs SunProofs SpecMisc SpecBadi BadiProofs BadiProofs2 LongYear BadiProofs3 DecProofs BadiProofs4 LongProofs BadiProofs5 ClockProofs.
Import ListNotations.
Local Open Scope Q_scope.
Ltac Zify.zify_post_hook ::= Z.div_mod_to_equations.

(** the historical difference is constant over three days without a break *)
Lemma zdiff_const6 E h : (forall b, In b break_days -> (E < b - 3 \/ b <= E)%Z) -> (E < GAP0 - 3 \/ GAP0 + 10 <= E)%Z ->
  (2 * E <= h <= 2 * E + 6)%Z -> zdiff h meeus_breaks = zdiff (2 * E) meeus_breaks /\ zgap h = false.
Proof.
  intros B G R. unfold GAP0 in G. split; [|unfold zgap; lia].
  assert (B1 : forall b, In b break_days -> (2 * b - 1 <= 2 * E \/ 2 * E + 6 < 2 * b - 1)%Z) by (intros b I; specialize (B b I); lia).
  assert (G1 : (4598297 <= 2 * E \/ 2 * E + 6 < 4598297)%Z) by lia. clear B G.
  set (k := (2 * E)%Z) in *. clearbody k. clear E.
  pose proof (zdiff_m_cases h) as H. pose proof (zdiff_m_cases k) as H'. cbv zeta in H, H'.
  set (n := zdiff h meeus_breaks) in *. set (n' := zdiff k meeus_breaks) in *. clearbody n n'.
  split_or H; split_or H'; try reflexivity; exfalso; try lia;
  match type of H with (?k <= h < _)%Z => let b := eval compute in ((k + 1) / 2)%Z in pose proof (B1 b ltac:(cbn; tauto)); lia end.
Qed.

Section Clock3.
Variable rnd : Q -> Q.
Hypothesis N : Nearest rnd.
#[local] Instance prop_rnd11 : Proper (Qeq ==> Qeq) rnd.
Proof. intros a b E. apply near_proper; [exact N|exact E]. Qed.
Variable m : Q -> Q -> Q -> Q.
Hypothesis EV : evening rnd m.
Notation LAT := (TEHRAN_LAT rnd).
Notation LON := (TEHRAN_LON rnd).
Notation T := (year_table rnd m).

(** ** clock times *)
Lemma to_jd_parts y mo d sp : (-1843 <= y <= 1161)%Z -> valid_bday (leap_of rnd m) y mo d -> to_jd rnd m (bd y mo d) = Ok sp ->
  exists H, (1700001 < H < 2900000)%Z /\ sp == AE rnd m H /\ forall t, check_short rnd T {| s_y := y; s_m := mo; s_d := inject_Z d; s_t := t |} = Ok tt ->
    to_jd rnd m {| s_y := y; s_m := mo; s_d := inject_Z d; s_t := t |} =
    bind (decimal_day_from_hms rnd (nth 0 t 0) (nth 1 t 0) (nth 2 t 0) (nth 3 t 0)) (fun f => Ok (round12 rnd (fadd rnd (AE rnd m H) f))).
Proof.
  intros Y [M D] SP. rewrite (leap_of_ok rnd N m EV) in D by exact Y.
  pose proof (to_jd_henc rnd N m EV y mo d Y M D) as TH.
  pose proof (coeff_range y ltac:(lia)) as C. pose proof (henc_date y mo d Y M D) as HE.
  pose proof (ED_days y mo d Y M D) as R. set (c := get_day_coeff y) in *. set (E := ED y mo d) in *.
  assert (J : (days_in_years false (y - 1) + 2394644 + zdbm (zleap y) mo + d = E - c)%Z)
    by (unfold E, ED, zrd, ystart; fold c; lia).
  assert (X : fadd rnd (inject_Z (days_in_years false (y - 1) + 2394644 + zdbm (zleap y) mo)) (inject_Z d) == inject_Z (E - c)).
  { unfold fadd. rewrite <- inject_Z_plus, J. apply near_int; [exact N|lia]. }
  assert (R' : in_days (E - c)) by (unfold in_days; lia).
  pose proof (enc_raw rnd N m EV _ (E - c) c R' C X) as R0. replace (E - c + c)%Z with E in R0 by lia. rewrite HE in R0.
  destruct (henc_spec y mo d) as [H|] eqn:HS; [|congruence].
  destruct TH as (RH & j & J1 & J2 & _). assert (j = sp) by congruence. subst j.
  exists H. split; [exact RH|]. split; [exact J2|]. intros t CK. unfold to_jd, jd_from_badi_date. rewrite CK. cbn [bind s_y s_m s_d s_t get_hms].
  rewrite (dbm_ok rnd N m EV) by exact Y. cbn [bind]. rewrite (epoch_floor rnd N). fold c.
  destruct (meeus_from_exact rnd _) as [jd0|e]; [|discriminate]. cbn [bind] in *. rewrite R0. reflexivity.
Qed.

Lemma day_fraction h mi s us : (0 <= h <= 24)%Z -> (0 <= mi <= 59)%Z -> 0 <= s < 60 -> (0 <= us < 1000000)%Z -> us = 0%Z \/ s == inject_Z (Qfloor s) ->
  exists f, decimal_day_from_hms rnd (inject_Z h) (inject_Z mi) s (inject_Z us) = Ok f /\ 0 <= f <= 2 /\
   Qabs (f - (inject_Z h * 3600 + inject_Z mi * 60 + s + (us # 1000000)) / 86400) <= 1 # 1000000000.
Proof.
  intros H MI S U SU. unfold decimal_day_from_hms.
  assert (G : (negb (Qeqb (fmod1 rnd s) 0) && Qeqb (inject_Z us) 0 || negb (negb (Qeqb (fmod1 rnd s) 0)) && negb (Qeqb (inject_Z us) 0)
     || negb (negb (Qeqb (fmod1 rnd s) 0)) && Qeqb (inject_Z us) 0)%bool = true).
  { destruct SU as [->|E].
    - assert (A : Qeqb (inject_Z 0) 0 = true) by reflexivity. rewrite A. destruct (Qeqb (fmod1 rnd s) 0); reflexivity.
    - assert (A : Qeqb (fmod1 rnd s) 0 = true).
      { apply Qeqb_eq. destruct (fmod1_nonneg rnd s ltac:(lra)) as [M1 _]. rewrite M1, <- E. ring. }
      rewrite A. destruct (Qeqb (inject_Z us) 0); reflexivity. }
  rewrite G. eexists. split; [reflexivity|].
  assert (X1 : fmul rnd (inject_Z h) 3600 == inject_Z (h * 3600)).
  { unfold fmul. change 3600 with (inject_Z 3600). rewrite <- inject_Z_mult. apply near_int; [exact N|lia]. }
  assert (X2 : fmul rnd (inject_Z mi) 60 == inject_Z (mi * 60)).
  { unfold fmul. change 60 with (inject_Z 60). rewrite <- inject_Z_mult. apply near_int; [exact N|lia]. }
  assert (X3 : fadd rnd (fmul rnd (inject_Z h) 3600) (fmul rnd (inject_Z mi) 60) == inject_Z (h * 3600 + mi * 60)).
  { unfold fadd. rewrite X1, X2, <- inject_Z_plus. apply near_int; [exact N|lia]. }
  set (a := fadd rnd (fmul rnd (inject_Z h) 3600) (fmul rnd (inject_Z mi) 60)) in *. 
  assert (HQ : 0 <= inject_Z h <= 24) by (change 0 with (inject_Z 0); change 24 with (inject_Z 24); rewrite <- !Zle_Qle; lia).
  assert (MQ : 0 <= inject_Z mi <= 59) by (change 0 with (inject_Z 0); change 59 with (inject_Z 59); rewrite <- !Zle_Qle; lia).
  assert (UQ : 0 <= (us # 1000000) < 1) by (unfold Qle, Qlt; cbn [Qnum Qden]; lia).
  rewrite inject_Z_plus, !inject_Z_mult in X3. change (inject_Z 3600) with 3600 in X3. change (inject_Z 60) with 60 in X3.
  set (c0 := fadd rnd (fadd rnd a s) (US rnd (inject_Z us))) in *. change (fdiv rnd c0 SECONDS_PER_DAY) with (rnd (c0 / 86400)) in *. unfold fadd in c0.
  pose proof (near_k rnd N 18 (a + s) (1 # 68719476736)) as N1. rewrite X3 in N1 at 1.
  assert (A1 : Qabs (a + s) <= 2 ^ 18) by (apply Qabs_le_iff; change (2 ^ 18) with 262144; rewrite X3; split; lra).
  specialize (N1 ltac:(apply Qabs_le_iff; change (2 ^ 18) with 262144; split; lra) ltac:(discriminate)). set (b := rnd (a + s)) in *.
  assert (NU : (us # 1000000) - (1 # 1000000000000) <= US rnd (inject_Z us) <= (us # 1000000) + (1 # 1000000000000)).
  { unfold US, fdiv. setoid_replace (inject_Z us / 1000000) with (us # 1000000) by (rewrite (Qmake_Qdiv us 1000000); reflexivity).
    apply (near_k rnd N 1); [apply Qabs_le_iff; change (2 ^ 1) with 2; split; lra|discriminate]. }
  set (u := US rnd (inject_Z us)) in *. rewrite X3 in N1.
  pose proof (near_k rnd N 18 (b + u) (1 # 68719476736) ltac:(apply Qabs_le_iff; change (2 ^ 18) with 262144; split; lra) ltac:(discriminate)) as N2.
  set (c := rnd (b + u)) in *. change c0 with c. clear c0.
  assert (CD : c / 86400 == c * (1 # 86400)) by (unfold Qdiv; reflexivity). rewrite CD.
  pose proof (near_k rnd N 1 (c * (1 # 86400)) (1 # 9007199254740992) ltac:(apply Qabs_le_iff; change (2 ^ 1) with 2; split; lra) ltac:(discriminate)) as N3.
  set (f := rnd (c * (1 # 86400))) in *.
  assert (F0 : 0 <= f).
  { unfold f. apply near_nonneg; [exact N|]. assert (0 <= c); [|lra]. unfold c. apply near_nonneg; [exact N|].
    assert (0 <= b) by (unfold b; apply near_nonneg; [exact N|lra]).
    assert (0 <= u); [|lra]. unfold u, US, fdiv. apply near_nonneg; [exact N|].
    setoid_replace (inject_Z us / 1000000) with (us # 1000000) by (rewrite (Qmake_Qdiv us 1000000); reflexivity). lra. }
  split; [split; lra|].
  setoid_replace ((inject_Z h * 3600 + inject_Z mi * 60 + s + (us # 1000000)) / 86400) with ((inject_Z h * 3600 + inject_Z mi * 60 + s + (us # 1000000)) * (1 # 86400)) by (unfold Qdiv; reflexivity).
  apply Qabs_le_iff. split; lra.
Qed.

Lemma enc_clock y mo d sp h mi s us : (-1843 <= y <= 1161)%Z -> valid_bday (leap_of rnd m) y mo d -> to_jd rnd m (bd y mo d) = Ok sp ->
  (0 <= h <= 24)%Z -> (0 <= mi <= 59)%Z -> 0 <= s < 60 -> (0 <= us < 1000000)%Z -> us = 0%Z \/ s == inject_Z (Qfloor s) ->
  exists j, to_jd rnd m {| s_y := y; s_m := mo; s_d := inject_Z d; s_t := [inject_Z h; inject_Z mi; s; inject_Z us] |} = Ok j /\ is_float j /\
   Qabs (j - (sp + (inject_Z h * 3600 + inject_Z mi * 60 + s + (us # 1000000)) / 86400)) <= 1 # 400000000.
Proof.
  intros Y V SP H MI S U SU. destruct (to_jd_parts y mo d sp Y V SP) as (HH & RH & SA & TJ).
  rewrite TJ by (apply (check_clock rnd N m EV); assumption). cbn [nth].
  destruct (day_fraction h mi s us H MI S U SU) as (f & F & FR & FE). rewrite F. cbn [bind]. eexists. split; [reflexivity|].
  split; [unfold round12, fround; apply near_float, N|].
  destruct (AE_size rnd N m EV HH RH) as [_ SZ]. set (a := AE rnd m HH) in *.
  pose proof (near23 rnd N (a + f) ltac:(apply Qabs_le_iff; split; lra)) as N1. unfold fadd. set (b := rnd (a + f)) in *.
  pose proof (round12_near rnd N b ltac:(apply Qabs_le_iff; split; lra)) as N2. set (j := round12 rnd b) in *.
  apply Qabs_le_iff in FE. apply Qabs_le_iff. rewrite SA. split; lra.
Qed.
(** fractional seconds together with microseconds are refused *)
Lemma enc_clock_refused y mo d sp h mi s us : (-1843 <= y <= 1161)%Z -> valid_bday (leap_of rnd m) y mo d -> to_jd rnd m (bd y mo d) = Ok sp ->
  (0 <= h <= 24)%Z -> (0 <= mi <= 59)%Z -> 0 <= s < 60 -> (0 < us < 1000000)%Z -> ~ s == inject_Z (Qfloor s) ->
  to_jd rnd m {| s_y := y; s_m := mo; s_d := inject_Z d; s_t := [inject_Z h; inject_Z mi; s; inject_Z us] |} = Err AssertionError.
Proof.
  intros Y V SP H MI S U SU. destruct (to_jd_parts y mo d sp Y V SP) as (HH & RH & SA & TJ).
  rewrite TJ by (apply (check_clock rnd N m EV); assumption || lia). cbn [nth]. unfold decimal_day_from_hms.
  assert (A : Qeqb (fmod1 rnd s) 0 = false).
  { apply Qeqb_neq. destruct (fmod1_nonneg rnd s ltac:(lra)) as [M1 _]. rewrite M1. intro E. apply SU. lra. }
  assert (B : Qeqb (inject_Z us) 0 = false) by (apply Qeqb_neq; change 0 with (inject_Z 0); unfold Qeq, inject_Z; cbn [Qnum Qden]; lia).
  rewrite A, B. reflexivity.
Qed.

(** ** day fractions *)
Lemma quiet_year y E : (-1843 <= y <= 1161)%Z -> (ystart y <= E - 1721423 < ystart (y + 1))%Z -> ~ In y win_years ->
  (forall b, In b break_days -> (E < b - 2 \/ b <= E)%Z) /\ (E < GAP0 - 2 \/ GAP0 + 10 <= E)%Z.
Proof. intros Y R W. apply not_window. intro I. apply W. apply (window_year y E); assumption. Qed.
Lemma to_jd_HI y mo d : (-1843 <= y <= 1161)%Z -> (0 <= mo <= 19)%Z -> (1 <= d <= bmonth_len (zleap y) mo)%Z -> ~ In y win_years ->
  (1700001 < HI (ED y mo d) < 2900000)%Z /\ exists j, to_jd rnd m (bd y mo d) = Ok j /\ j == AE rnd m (HI (ED y mo d)).
Proof.
  intros Y M D W. pose proof (to_jd_henc rnd N m EV y mo d Y M D) as H. unfold henc_spec in H. destruct (not_win_year_list y mo d W) as [A B].
  rewrite A, B in H. destruct H as (R & j & J & JE & _). split; [exact R|]. exists j. tauto.
Qed.
Lemma frac_day y mo d y' mo' d' f j j' : (-1843 <= y <= 1161)%Z -> (y' <= 1161)%Z -> next_bday (leap_of rnd m) (y, mo, d) (y', mo', d') ->
  ~ In y win_years -> ~ In y' win_years -> to_jd rnd m (bd y mo d) = Ok j -> to_jd rnd m (bd y' mo' d') = Ok j' -> 0 <= f < 1 ->
  exists k, to_jd rnd m {| s_y := y; s_m := mo; s_d := inject_Z d + f; s_t := [] |} = Ok k /\
   (f <= 35753 # 100000 -> k == j) /\ (35754 # 100000 <= f -> k == j').
Proof.
  intros Y Y1 NX W W' J J' F. destruct (next_valid _ _ _ _ _ _ _ NX) as (M & D & M' & D' & YY).
  assert (Y' : (-1843 <= y' <= 1161)%Z) by lia.
  rewrite (leap_of_ok rnd N m EV) in D, D' by assumption.
  assert (NX' : next_bday zleap (y, mo, d) (y', mo', d')).
  { apply (next_ext (leap_of rnd m)); [cbn [fst]; apply (leap_of_ok rnd N m EV); exact Y|exact NX]. }
  pose proof (rd_next _ _ NX') as RN. cbv beta iota in RN. specialize (RN Y).
  destruct (to_jd_HI y mo d Y M D W) as (RH & j0 & J0 & JE). assert (j0 = j) by congruence. subst j0.
  destruct (to_jd_HI y' mo' d' Y' M' D' W') as (RH' & j0 & J0' & JE'). assert (j0 = j') by congruence. subst j0.
  assert (E1 : ED y' mo' d' = (ED y mo d + 1)%Z) by (unfold ED; lia). rewrite E1 in *.
  destruct (quiet_year y (ED y mo d) Y ltac:(pose proof (rd_range y mo d Y M D); unfold ED; lia) W) as [Q1 Q2].
  destruct (quiet_year y' (ED y mo d + 1) Y' ltac:(pose proof (rd_range y' mo' d' Y' M' D'); unfold ED; lia) W') as [Q3 Q4].
  pose proof (coeff_range y ltac:(lia)) as C.
  pose proof (ED_days y mo d Y M D) as R.
  unfold to_jd, jd_from_badi_date.
  assert (CK : check_short rnd T {| s_y := y; s_m := mo; s_d := inject_Z d + f; s_t := [] |} = Ok tt).
  { unfold check_short, MINYEAR, MAXYEAR. cbn [s_y s_m s_d s_t].
    assert (A : ((-1842 - 1 <=? y) && (y <=? 1161 + 1))%Z = true) by lia. rewrite A. cbn [passert bind].
    unfold check_mdt. cbn [get_hms nth].
    assert (B : ((0 <=? mo) && (mo <? 20))%Z = true) by lia. rewrite B. cbn [passert bind].
    assert (CC : (if (mo =? 0)%Z then let* b := is_leap_badi T y in Ok (5 + b2z b)%Z else Ok 20%Z) = Ok (bmonth_len (zleap y) mo + 1)%Z).
    { unfold bmonth_len. destruct (mo =? 0)%Z; [|reflexivity]. rewrite (is_leap_ok rnd N m EV) by exact Y. cbn [bind]. destruct (zleap y); reflexivity. }
    rewrite CC. cbn [bind]. assert (K1 : Qleb 1 (inject_Z d + f) && Qltb (inject_Z d + f) (inject_Z (bmonth_len (zleap y) mo + 1)) = true).
    { destruct D as [D1 D2]. toQ D1. toQ D2. change (inject_Z 1) with 1 in D1. apply andb_true_intro. split; [apply Qleb_le; lra|apply Qltb_lt; rewrite inject_Z_plus; change (inject_Z 1) with 1; lra]. }
    rewrite K1. reflexivity. }
  rewrite CK. cbn [bind s_y s_m s_d s_t get_hms nth]. rewrite (dbm_ok rnd N m EV) by exact Y. cbn [bind]. rewrite (epoch_floor rnd N).
  set (c := get_day_coeff y) in *. set (E := ED y mo d) in *.
  assert (JJ : (days_in_years false (y - 1) + 2394644 + zdbm (zleap y) mo + d = E - c)%Z)
    by (unfold E, ED, zrd, ystart; fold c; lia).
  set (I := (days_in_years false (y - 1) + 2394644 + zdbm (zleap y) mo)%Z) in *.
  assert (IQ : inject_Z I + inject_Z d == inject_Z E - inject_Z c) by (rewrite <- inject_Z_plus, JJ; unfold Z.sub; rewrite inject_Z_plus, inject_Z_opp; reflexivity).
  assert (EQ : 1700000 <= inject_Z E <= 2890000) by (change 1700000 with (inject_Z 1700000); change 2890000 with (inject_Z 2890000); rewrite <- !Zle_Qle; lia).
  assert (CQ : -2 <= inject_Z c <= 0) by (change (-2) with (inject_Z (-2)); change 0 with (inject_Z 0); rewrite <- !Zle_Qle; lia).
  pose proof (near23 rnd N (inject_Z I + (inject_Z d + f)) ltac:(apply Qabs_le_iff; split; lra)) as N1.
  change (fadd rnd (inject_Z I) (inject_Z d + f)) with (rnd (inject_Z I + (inject_Z d + f))).
  set (x := rnd (inject_Z I + (inject_Z d + f))) in *.
  assert (HX : (2 * E <= hd x <= 2 * E + 6)%Z).
  { unfold hd. pose proof (Qfloor_le (x * 2)) as F1. pose proof (Qlt_floor (x * 2)) as F2. rewrite inject_Z_plus in F2. change (inject_Z 1) with 1 in F2.
    set (q := Qfloor (x * 2)) in *. split.
    - assert (X0 : inject_Z (E - c) <= x).
      { assert (XI : rnd (inject_Z (E - c)) == inject_Z (E - c)) by (apply near_int; [exact N|lia]).
        rewrite <- XI. unfold x. apply near_mono; [exact N|]. unfold Z.sub. rewrite inject_Z_plus, inject_Z_opp. lra. }
      assert (2 * (E - c) < q + 1)%Z; [|lia]. unfold Z.sub in *. byQ.
    - assert (q < 2 * E + 7)%Z; [|lia]. byQ. }
  destruct (zdiff_const6 E (hd x)) as [ZD ZG]; [intros b Ib; specialize (Q1 b Ib); specialize (Q3 b Ib); lia|unfold GAP0 in *; lia|exact HX|].
  destruct (zdiff_const6 E (2 * (E + 1))) as [ZD1 _]; [intros b Ib; specialize (Q1 b Ib); specialize (Q3 b Ib); lia|unfold GAP0 in *; lia|lia|].
  destruct (zdiff_const6 E (2 * E)) as [_ ZG0]; [intros b Ib; specialize (Q1 b Ib); specialize (Q3 b Ib); lia|unfold GAP0 in *; lia|lia|].
  destruct (zdiff_const6 E (2 * (E + 1))) as [_ ZG1]; [intros b Ib; specialize (Q1 b Ib); specialize (Q3 b Ib); lia|unfold GAP0 in *; lia|lia|].
  rewrite meeus_from_exact_z, ZG, ZD. cbn [bind]. pose proof (zdiff_m_range (2 * E)) as DN. 
  destruct (EX_HI E ZG0) as [_ I0]. destruct (EX_HI (E + 1) ZG1) as [_ I1].
  unfold HI in *. rewrite ZD1 in *. set (n := zdiff (2 * E) meeus_breaks) in *.
  assert (NQ : 0 <= inject_Z n <= 12) by (change 0 with (inject_Z 0); change 12 with (inject_Z 12); rewrite <- !Zle_Qle; lia).
  pose proof (near23 rnd N (x + inject_Z n) ltac:(apply Qabs_le_iff; split; lra)) as N2. 
  change (fadd rnd x (inject_Z n)) with (rnd (x + inject_Z n)). set (x2 := rnd (x + inject_Z n)) in *.
  pose proof (near23 rnd N (x2 + inject_Z c) ltac:(apply Qabs_le_iff; split; lra)) as N3. 
  change (fadd rnd x2 (inject_Z c)) with (rnd (x2 + inject_Z c)). set (x3 := rnd (x2 + inject_Z c)) in *.
  rewrite sun_setting_SS. destruct (day_frac0 rnd N) as (q0 & DF & Q0).
  assert (FIN : forall H, (1700001 < H < 2900000)%Z -> cday rnd x3 = H -> zinvalid (2 * H) = false ->
     bind (exact_from_meeus rnd (SS rnd m (cday rnd x3))) (fun a_ss => bind (decimal_day_from_hms rnd 0 0 0 0) (fun day_frac => Ok (round12 rnd (fadd rnd a_ss day_frac))))
       = Ok (round12 rnd (fadd rnd (AE rnd m H) q0))).
  { intros H RR -> ZI. rewrite (exact_sunset rnd N m (band rnd N m EV)) by exact RR. rewrite ZI. cbn [bind]. rewrite DF. reflexivity. }
  assert (X3 : inject_Z E + inject_Z n + f - (3 # 2147483648) <= x3 <= inject_Z E + inject_Z n + f + (3 # 2147483648)) by (split; lra).
  destruct (Qlt_le_dec f (357531 # 1000000)) as [L|L].
  - assert (CD : cday rnd x3 = (E + n)%Z).
    { apply cday_spec; [exact N|apply Qabs_le_iff; split; lra|rewrite inject_Z_plus; unfold lf; lra|rewrite inject_Z_plus; unfold lf; lra]. }
    rewrite (FIN (E + n)%Z RH CD I0). eexists. split; [reflexivity|]. rewrite (enc_finish rnd N m EV _ _ RH Q0). split; intro G; [symmetry; exact JE|exfalso; lra].
  - assert (CD : (357540 # 1000000) <= f -> cday rnd x3 = (E + 1 + n)%Z).
    { intro G. apply cday_spec; [exact N|apply Qabs_le_iff; split; lra|rewrite !inject_Z_plus; change (inject_Z 1) with 1; unfold lf; lra|rewrite !inject_Z_plus; change (inject_Z 1) with 1; unfold lf; lra]. }
    destruct (Qlt_le_dec f (357540 # 1000000)) as [G|G].
    + destruct (Z.eq_dec (cday rnd x3) (E + n)) as [C0|C0].
      * rewrite (FIN (E + n)%Z RH C0 I0). eexists. split; [reflexivity|]. split; intro G'; exfalso; lra.
      * assert (C1 : cday rnd x3 = (E + 1 + n)%Z).
        { destruct (cday_near rnd N x3 ltac:(apply Qabs_le_iff; split; lra)) as [D1 D2]. unfold lf in *.
          assert (cday rnd x3 < E + n + 2)%Z by byQ. assert (E + n - 1 < cday rnd x3)%Z by byQ. lia. }
        rewrite (FIN (E + 1 + n)%Z RH' C1 I1). eexists. split; [reflexivity|]. split; intro G'; exfalso; lra.
    + rewrite (FIN (E + 1 + n)%Z RH' (CD G) I1). eexists. split; [reflexivity|]. rewrite (enc_finish rnd N m EV _ _ RH' Q0). split; intro G'; [exfalso; lra|symmetry; exact JE'].
Qed.
End Clock3.
