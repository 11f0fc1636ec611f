(** PropertiesNoon.v -- C62: on which side of midday a time of day is printed. *)
From Coq Require Import ZArith QArith Qround Qabs Qreals Lqa Reals Lra Lia List Bool String.
From Coq Require Import ZifyBool.
From Verif Require Import Base Flt QUtil BaseModel BaseProofs BaseProofs2 MiscModel BadiModel SpecBadi SunProofs BadiProofs BadiProofs2 BadiProofs3 BadiProofs4 PropertiesBadi LongProofs ClockProofs ClockProofs3 DateModel SpecDate TimeModel SpecTime TextModel SpecText StrfModel SpecStrf StrfProofs PropertiesStrf4 PropertiesStrf5 AstroModel SpecAstro AstroReal AstroFlt PropertiesAstro PropertiesAstro2 NoonProofs.
Import ListNotations.
Local Open Scope Z_scope.

Lemma zero_of k : Qeqb (inject_Z k) 0 = true -> k = 0.
Proof. intro H. apply Qeqb_eq in H. unfold Qeq, inject_Z in H. cbn [Qnum Qden] in H. lia. Qed.
Lemma trimmed h mi s : let t := clock_of true [inject_Z h; inject_Z mi; inject_Z s] in
  (nth 0 t 0 = inject_Z h /\ nth 1 t 0 = inject_Z mi /\ nth 2 t 0 = inject_Z s /\ nth 3 t 0 = 0)%Q.
Proof.
  unfold clock_of, trim_hms. cbn [nth rev app trim_scan]. change (Qeqb 0 0) with true. cbn [andb negb].
  destruct (Qeqb (inject_Z s) 0) eqn:S; cbn [andb negb].
  - apply zero_of in S. subst s. destruct (Qeqb (inject_Z mi) 0) eqn:M; cbn [andb negb].
    + apply zero_of in M. subst mi. destruct (Qeqb (inject_Z h) 0) eqn:H; cbn [andb negb rev app nth]; [apply zero_of in H; subst h|]; repeat split.
    + rewrite !andb_false_r. cbn [rev app nth]. repeat split.
  - rewrite !andb_false_r. cbn [rev app nth]. repeat split.
Qed.

Section Noon.
Variable rnd : Q -> Q.
Hypothesis N : Nearest rnd.
Variable lm : libm.
Hypothesis A : accurate lm.
Notation m := (astro_set rnd lm).
Notation T := (year_table rnd m).

Lemma check_hms y mo d h mi s : -1843 <= y <= 1161 -> valid_bday (leap_of rnd m) y mo d -> 0 <= h <= 24 -> 0 <= mi <= 59 -> 0 <= s <= 59 ->
  check_short rnd T {| s_y := y; s_m := mo; s_d := inject_Z d; s_t := [inject_Z h; inject_Z mi; inject_Z s] |} = Ok tt.
Proof.
  intros Y V H MI S. rewrite (check_short_clock rnd N m _ _ _ _ [inject_Z h; inject_Z mi; inject_Z s; inject_Z 0]).
  - apply (check_clock rnd N m (C86_evening rnd lm N A)); [exact Y|exact V|lia|lia| |lia].
    change 0%Q with (inject_Z 0). change 60%Q with (inject_Z 60). rewrite <- Zle_Qle, <- Zlt_Qlt. lia.
  - intros [|[|[|[|i]]]] I; cbn [nth]; try reflexivity. lia.
Qed.
Lemma midday_clock y mo d h mi s t : -260 <= y <= 1161 -> valid_bday (leap_of rnd m) y mo d -> 0 <= h <= 24 -> 0 <= mi <= 59 -> 0 <= s <= 59 ->
  (nth 0 t 0 = inject_Z h /\ nth 1 t 0 = inject_Z mi /\ nth 2 t 0 = inject_Z s /\ nth 3 t 0 = 0)%Q ->
  exists q, midday rnd m {| s_y := y; s_m := mo; s_d := inject_Z d; s_t := t |} = Ok q /\ (Rabs (Q2R q - 1 / 2) <= 0.0023051)%R.
Proof.
  intros Y V H MI S (T0 & T1 & T2 & T3). pose proof (C86_evening rnd lm N A) as EV.
  assert (I : ~ In (y, mo, d) (skipped_bdates ++ reform_bdates ++ [after_reform])).
  { intro I. vm_compute in I. repeat (destruct I as [I|I]; [injection I; lia|]). exact I. }
  destruct (C43_value rnd m y mo d (ystart y) N EV ltac:(lia) V I (year_table_ok rnd N m EV y ltac:(lia))) as (sp & J & F & B & _).
  destruct (to_jd_parts rnd N m EV y mo d sp ltac:(lia) V J) as (HH & RH & SA & TJ).
  assert (C : check_short rnd T {| s_y := y; s_m := mo; s_d := inject_Z d; s_t := t |} = Ok tt).
  { rewrite (check_short_clock rnd N m _ _ _ _ [inject_Z h; inject_Z mi; inject_Z s]); [apply check_hms; try assumption; lia|].
    intros [|[|[|[|i]]]] K; cbn [nth]; rewrite ?T0, ?T1, ?T2, ?T3; try reflexivity. lia. }
  destruct (day_fraction rnd N h mi (inject_Z s) 0 H MI) as (f & FE & FR & _); [|lia|left; reflexivity|].
  { change 0%Q with (inject_Z 0). change 60%Q with (inject_Z 60). rewrite <- Zle_Qle, <- Zlt_Qlt. lia. }
  specialize (TJ t C). rewrite T0, T1, T2, T3 in TJ. change (inject_Z 0) with 0%Q in FE. rewrite FE in TJ. cbn [bind] in TJ.
  destruct (midday_near rnd N lm A _ _ TJ) as (q & MQ & QB & _); [unfold round12, fround; apply near_float, N| |exists q; split; [exact MQ|exact QB]].
  assert (E1 : 2299163 <= ystart y + bday_of_year (leap_of rnd m y) mo d + 1721422 <= 2899000).
  { pose proof V as [VM VD]. rewrite (leap_of_ok rnd N m EV) in * by lia. rewrite doy_dbm by assumption.
    pose proof (rd_range y mo d ltac:(lia) VM VD) as RR. pose proof (ystart_range (y + 1) ltac:(lia)) as YR1.
    pose proof (ystart_mono (-260) y ltac:(lia) ltac:(lia)) as MO. assert (577740 <= ystart (-260)) by (apply Z.leb_le; vm_compute; reflexivity). unfold zrd in *. lia. }
  set (E := ystart y + bday_of_year (leap_of rnd m y) mo d + 1721422) in *. cbv zeta in B.
  assert (E2 : (2299163 <= inject_Z E <= 2899000)%Q) by (change 2299163%Q with (inject_Z 2299163); change 2899000%Q with (inject_Z 2899000); rewrite <- !Zle_Qle; lia).
  rewrite SA in B. set (a := AE rnd m HH) in *. set (e := inject_Z E) in *.
  pose proof (near23 rnd N (a + f) ltac:(apply Qabs_le_iff; split; Lqa.lra)) as N1. unfold fadd. set (b := rnd (a + f)%Q) in *.
  pose proof (round12_near rnd N b ltac:(apply Qabs_le_iff; split; Lqa.lra)) as N2. set (j := round12 rnd b) in *. split; Lqa.lra.
Qed.
End Noon.

(** The midday of a moment of the years after the reform is half the time between the sunsets at Greenwich of the civil day
    of that moment and of the next one ([j] is the moment on the scale of the calendar, two days behind). *)
Theorem C62_midday : forall rnd lm d j, Nearest rnd -> accurate lm -> let m := astro_set rnd lm in
  to_jd rnd m d = Ok j -> is_float j -> (2299160 <= j <= 2899990)%Q ->
  exists q lat lon j1 j2 s0 s1, midday rnd m d = Ok q /\ (Rabs (Q2R lat - 51.477928) <= 0.000000000001 /\ Rabs (Q2R lon + 0.001545) <= 0.000000000001)%R /\
    (j1 == j + 2 /\ j2 == j + 3)%Q /\ sun_event rnd lm true j1 lat lon = Ok s0 /\ sun_event rnd lm true j2 lat lon = Ok s1 /\
    (Rabs (Q2R q - (Q2R s1 - Q2R s0) / 2) <= 0.000000002)%R /\ (Rabs (Q2R q - 1 / 2) <= 0.0023051)%R.
Proof.
  intros rnd lm d j N A m J F B. destruct (midday_near rnd N lm A d j J F B) as (q & M & Q & j1 & j2 & s0 & s1 & E1 & E2 & S1 & S2 & D).
  exists q, (GMT_LAT rnd), (GMT_LON rnd), j1, j2, s0, s1. destruct (gmt_close rnd N) as [LA LO]. repeat split; assumption.
Qed.
Print Assumptions C62_midday.

(** Midday is reckoned as half the time from one sunset at Greenwich to the next.  It is never as much as three minutes
    and a half from 12:00:00: of every supported date from the year -260 on, in either form, a time of day up to 11:56:40
    is printed with the first of the two texts of the locale, and one from 12:03:20 on with the second. *)
Theorem C62_am_pm : forall rnd lm lo a zi y mo d, Nearest rnd -> accurate lm -> let m := astro_set rnd lm in
  printable rnd m a zi y mo d -> -260 <= y -> dt_s a <= 59 -> let clock := dt_h a * 3600 + dt_mi a * 60 + dt_s a in
  (clock <= 11 * 3600 + 56 * 60 + 40 -> dt_strftime rnd m lo a zi (str "%p") = Ok (lo_am lo)) /\
  (12 * 3600 + 3 * 60 + 20 <= clock -> dt_strftime rnd m lo a zi (str "%p") = Ok (lo_pm lo)).
Proof.
  intros rnd lm lo a zi y mo d N A m P Y S59 clock. pose proof (C86_evening rnd lm N A) as E. pose proof (C87_naw_ruz_order rnd lm N A) as O.
  destruct (printable_struct rnd m a zi y mo d N E O P) as (s & w & _ & _ & _ & GY & MO & MDD & HH & MI & SS & _ & _ & _ & _ & KV & X).
  pose proof (one_directive rnd m lo a zi s X 112 ltac:(discriminate) ltac:(apply in_mem; reflexivity)) as Rp.
  change (dt_strftime rnd m lo a zi (str "%p") = f_p rnd m lo s) in Rp. rewrite Rp.
  destruct P as ((D & Y' & V) & (C & _) & _ & F). unfold valid_clock in C.
  assert (M : exists q, find_midday rnd m s = Ok q /\ (Rabs (Q2R q - 1 / 2) <= 0.0023051)%R).
  { unfold find_midday. rewrite KV, HH, MI, SS, MO, MDD. destruct (dt_d a) as [y' mo' d'|k v yy mo' d'].
    - unfold get_year in GY. rewrite KV in GY. rewrite GY. apply (midday_clock rnd N lm A y mo d (dt_h a) (dt_mi a) (dt_s a)); [lia|exact V|lia|lia|lia|]. cbn [nth]. repeat split.
    - destruct F as [F|F]; [discriminate|]. destruct D as (V1 & V2 & V3 & _). unfold get_year in GY. rewrite KV in GY.
      assert (YS : st_year s = yy) by lia. rewrite YS. assert (LY : long_year k v yy = y) by exact V3.
      rewrite (short_of_long rnd N m E true k v yy mo (inject_Z d)); [| lia | lia | | | | |].
      + cbn [bind]. rewrite LY. apply (midday_clock rnd N lm A y mo d (dt_h a) (dt_mi a) (dt_s a)); [lia|exact V|lia|lia|lia|apply trimmed].
      + rewrite LY. apply (check_hms rnd N lm A); [lia|exact V|lia|lia|lia].
      + cbn [nth]. change 24%Q with (inject_Z 24). rewrite <- Zlt_Qlt. lia.
      + cbn [nth]. change 60%Q with (inject_Z 60). rewrite <- Zlt_Qlt. lia.
      + cbn [nth]. change 60%Q with (inject_Z 60). rewrite <- Zlt_Qlt. lia.
      + rewrite LY, <- Zle_Qle. destruct V as [_ VD]. lia. }
  destruct M as (q & MQ & QB). unfold f_p, after_noon. rewrite MQ. cbn [bind]. rewrite HH, MI, SS.
  destruct (day_fraction rnd N (dt_h a) (dt_mi a) (inject_Z (dt_s a)) 0) as (f & FE & FR & FB); [lia|lia| |lia|left; reflexivity|].
  { change 0%Q with (inject_Z 0). change 60%Q with (inject_Z 60). rewrite <- Zle_Qle, <- Zlt_Qlt. lia. }
  change (inject_Z 0) with 0%Q in FE. rewrite FE. cbn [bind].
  assert (CQ : ((inject_Z (dt_h a) * 3600 + inject_Z (dt_mi a) * 60 + inject_Z (dt_s a) + (0 # 1000000)) / 86400 == clock # 86400)%Q).
  { assert (W : (clock # 86400 == inject_Z clock / 86400)%Q) by (unfold Qeq, Qdiv, Qinv, Qmult, inject_Z; cbn [Qnum Qden]; lia).
    rewrite W. unfold clock. rewrite !inject_Z_plus, !inject_Z_mult. change (inject_Z 3600) with 3600%Q. change (inject_Z 60) with 60%Q. field. }
  rewrite CQ in FB. apply Qabs_R in FB. rewrite Q2R_minus in FB. assert (CR : (Q2R (clock # 86400) = IZR clock / 86400)%R) by apply Q2R_lit. rewrite CR in FB.
  assert (CE : (Q2R (1 # 1000000000) = 1 / 1000000000)%R) by apply Q2R_lit. rewrite CE in FB. apply Rabs_le_iff in FB. apply Rabs_le_iff in QB.
  split; intro K.
  - assert (K1 : clock <= 43000) by lia. apply IZR_le in K1. assert (L : Qleb q f = false) by (apply Qleb_gt; apply Rlt_Qlt; lra). rewrite L. reflexivity.
  - assert (K1 : 43400 <= clock) by lia. apply IZR_le in K1. assert (L : Qleb q f = true) by (apply Qleb_le; apply Rle_Qle; lra). rewrite L. reflexivity.
Qed.
Print Assumptions C62_am_pm.
(** So the hour of the 12-hour clock (%I) is the hour itself up to 11:56:40 -- 00 in the first hour -- and the hour less
    twelve from 12:03:20 on -- again 00, not 12, in the hour that begins at noon. *)
Theorem C62_hour : forall rnd lm lo a zi y mo d, Nearest rnd -> accurate lm -> let m := astro_set rnd lm in
  printable rnd m a zi y mo d -> -260 <= y -> dt_s a <= 59 -> lo_am lo <> lo_pm lo -> let clock := dt_h a * 3600 + dt_mi a * 60 + dt_s a in
  (clock <= 11 * 3600 + 56 * 60 + 40 -> dt_strftime rnd m lo a zi (str "%I") = Ok (columns 2 (dt_h a))) /\
  (12 * 3600 + 3 * 60 + 20 <= clock -> dt_strftime rnd m lo a zi (str "%I") = Ok (columns 2 (dt_h a - 12))).
Proof.
  intros rnd lm lo a zi y mo d N A m P Y S59 NE clock. pose proof (C86_evening rnd lm N A) as E. pose proof (C87_naw_ruz_order rnd lm N A) as O.
  destruct (C62_am_pm rnd lm lo a zi y mo d N A P Y S59) as [H1 H2]. fold clock in H1, H2. fold m in H1, H2.
  assert (C : valid_clock (dt_h a) (dt_mi a) (dt_s a) (dt_us a)) by (destruct P as (_ & (C & _) & _); exact C). unfold valid_clock in C.
  split; intro K.
  - destruct (C62_clock12 rnd m lo a zi y mo d _ N E O P (H1 K)) as (pm & t & PE & TI & F & _). destruct pm; [congruence|]. rewrite TI, (F eq_refl). reflexivity.
  - destruct (C62_clock12 rnd m lo a zi y mo d _ N E O P (H2 K)) as (pm & t & PE & TI & _ & F & _). destruct pm; [|congruence]. rewrite TI, (F eq_refl) by (unfold clock in K; lia). reflexivity.
Qed.
Print Assumptions C62_hour.
(** 0181-01-01T12:30:00 is such a time of day, on the side of PM. *)
Example C62_am_pm_case : let a := {| dt_d := DShort 181 1 1; dt_h := 12; dt_mi := 30; dt_s := 0; dt_us := 0; dt_tz := None; dt_fold := 0 |} in
  let m := astro_set b64 real_libm in printable b64 m a None 181 1 1 /\ forall lo, lo_am lo <> lo_pm lo -> dt_strftime b64 m lo a None (str "%p") = Ok (lo_pm lo) /\ dt_strftime b64 m lo a None (str "%I") = Ok (str "00").
Proof.
  intros a m.
  assert (P : printable b64 m a None 181 1 1).
  { split; [split; [repeat split; reflexivity|split; [lia|]]|].
    - split; [lia|]. unfold bmonth_len. cbn. lia.
    - split; [split; [cbn; unfold valid_clock; lia|split; [left; reflexivity|intros o OO; discriminate]]|split; [reflexivity|left; reflexivity]]. }
  split; [exact P|]. intros lo NE. split.
  - apply (C62_am_pm b64 real_libm lo a None 181 1 1 b64_nearest real_libm_accurate P); cbn; lia.
  - destruct (C62_hour b64 real_libm lo a None 181 1 1 b64_nearest real_libm_accurate P ltac:(lia) ltac:(cbn; lia) NE) as [_ H]. cbv zeta in H. fold m in H. rewrite H by (cbn; lia). reflexivity.
Qed.
