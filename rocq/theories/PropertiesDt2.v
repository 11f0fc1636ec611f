(** PropertiesDt2.v -- C47 (timestamps of datetimes) and C59 (fractional clock fields). *)
From Coq Require Import ZArith QArith Qround Qabs List Bool Lia Lqa String Setoid Morphisms.
From Coq Require Import ZifyBool ZifyNat ZifyN.
From Verif Require Import Base Flt QUtil BaseModel MiscModel BadiModel BaseProofs SunProofs SpecBadi BadiProofs BadiProofs2 BadiProofs3 DecProofs BadiProofs4 LongYear LongProofs BadiProofs5
  ClockProofs3 ClockProofs4 TduModel DateModel SpecDate TduProofs TduProofs2 TduProofs3 DateProofs SampleSun PropertiesBadi PropertiesDate PropertiesDate2
  TimeModel SpecTime TimeProofs PropertiesTime PropertiesDt.
Import ListNotations.
Local Open Scope Q_scope.
Ltac Zify.zify_post_hook ::= Z.div_mod_to_equations.

Lemma ts_near rnd jd : Nearest rnd -> is_float jd -> 1699979 <= jd <= 2900003 ->
  Qabs (round12 rnd (fmul rnd (fsub rnd jd POSIX_EPOCH) 86400) - (jd - (4881171 # 2)) * 86400) <= 1 # 100000.
Proof.
  intros N F R. unfold fsub, POSIX_EPOCH, fmul, round12, fround.
  pose proof (near_k rnd N 20 (jd - (4881171 # 2)) (1 # 17179869184) ltac:(change (2 ^ 20) with 1048576; apply Qabs_le_iff; split; lra) ltac:(discriminate)) as A.
  assert (FD : rnd (jd - (4881171 # 2)) == jd - (4881171 # 2)).
  { apply near_exact; [exact N|]. destruct (float_grid jd F ltac:(lra)) as [z Z].
    apply (is_float_comp ((z - 20964469811183616) # 8589934592)).
    - rewrite Z. unfold Qeq, Qminus, Qplus, Qopp. cbn [Qnum Qden]. lia.
    - apply grid_float. rewrite Z in R. destruct R as [R1 R2]. unfold Qle in R1, R2. cbn [Qnum Qden] in R1, R2.
      change (2 ^ 53)%Z with 9007199254740992%Z. lia. }
  set (df := rnd (jd - (4881171 # 2))) in *.
  pose proof (near_k rnd N 36 (df * 86400) (1 # 262144) ltac:(change (2 ^ 36) with 68719476736; apply Qabs_le_iff; split; lra) ltac:(discriminate)) as B.
  pose proof (near_float rnd N (df * 86400)) as FX. set (x := rnd (df * 86400)) in *. pose proof (qround12_err x) as C.
  pose proof N as (_ & FN & NN). pose proof (NN (qround 12 x) x FX) as D. set (t := rnd (qround 12 x)) in *. apply Qabs_le_iff in C.
  assert (D' : Qabs (t - qround 12 x) <= 1 # 2000000000000) by (apply (Qle_trans _ _ _ D); apply Qabs_le_iff; split; lra).
  apply Qabs_le_iff in D'. apply Qabs_le_iff. split; lra.
Qed.

(** ** C47: timestamp() of naive datetimes *)
(** [sp] is the JD at which the day begins: the clock is added to it, the microseconds twice. *)
Theorem C47_naive_microseconds_twice : forall rnd m a y mo d sp, Nearest rnd -> evening rnd m -> dt_d a = DShort y mo d -> dt_tz a = None ->
  (-1843 <= y <= 1161)%Z -> valid_bday (leap_of rnd m) y mo d -> to_jd rnd m (bd y mo d) = Ok sp -> valid_clock (dt_h a) (dt_mi a) (dt_s a) (dt_us a) -> (dt_s a < 60)%Z ->
  exists t, dt_timestamp_naive rnd m a = Ok t /\
    Qabs (t - ((sp - (4881171 # 2)) * 86400 + inject_Z (dt_h a * 3600 + dt_mi a * 60 + dt_s a) + 2 * (dt_us a # 1000000))) <= 1 # 4000.
Proof.
  intros rnd m a y mo d sp N E D TZ Y V SP (H & MI & S & U) S60. unfold dt_timestamp_naive, dt_mktime, dt_tuple. rewrite D. unfold timestamp_from_badi_date.
  assert (SQ : 0 <= inject_Z (dt_s a) < 60) by (change 0 with (inject_Z 0); change 60 with (inject_Z 60); rewrite <- Zle_Qle, <- Zlt_Qlt; lia).
  destruct (enc_clock rnd N m E y mo d sp (dt_h a) (dt_mi a) (inject_Z (dt_s a)) (dt_us a) Y V SP H MI SQ ltac:(lia) ltac:(right; rewrite Qfloor_Z; reflexivity)) as (j & J & JF & JE).
  unfold to_jd in J. rewrite J. cbn [bind]. eexists. split; [reflexivity|]. destruct (jd_size rnd N m E y mo d sp Y V SP) as [_ SR].
  assert (HQ : 0 <= inject_Z (dt_h a) <= 24) by (change 0 with (inject_Z 0); change 24 with (inject_Z 24); rewrite <- !Zle_Qle; lia).
  assert (MQ : 0 <= inject_Z (dt_mi a) <= 59) by (change 0 with (inject_Z 0); change 59 with (inject_Z 59); rewrite <- !Zle_Qle; lia).
  assert (UQ : 0 <= (dt_us a # 1000000) < 1) by (unfold Qle, Qlt; cbn [Qnum Qden]; lia).
  setoid_replace ((inject_Z (dt_h a) * 3600 + inject_Z (dt_mi a) * 60 + inject_Z (dt_s a) + (dt_us a # 1000000)) / 86400)
    with ((inject_Z (dt_h a) * 3600 + inject_Z (dt_mi a) * 60 + inject_Z (dt_s a) + (dt_us a # 1000000)) * (1 # 86400)) in JE by (unfold Qdiv; reflexivity).
  apply Qabs_le_iff in JE. pose proof (ts_near rnd j N JF ltac:(split; lra)) as T. apply Qabs_le_iff in T. set (t0 := round12 rnd _) in *.
  unfold fadd, fdiv.
  pose proof (near_k rnd N 1 (dt_us a # 1000000) (1 # 9007199254740992) ltac:(apply Qabs_le_iff; change (2 ^ 1) with 2; split; lra) ltac:(discriminate)) as A.
  assert (AQ : rnd (inject_Z (dt_us a) / 1000000) == rnd (dt_us a # 1000000)) by (apply near_proper; [exact N|]; rewrite (Qmake_Qdiv (dt_us a) 1000000); reflexivity).
  rewrite <- AQ in A. set (u := rnd (inject_Z (dt_us a) / 1000000)) in *.
  pose proof (near_k rnd N 37 (t0 + u) (1 # 131072) ltac:(change (2 ^ 37) with 137438953472; apply Qabs_le_iff; split; lra) ltac:(discriminate)) as B.
  rewrite !inject_Z_plus, !inject_Z_mult. change (inject_Z 3600) with 3600. change (inject_Z 60) with 60. apply Qabs_le_iff. split; lra.
Qed.
Print Assumptions C47_naive_microseconds_twice.
(** timestamp() of an aware datetime: its distance on the line, in UTC, from 126-16-02 07:59:32.4924 of the line. *)
Theorem C47_aware : forall rnd m utc a l x, Nearest rnd -> evening rnd m -> naw_ruz_order rnd m -> on_line rnd m a l -> steady_dt a -> good_offset (dt_tz a) -> offset (dt_tz a) = Some x ->
  tz_off utc = Some 0%Z -> coherent (dt_tz a) (Some utc) ->
  exists l0, on_line rnd m (EPOCH utc) l0 /\ l0 = (719162 * 86400000000 + 28772492400)%Z /\
  exists t, dt_timestamp_aware rnd m utc a = Ok t /\ t == rnd (inject_Z (l - x - l0) / 1000000).
Proof.
  intros rnd m utc a l x N E O L ST G X U C.
  assert (S : supported rnd m (dt_d (EPOCH utc)) 126 16 2).
  { split; [cbn; tauto|]. split; [lia|]. apply (ok_valid rnd N m E). unfold okd, bmonth_len. cbn. lia. }
  pose proof (on_line_of rnd m (EPOCH utc) 126 16 2 N E S) as L0. eexists. split; [exact L0|]. split; [vm_compute; reflexivity|].
  unfold dt_timestamp_aware. assert (GU : good_offset (dt_tz (EPOCH utc))) by (unfold good_offset, EPOCH; cbn [dt_tz offset]; rewrite U; intros o Q; injection Q as <-; lia).
  rewrite (C25_difference rnd m a (EPOCH utc) l _ N E O L L0 ST ltac:(intros ? ? ? (<- & _) I; cbn in I; lia) G GU C). rewrite X. cbn [EPOCH dt_tz offset]. rewrite U. cbn [bind].
  eexists. split; [reflexivity|]. unfold fdiv. apply near_proper; [exact N|]. apply Qdiv_comp; [|reflexivity]. apply inject_Z_injective. lia.
Qed.
Print Assumptions C47_aware.
Example C47_datetime_case : to_jd b64 sample_sun (bd 182 1 1) <> Err ValueError /\
  (exists t t', dt_timestamp_naive b64 sample_sun (mk_dt 182 1 1 1 0 0 0 None) = Ok t /\ dt_timestamp_naive b64 sample_sun (mk_dt 182 1 1 1 0 0 500000 None) = Ok t' /\ 1 - (1 # 1000) < t' - t < 1 + (1 # 1000)) /\
  dt_timestamp_aware b64 sample_sun {| tz_id := 0; tz_off := Some 0%Z |} (mk_dt 126 16 2 8 0 0 0 (mk_tz 0 0)) = Ok (b64 (27507600 # 1000000)).
Proof. split; [vm_compute; discriminate|]. split; [do 2 eexists; split; [vm_compute; reflexivity|]; split; [vm_compute; reflexivity|]; split; vm_compute; reflexivity|vm_compute; reflexivity]. Qed.

(** ** C59: fractional clock fields *)
Lemma Qfloor_nonneg x : 0 <= x -> (0 <= Qfloor x)%Z.
Proof. intro H. change 0%Z with (Qfloor 0). apply Qfloor_resp_le, H. Qed.
Section Frac.
Variable rnd : Q -> Q.
Hypothesis N : Nearest rnd.
Lemma part60 x : 0 <= x -> 60 * (x - inject_Z (Qfloor x)) - (6 # 10000000) <= partial_hour_to_minute rnd x <= 60 * (x - inject_Z (Qfloor x)) + (6 # 10000000) /\ 0 <= partial_hour_to_minute rnd x <= 60 /\
  (1 - (1 # 130000000) < x - inject_Z (Qfloor x) -> partial_hour_to_minute rnd x == 60).
Proof.
  intro P. destruct (fmod1_nonneg rnd x P) as [F R]. unfold partial_hour_to_minute, fmul. set (f := fmod1 rnd x) in *.
  pose proof (near_k rnd N 6 (f * 60) (1 # 281474976710656) ltac:(apply Qabs_le_iff; change (2 ^ 6) with 64; split; lra) ltac:(discriminate)) as A.
  assert (A0 : 0 <= rnd (f * 60)) by (apply near_nonneg; [exact N|lra]).
  assert (A60 : rnd (f * 60) <= inject_Z 60) by (apply near_le_Z; [exact N|lia|change (inject_Z 60) with 60; lra]). change (inject_Z 60) with 60 in A60.
  set (g := rnd (f * 60)) in *. destruct (fround6 rnd N g ltac:(split; lra)) as (k & K & K1 & K2 & K3). apply Qabs_le_iff in K1. apply Qabs_le_iff in K2. unfold eps in K1.
  set (r := fround rnd 6 g) in *. assert (KQ : (k # 1000000) == inject_Z k * (1 # 1000000)) by (unfold Qeq; cbn; lia). rewrite KQ in *.
  assert (K60 : (k <= 60000000)%Z) by (apply Z.lt_succ_r; rewrite Zlt_Qlt; unfold Z.succ; change (inject_Z (60000000 + 1)) with 60000001; lra).
  split; [split; lra|]. split.
  - destruct (Z.eq_dec k 0) as [->|N0]; [rewrite (K3 0%Z eq_refl); split; discriminate|]. destruct (Z.eq_dec k 60000000) as [->|N1]; [rewrite (K3 60%Z eq_refl); split; discriminate|].
    assert (1 <= inject_Z k <= 59999999) by (change 1 with (inject_Z 1); change 59999999 with (inject_Z 59999999); rewrite <- !Zle_Qle; lia). split; lra.
  - intro C. assert (KE : k = 60000000%Z). { enough (59999999 < k)%Z by lia. rewrite Zlt_Qlt. change (inject_Z 59999999) with 59999999. lra. } rewrite KE in K3. exact (K3 60%Z eq_refl).
Qed.
Lemma part_us x : 0 <= x -> let u := partial_second_to_microsecond rnd x in (0 <= u <= 1000000)%Z /\
  x - inject_Z (Qfloor x) - (2 # 1000000) <= inject_Z u * (1 # 1000000) <= x - inject_Z (Qfloor x) + (1 # 1000000).
Proof.
  intro P. destruct (fmod1_nonneg rnd x P) as [F R]. unfold partial_second_to_microsecond. set (f := fmod1 rnd x) in *. cbv zeta.
  destruct (fround6 rnd N f ltac:(split; lra)) as (k & K & K1 & K2 & K3). apply Qabs_le_iff in K1. apply Qabs_le_iff in K2. unfold eps in K1.
  assert (R0 : 0 <= fround rnd 6 f). { destruct (Z.eq_dec k 0) as [->|N0]; [rewrite (K3 0%Z eq_refl); discriminate|].
    assert (KQ : (k # 1000000) == inject_Z k * (1 # 1000000)) by (unfold Qeq; cbn; lia). assert (1 <= inject_Z k) by (change 1 with (inject_Z 1); rewrite <- Zle_Qle; lia). rewrite KQ in K1. lra. }
  set (r := fround rnd 6 f) in *. assert (KQ : (k # 1000000) == inject_Z k * (1 # 1000000)) by (unfold Qeq; cbn; lia). rewrite KQ in *.
  assert (KM : (k <= 1000000)%Z) by (apply Z.lt_succ_r; rewrite Zlt_Qlt; unfold Z.succ; change (inject_Z (1000000 + 1)) with 1000001; lra).
  assert (R1 : r <= 1). { destruct (Z.eq_dec k 1000000) as [->|N1]; [rewrite (K3 1%Z eq_refl); discriminate|]. assert (inject_Z k <= 999999) by (change 999999 with (inject_Z 999999); rewrite <- Zle_Qle; lia). lra. }
  unfold fmul. pose proof (near_k rnd N 20 (r * 1000000) (1 # 17179869184) ltac:(apply Qabs_le_iff; change (2 ^ 20) with 1048576; split; lra) ltac:(discriminate)) as A.
  assert (A0 : 0 <= rnd (r * 1000000)) by (apply near_nonneg; [exact N|lra]).
  assert (A1 : rnd (r * 1000000) <= inject_Z 1000000) by (apply near_le_Z; [exact N|lia|change (inject_Z 1000000) with 1000000; lra]). change (inject_Z 1000000) with 1000000 in A1.
  set (v := rnd (r * 1000000)) in *. rewrite (Qtrunc_nonneg v A0). pose proof (Qfloor_le v) as B1. pose proof (Qlt_floor v) as B2. rewrite inject_Z_plus in B2. change (inject_Z 1) with 1 in B2.
  split; [|split; lra]. split; [apply Qfloor_nonneg; exact A0|]. rewrite Zle_Qle. change (inject_Z 1000000) with 1000000. lra.
Qed.
End Frac.

Definition seconds (h mi s us : Z) : Q := inject_Z h * 3600 + inject_Z mi * 60 + inject_Z s + inject_Z us * (1 # 1000000).
Lemma frac_true rnd x : 0 <= x -> ~ x == inject_Z (Qfloor x) -> nonzero (fmod1 rnd x) = true.
Proof. intros P H. destruct (fmod1_nonneg rnd x P) as [F _]. unfold nonzero. assert (Q : Qeqb (fmod1 rnd x) 0 = false) by (apply Qeqb_neq; rewrite F; intro C; apply H; lra). rewrite Q. reflexivity. Qed.
(** A fractional hour is split to within 40 microseconds. *)
Theorem C59_hour : forall rnd h, Nearest rnd -> 0 <= h -> ~ h == inject_Z (Qfloor h) ->
  exists mi s us, create_time rnd h 0 0 0 = Ok (Qfloor h, mi, s, us) /\ (0 <= mi <= 60)%Z /\ (0 <= s <= 60)%Z /\ (0 <= us <= 1000000)%Z /\
    Qabs (seconds (Qfloor h) mi s us - h * 3600) <= 40 # 1000000.
Proof.
  intros rnd h N P H. unfold create_time. rewrite (frac_true rnd h P H). cbn [andb orb nonzero Qeqb Z.eqb negb].
  change (nonzero 0) with false. cbn [andb orb]. change (fmod1 rnd 0) with (0 - inject_Z 0). change (nonzero (0 - inject_Z 0)) with false. cbn [andb].
  destruct (part60 rnd N h P) as (M1 & M2 & _). set (mm := partial_hour_to_minute rnd h) in *.
  destruct (part60 rnd N mm ltac:(lra)) as (S1 & S2 & _). unfold partial_minute_to_second. set (ss := partial_hour_to_minute rnd mm) in *.
  destruct (part_us rnd N ss ltac:(lra)) as (U1 & U2). set (u := partial_second_to_microsecond rnd ss) in *.
  exists (Qfloor mm), (Qfloor ss), u. split; [reflexivity|].
  assert (FL : forall x, 0 <= x <= 60 -> (0 <= Qfloor x <= 60)%Z).
  { intros x X. split; [apply Qfloor_nonneg; lra|]. pose proof (Qfloor_le x). rewrite Zle_Qle. change (inject_Z 60) with 60. lra. }
  split; [apply FL, M2|]. split; [apply FL, S2|]. split; [exact U1|]. unfold seconds. apply Qabs_le_iff. split; lra.
Qed.
Print Assumptions C59_hour.
(** A fractional minute is split to within 3 microseconds, *)
Theorem C59_minute : forall rnd h mi, Nearest rnd -> 0 <= mi -> ~ mi == inject_Z (Qfloor mi) ->
  exists s us, create_time rnd (inject_Z h) mi 0 0 = Ok (h, Qfloor mi, s, us) /\ (0 <= s <= 60)%Z /\ (0 <= us <= 1000000)%Z /\
    Qabs (seconds h (Qfloor mi) s us - (inject_Z h * 3600 + mi * 60)) <= 3 # 1000000.
Proof.
  intros rnd h mi N P H. unfold create_time. rewrite (fmod1_Z rnd h), (frac_true rnd mi P H). cbn [andb orb Z.eqb negb].
  change (nonzero 0) with false. cbn [andb orb]. change (fmod1 rnd 0) with (0 - inject_Z 0). change (nonzero (0 - inject_Z 0)) with false. cbn [andb]. rewrite Qfloor_Z.
  destruct (part60 rnd N mi P) as (S1 & S2 & _). unfold partial_minute_to_second. set (ss := partial_hour_to_minute rnd mi) in *.
  destruct (part_us rnd N ss ltac:(lra)) as (U1 & U2). set (u := partial_second_to_microsecond rnd ss) in *.
  exists (Qfloor ss), u. split; [reflexivity|]. split; [split; [apply Qfloor_nonneg; lra|]; pose proof (Qfloor_le ss); rewrite Zle_Qle; change (inject_Z 60) with 60; lra|].
  split; [exact U1|]. unfold seconds. apply Qabs_le_iff. split; lra.
Qed.
Print Assumptions C59_minute.
(** and a fractional second to within 2. *)
Theorem C59_second : forall rnd h mi s, Nearest rnd -> 0 <= s -> ~ s == inject_Z (Qfloor s) ->
  exists us, create_time rnd (inject_Z h) (inject_Z mi) s 0 = Ok (h, mi, Qfloor s, us) /\ (0 <= us <= 1000000)%Z /\
    Qabs (seconds h mi (Qfloor s) us - (inject_Z h * 3600 + inject_Z mi * 60 + s)) <= 2 # 1000000.
Proof.
  intros rnd h mi s N P H. unfold create_time. rewrite (fmod1_Z rnd h), (fmod1_Z rnd mi), (frac_true rnd s P H). cbn [andb orb Z.eqb negb]. rewrite !Qfloor_Z.
  destruct (part_us rnd N s P) as (U1 & U2). set (u := partial_second_to_microsecond rnd s) in *.
  exists u. split; [reflexivity|]. split; [exact U1|]. unfold seconds. apply Qabs_le_iff. split; lra.
Qed.
Print Assumptions C59_second.
(** A fraction followed by a smaller unit is refused. *)
Theorem C59_refused : forall rnd h mi s us, 0 <= h -> 0 <= mi -> 0 <= s ->
  (~ h == inject_Z (Qfloor h) /\ (~ mi == 0 \/ ~ s == 0 \/ us <> 0%Z)) \/ (~ mi == inject_Z (Qfloor mi) /\ (~ s == 0 \/ us <> 0%Z)) \/ (~ s == inject_Z (Qfloor s) /\ us <> 0%Z) ->
  create_time rnd h mi s us = Err ValueError.
Proof.
  intros rnd h mi s us HP MP SP C.
  assert (NZ : forall x, ~ x == 0 -> nonzero x = true) by (intros x X; unfold nonzero; apply Qeqb_neq in X; rewrite X; reflexivity).
  assert (UZ : us <> 0%Z -> negb (us =? 0)%Z = true) by lia. unfold create_time.
  destruct C as [(F & C)|[(F & C)|(F & C)]].
  - rewrite (frac_true rnd _ HP F). destruct C as [C|[C|C]]; [rewrite (NZ _ C)|rewrite (NZ _ C)|rewrite (UZ C)]; rewrite ?orb_true_r; reflexivity.
  - rewrite (frac_true rnd _ MP F). destruct (_ && _); [reflexivity|]. destruct C as [C|C]; [rewrite (NZ _ C)|rewrite (UZ C)]; rewrite ?orb_true_r; reflexivity.
  - rewrite (frac_true rnd _ SP F). destruct (_ && _); [reflexivity|]. destruct (_ && _); [reflexivity|]. rewrite (UZ C). reflexivity.
Qed.
Print Assumptions C59_refused.
(** An hour within 27 microseconds of the next one gives a datetime whose minute is 60, on any date. *)
Theorem C59_minute_60_refuted : forall rnd m args z fold h d, Nearest rnd -> 0 <= h < 25 -> 1 - (1 # 130000000) < h - inject_Z (Qfloor h) -> ~ h == inject_Z (Qfloor h) ->
  date_new rnd m args = Ok d -> (fold = 0 \/ fold = 1)%Z -> exists b, dt_newf rnd m args h 0 0 0 z fold = Ok b /\ dt_h b = Qfloor h /\ dt_mi b = 60%Z.
Proof.
  intros rnd m args z fold h d N P C F D FO. unfold dt_newf.
  assert (LEN : ((List.length args =? 3)%nat || (List.length args =? 5)%nat)%bool = true).
  { destruct args as [|? [|? [|? [|? [|? [|? ?]]]]]]; try reflexivity; discriminate. }
  rewrite LEN. cbn [passert bind]. destruct (C59_hour rnd h N ltac:(lra) F) as (mi & s & us & CT & _). 
  assert (MI : mi = 60%Z).
  { destruct (part60 rnd N h ltac:(lra)) as (_ & _ & K). specialize (K C). unfold create_time in CT. rewrite (frac_true rnd h ltac:(lra) F) in CT. cbn [andb orb Z.eqb negb] in CT.
    change (nonzero 0) with false in CT. cbn [andb orb] in CT. change (fmod1 rnd 0) with (0 - inject_Z 0) in CT. change (nonzero (0 - inject_Z 0)) with false in CT. cbn [andb] in CT.
    assert (Q : Qfloor (partial_hour_to_minute rnd h) = 60%Z) by (rewrite K; reflexivity). congruence. }
  rewrite CT. cbn [bind]. rewrite D. cbn [bind]. unfold check_time. assert (H1 : Qleb 0 h = true) by (apply Qleb_le; lra). assert (H2 : Qltb h 25 = true) by (apply Qltb_lt; lra).
  rewrite H1, H2. cbn [andb passert bind]. destruct FO as [->| ->]; cbn; eexists; (split; [reflexivity|]); cbn; tauto.
Qed.
Print Assumptions C59_minute_60_refuted.
Example C59_case : create_time b64 (123 # 8) 0 0 0 = Ok (15, 22, 30, 0)%Z /\ is_float (68719476735 # 68719476736) /\
  create_time b64 (68719476735 # 68719476736) 0 0 0 = Ok (0, 60, 0, 0)%Z.
Proof. split; [vm_compute; reflexivity|]. split; [exists 68719476735%Z, (-36)%Z; split; [lia|reflexivity]|vm_compute; reflexivity]. Qed.
