(** PropertiesStrf5.v -- C35: %z; C62: 12-hour clock; C63: names; C64: ctime. *)
From Coq Require Import ZArith QArith Qround Qabs List Bool Lia Lqa String.
From Coq Require Import ZifyBool ZifyNat ZifyN.
From Verif Require Import Base Flt QUtil BaseModel MiscModel BadiModel BaseProofs SunProofs SpecBadi BadiProofs BadiProofs2 BadiProofs3 DecProofs BadiProofs4 LongYear LongProofs BadiProofs5 MeeusFloat
  ClockProofs3 ClockProofs4 TduModel DateModel SpecDate TduProofs TduProofs2 TduProofs3 DateProofs SampleSun PropertiesBadi PropertiesDate PropertiesDate2
  TimeModel SpecTime TimeProofs PropertiesTime PropertiesDt TextModel SpecText TextProofs PropertiesText StrfModel SpecStrf StrfProofs PropertiesStrf PropertiesStrf2 PropertiesStrf3 PropertiesStrf4.
Import ListNotations.
Local Open Scope Z_scope.
Ltac Zify.zify_post_hook ::= Z.div_mod_to_equations.

(** ** C35: %z *)
(** Sign, two columns of hours and two of minutes of an offset of [n] minutes, with [delim] between. *)
Definition minutes_text (delim : list Z) (n : Z) : list Z :=
  (if n <? 0 then str "-" else str "+") ++ columns 2 (Z.abs n / 60) ++ delim ++ columns 2 (Z.abs n mod 60).

Section Offset.
Variable rnd : Q -> Q.
Hypothesis N : Nearest rnd.
Local Open Scope Q_scope.

Lemma Qtrunc_comp x y : x == y -> Qtrunc x = Qtrunc y.
Proof.
  intro E. unfold Qtrunc. assert (B : Qleb 0 x = Qleb 0 y).
  { destruct (Qleb 0 x) eqn:A, (Qleb 0 y) eqn:C; try reflexivity; exfalso.
    - apply Qleb_le in A. rewrite E in A. apply Qleb_le in A. congruence.
    - apply Qleb_le in C. rewrite <- E in C. apply Qleb_le in C. congruence. }
  rewrite B. destruct (Qleb 0 y); [apply Qfloor_comp, E|apply Qceiling_comp, E].
Qed.
(** The float g/3600 of an offset of [n] minutes. *)
Lemma hours_near n g : (0 < Z.abs n < 1440)%Z -> g = rnd ((60000000 * n)%Z # 1000000) ->
  (Qltb g 0 = (n <? 0)%Z) /\ Qeqb g 0 = false /\ Qabs (Qabs (fdiv rnd g 3600) - inject_Z (Z.abs n) / 60) <= 1 # 1000000000000.
Proof.
  intros R ->. assert (G : rnd ((60000000 * n)%Z # 1000000) == inject_Z (60 * n)).
  { rewrite (near_proper rnd N _ (inject_Z (60 * n))) by (unfold Qeq, inject_Z; cbn [Qnum Qden]; lia). apply (near_int rnd N). lia. }
  assert (NZ : ~ inject_Z (60 * n) == 0) by (change 0 with (inject_Z 0); rewrite inject_Z_injective; lia).
  split; [|split].
  - destruct (Qltb _ 0) eqn:A; symmetry.
    + apply Qltb_lt in A. rewrite G in A. change 0 with (inject_Z 0) in A. rewrite <- Zlt_Qlt in A. lia.
    + destruct (Z.ltb_spec n 0) as [L|L]; [|reflexivity]. exfalso. assert (B : rnd ((60000000 * n)%Z # 1000000) < 0) by (rewrite G; change 0 with (inject_Z 0); rewrite <- Zlt_Qlt; lia). apply Qltb_lt in B. congruence.
  - destruct (Qeqb _ 0) eqn:A; [|reflexivity]. exfalso. apply Qeqb_eq in A. rewrite G in A. exact (NZ A).
  - unfold fdiv. rewrite (near_proper rnd N _ (inject_Z n / 60)) by (rewrite G, inject_Z_mult; change (inject_Z 60) with 60; field).
    set (x := inject_Z n / 60). assert (XA : Qabs x == inject_Z (Z.abs n) / 60).
    { unfold x, Qdiv. rewrite Qabs_Qmult. assert (AZ : Qabs (inject_Z n) == inject_Z (Z.abs n)) by reflexivity. rewrite AZ. reflexivity. }
    assert (XR : Qabs x <= 24). { rewrite XA. apply Qle_shift_div_r; [reflexivity|]. change (24 * 60) with (inject_Z 1440). rewrite <- Zle_Qle. lia. }
    pose proof (near_k rnd N 5 x (1 # 1000000000000) ltac:(change (2 ^ 5) with 32; lra) ltac:(discriminate)) as B. rewrite <- XA.
    apply Qle_trans with (Qabs (rnd x - x)); [|apply Qabs_le_iff; lra]. apply Qabs_le_iff. pose proof (Qabs_triangle_reverse (rnd x) x). pose proof (Qabs_triangle_reverse x (rnd x)).
    assert (SY : Qabs (x - rnd x) == Qabs (rnd x - x)) by (rewrite Qabs_Qminus; reflexivity). split; lra.
Qed.
Lemma hundred h k q : (0 <= k < 24)%Z -> (0 <= q < 60)%Z -> Qabs (h - inject_Z (60 * k + q) / 60) <= 1 # 1000000000000 -> (0 < q)%Z ->
  Qtrunc h = k /\ Qabs (fmul rnd (fsub rnd h (inject_Z k)) 100 - inject_Z q * (5 # 3)) <= 1 # 1000000.
Proof.
  intros K Q0 H QP. apply Qabs_le_iff in H.
  assert (KQ : 0 <= inject_Z k <= 23) by (change 0 with (inject_Z 0); change 23 with (inject_Z 23); rewrite <- !Zle_Qle; lia).
  assert (QQ : 1 <= inject_Z q <= 59) by (change 1 with (inject_Z 1); change 59 with (inject_Z 59); rewrite <- !Zle_Qle; lia).
  assert (E : inject_Z (60 * k + q) / 60 == inject_Z k + inject_Z q * (1 # 60)) by (rewrite inject_Z_plus, inject_Z_mult; change (inject_Z 60) with 60; field). rewrite E in H.
  split.
  - rewrite Qtrunc_nonneg by lra. apply Qfloor_spec; [lra|]. rewrite inject_Z_plus. change (inject_Z 1) with 1. lra.
  - unfold fmul, fsub. pose proof (near_k rnd N 1 (h - inject_Z k) (1 # 1000000000000) ltac:(apply Qabs_le_iff; change (2 ^ 1) with 2; split; lra) ltac:(discriminate)) as A.
    set (f := rnd (h - inject_Z k)) in *.
    pose proof (near_k rnd N 7 (f * 100) (1 # 1000000000) ltac:(apply Qabs_le_iff; change (2 ^ 7) with 128; split; lra) ltac:(discriminate)) as B. apply Qabs_le_iff. split; lra.
Qed.
(** Whole hours. *)
Lemma whole_hours h k : (0 <= k < 24)%Z -> h == inject_Z k -> Qtrunc h = k /\ fmul rnd (fsub rnd h (inject_Z k)) 100 == 0.
Proof.
  intros K H. split; [rewrite (Qtrunc_comp _ _ H), Qtrunc_nonneg by (change 0 with (inject_Z 0); rewrite <- Zle_Qle; lia); apply Qfloor_Z|].
  assert (Z0 : rnd 0 == 0) by (change 0 with (inject_Z 0); apply (near_int rnd N); lia).
  unfold fmul, fsub. rewrite (near_proper rnd N _ 0); [exact Z0|]. rewrite (near_proper rnd N (h - inject_Z k) 0) by (rewrite H; ring). rewrite Z0. ring.
Qed.
End Offset.

Lemma z_directive rnd m lo a zi y mo d md : Nearest rnd -> evening rnd m -> naw_ruz_order rnd m -> printable rnd m a zi y mo d -> md = 0 \/ md = 58 ->
  exists s, (st_gmtoff s = match offset (dt_tz a) with Some o => if o =? 0 then None else Some (rnd (o # 1000000)) | None => None end) /\
    dt_strftime rnd m lo a zi (if md =? 0 then str "%z" else str "%:z") = Ok (f_z rnd s md).
Proof.
  intros N E O P MD. destruct (printable_struct rnd m a zi y mo d N E O P) as (s & w & _ & W & WR & GY & MO & MDD & HH & MI & SS & WD & YD & ZN & GO & KV & X).
  exists s. split; [exact GO|]. destruct MD as [-> | ->]; cbn [Z.eqb].
  - etransitivity; [apply (one_directive rnd m lo a zi s X 122); [discriminate|apply in_mem; reflexivity]|]. reflexivity.
  - etransitivity; [apply (mod_directive rnd m lo a zi s X 122 58); try reflexivity; discriminate|]. reflexivity.
Qed.

(** C35: for an offset of whole hours other than zero, %z and %:z print sign, hours and 00. *)
Theorem C35_whole_hours : forall rnd m lo a zi y mo d k, Nearest rnd -> evening rnd m -> naw_ruz_order rnd m -> printable rnd m a zi y mo d ->
  offset (dt_tz a) = Some (3600000000 * k) -> k <> 0 ->
  dt_strftime rnd m lo a zi (str "%z") = Ok (minutes_text [] (60 * k)) /\ dt_strftime rnd m lo a zi (str "%:z") = Ok (minutes_text (str ":") (60 * k)).
Proof.
  intros rnd m lo a zi y mo d k N E O P OF NZ. assert (KR : Z.abs k < 24). { destruct P as (_ & (_ & _ & G) & _). specialize (G _ OF). lia. }
  assert (X : forall s md, st_gmtoff s = (match offset (dt_tz a) with Some o => if o =? 0 then None else Some (rnd (o # 1000000)) | None => None end) -> f_z rnd s md = minutes_text (if md =? 58 then [58] else []) (60 * k)).
  { intros s md GO. rewrite OF in GO. replace (3600000000 * k =? 0) with false in GO by lia. unfold f_z. rewrite GO.
    assert (G : (rnd (3600000000 * k # 1000000) == inject_Z (3600 * k))%Q).
    { rewrite (near_proper rnd N _ (inject_Z (3600 * k))) by (unfold Qeq, inject_Z; cbn [Qnum Qden]; lia). apply (near_int rnd N). lia. }
    destruct (hours_near rnd N (60 * k) (rnd (3600000000 * k # 1000000)) ltac:(lia) ltac:(replace (60000000 * (60 * k)) with (3600000000 * k) by lia; reflexivity)) as (SG & NQ & _).
    rewrite NQ, SG. set (g := rnd (3600000000 * k # 1000000)) in *.
    assert (H : (Qabs (fdiv rnd g 3600) == inject_Z (Z.abs k))%Q).
    { unfold fdiv. rewrite (near_proper rnd N _ (inject_Z k)) by (rewrite G, inject_Z_mult; change (inject_Z 3600) with 3600%Q; field).
      rewrite (near_int rnd N) by lia. reflexivity. }
    destruct (whole_hours rnd N _ (Z.abs k) ltac:(lia) H) as (H1 & H2). cbv zeta. rewrite H1.
    assert (MM : Qfloor (fmul rnd (fsub rnd (Qabs (fdiv rnd g 3600)) (inject_Z (Z.abs k))) 100) = 0) by (rewrite (Qfloor_comp _ _ H2); reflexivity). rewrite MM.
    set (m0 := fmul rnd (fsub rnd (Qabs (fdiv rnd g 3600)) (inject_Z (Z.abs k))) 100) in *.
    assert (Z0 : (rnd 0 == 0)%Q) by (change 0%Q with (inject_Z 0); apply (near_int rnd N); lia).
    assert (S0 : (fsub rnd m0 (inject_Z 0) == 0)%Q) by (unfold fsub; rewrite (near_proper rnd N _ 0%Q); [exact Z0|rewrite H2; reflexivity]).
    assert (S1 : (fmul rnd (fsub rnd m0 (inject_Z 0)) 100 == 0)%Q) by (unfold fmul; rewrite (near_proper rnd N _ 0%Q); [exact Z0|rewrite S0; reflexivity]).
    assert (S2 : Qtrunc (fmul rnd (fsub rnd m0 (inject_Z 0)) 100) = 0) by (rewrite (Qtrunc_comp _ _ S1); reflexivity). rewrite S2.
    assert (S3 : (fmul rnd (fsub rnd (fmul rnd (fsub rnd m0 (inject_Z 0)) 100) (inject_Z 0)) 1000000 == 0)%Q).
    { unfold fmul at 1. rewrite (near_proper rnd N _ 0%Q); [exact Z0|]. unfold fsub at 1. rewrite (near_proper rnd N (fmul rnd (fsub rnd m0 (inject_Z 0)) 100 - inject_Z 0) 0%Q) by (rewrite S1; reflexivity). rewrite Z0. reflexivity. }
    rewrite (Qtrunc_comp _ _ S3). change (Qtrunc 0) with 0. change (0 <? 0) with false. cbv iota.
    unfold minutes_text. rewrite !two by lia. replace (Z.abs (60 * k) / 60) with (Z.abs k) by lia. replace (Z.abs (60 * k) mod 60) with 0 by lia.
    change (str "-") with [45]. change (str "+") with [43]. rewrite app_nil_r. destruct (60 * k <? 0), (md =? 58); reflexivity. }
  destruct (z_directive rnd m lo a zi y mo d 0 N E O P ltac:(tauto)) as (s & GO & R). destruct (z_directive rnd m lo a zi y mo d 58 N E O P ltac:(tauto)) as (s' & GO' & R').
  cbn [Z.eqb] in R, R'. rewrite R, R', (X s 0 GO), (X s' 58 GO'). split; reflexivity.
Qed.
Print Assumptions C35_whole_hours.
(** A naive datetime prints nothing. *)
Theorem C35_naive : forall rnd m lo a zi y mo d, Nearest rnd -> evening rnd m -> naw_ruz_order rnd m -> printable rnd m a zi y mo d ->
  offset (dt_tz a) = None -> dt_strftime rnd m lo a zi (str "%z") = Ok [] /\ dt_strftime rnd m lo a zi (str "%:z") = Ok [].
Proof.
  intros rnd m lo a zi y mo d N E O P OF.
  destruct (z_directive rnd m lo a zi y mo d 0 N E O P ltac:(tauto)) as (s & GO & R). destruct (z_directive rnd m lo a zi y mo d 58 N E O P ltac:(tauto)) as (s' & GO' & R').
  rewrite OF in GO, GO'. cbn [Z.eqb] in R, R'. rewrite R, R'. unfold f_z. rewrite GO, GO'. split; reflexivity.
Qed.
Print Assumptions C35_naive.
(** Refuted: an aware datetime at offset zero prints nothing, where +0000 is documented. *)
Theorem C35_zero_refuted : forall rnd m lo a zi y mo d, Nearest rnd -> evening rnd m -> naw_ruz_order rnd m -> printable rnd m a zi y mo d ->
  offset (dt_tz a) = Some 0 -> dt_strftime rnd m lo a zi (str "%z") = Ok [] /\ dt_strftime rnd m lo a zi (str "%:z") = Ok [].
Proof.
  intros rnd m lo a zi y mo d N E O P OF.
  destruct (z_directive rnd m lo a zi y mo d 0 N E O P ltac:(tauto)) as (s & GO & R). destruct (z_directive rnd m lo a zi y mo d 58 N E O P ltac:(tauto)) as (s' & GO' & R').
  rewrite OF in GO, GO'. cbn [Z.eqb] in R, R'. rewrite R, R'. unfold f_z. rewrite GO, GO'. split; reflexivity.
Qed.
Print Assumptions C35_zero_refuted.

(** Refuted for every offset of whole minutes that is not a whole number of hours: the text is never the sign, hours and
    minutes of the offset. *)
Theorem C35_minutes_refuted : forall rnd m lo a zi y mo d n, Nearest rnd -> evening rnd m -> naw_ruz_order rnd m -> printable rnd m a zi y mo d ->
  offset (dt_tz a) = Some (60000000 * n) -> n mod 60 <> 0 ->
  exists t t', dt_strftime rnd m lo a zi (str "%z") = Ok t /\ dt_strftime rnd m lo a zi (str "%:z") = Ok t' /\ t <> minutes_text [] n /\ t' <> minutes_text (str ":") n.
Proof.
  intros rnd m lo a zi y mo d n N E O P OF NZ. assert (KR : Z.abs n < 1440). { destruct P as (_ & (_ & _ & G) & _). specialize (G _ OF). lia. }
  assert (X : forall s md, st_gmtoff s = (match offset (dt_tz a) with Some o => if o =? 0 then None else Some (rnd (o # 1000000)) | None => None end) -> f_z rnd s md <> minutes_text (if md =? 58 then [58] else []) n).
  { intros s md GO. rewrite OF in GO. replace (60000000 * n =? 0) with false in GO by lia. unfold f_z. rewrite GO.
    destruct (hours_near rnd N n (rnd (60000000 * n # 1000000)) ltac:(lia) eq_refl) as (SG & NQ & H). rewrite NQ, SG. set (g := rnd (60000000 * n # 1000000)) in *.
    set (h := Qabs (fdiv rnd g 3600)) in *. set (k := Z.abs n / 60). set (q := Z.abs n mod 60).
    assert (KQ : Z.abs n = 60 * k + q) by (unfold k, q; lia). rewrite KQ in H. assert (QR : 0 < q < 60) by (unfold q; lia). assert (KK : 0 <= k < 24) by (unfold k; lia).
    destruct (hundred rnd N h k q KK ltac:(lia) H ltac:(lia)) as (T & M). cbv zeta. rewrite T. set (m0 := fmul rnd (fsub rnd h (inject_Z k)) 100) in *. apply Qabs_le_iff in M.
    assert (QQ : (1 <= inject_Z q <= 59)%Q) by (change 1%Q with (inject_Z 1); change 59%Q with (inject_Z 59); rewrite <- !Zle_Qle; lia).
    assert (M0 : (0 <= m0)%Q /\ (m0 < 99)%Q) by (split; lra).
    assert (MB : 0 <= Qfloor m0 <= 98).
    { split; [change 0 with (Qfloor 0); apply Qfloor_resp_le, M0|]. pose proof (Qfloor_le m0) as FL. assert (B : (inject_Z (Qfloor m0) < inject_Z 99)%Q) by (change (inject_Z 99) with 99%Q; lra). rewrite <- Zlt_Qlt in B. lia. }
    intro EQ. unfold minutes_text in EQ. fold k q in EQ. change (str "-") with [45] in EQ. change (str "+") with [43] in EQ. rewrite !two in EQ by lia.
    apply app_inv_head in EQ. apply app_inv_head in EQ. apply app_inv_head in EQ.
    rewrite <- (app_nil_r (columns 2 q)) in EQ. apply app_inj_len in EQ; [|rewrite !columns_len; reflexivity]. destruct EQ as (C & R).
    apply columns_inj in C; [|change (10 ^ Z.of_nat 2) with 100; lia..].
    destruct (Z.eq_dec q 1) as [Q1|Q1].
    - rewrite C, Q1 in R. rewrite Q1 in M. change (inject_Z 1) with 1%Q in *. 
      assert (SF : (66 <= fmul rnd (fsub rnd m0 1) 100 <= 67)%Q).
      { unfold fmul, fsub. pose proof (near_k rnd N 1 (m0 - 1)%Q (1 # 1000000000)%Q ltac:(apply Qabs_le_iff; change (2 ^ 1)%Q with 2%Q; split; lra) ltac:(discriminate)) as A.
        set (f := rnd (m0 - 1)%Q) in *. pose proof (near_k rnd N 7 (f * 100)%Q (1 # 1000000000)%Q ltac:(apply Qabs_le_iff; change (2 ^ 7)%Q with 128%Q; split; lra) ltac:(discriminate)) as B. lra. }
      assert (SS : 0 < Qtrunc (fmul rnd (fsub rnd m0 1) 100)).
      { rewrite Qtrunc_nonneg by lra. assert (B : (inject_Z 66 <= fmul rnd (fsub rnd m0 1) 100)%Q) by (change (inject_Z 66) with 66%Q; lra). apply Qfloor_resp_le in B. rewrite Qfloor_Z in B. lia. }
      replace (0 <? Qtrunc (fmul rnd (fsub rnd m0 1) 100)) with true in R by lia.
      apply app_eq_nil in R as (R & _). apply app_eq_nil in R as (_ & R). apply (f_equal (@List.length Z)) in R.
      set (ss := Qtrunc (fmul rnd (fsub rnd m0 1) 100)) in *. clearbody ss. unfold fmt0 in R. destruct (Z.ltb_spec ss 0) as [SN|SN]; [lia|]. unfold pad in R. rewrite app_length, repeat_length in R. cbn [List.length] in R. lia.
    - assert (B : (inject_Z (q + 1) <= m0)%Q). { rewrite inject_Z_plus. change (inject_Z 1) with 1%Q. assert (Q2 : (2 <= inject_Z q)%Q) by (change 2%Q with (inject_Z 2); rewrite <- Zle_Qle; lia). lra. }
      apply Qfloor_resp_le in B. rewrite Qfloor_Z in B. lia. }
  destruct (z_directive rnd m lo a zi y mo d 0 N E O P ltac:(tauto)) as (s & GO & R). destruct (z_directive rnd m lo a zi y mo d 58 N E O P ltac:(tauto)) as (s' & GO' & R').
  cbn [Z.eqb] in R, R'. exists (f_z rnd s 0), (f_z rnd s' 58). split; [exact R|]. split; [exact R'|]. split; [exact (X s 0 GO)|exact (X s' 58 GO')].
Qed.
Print Assumptions C35_minutes_refuted.

(** %Z prints the name the zone gives, or nothing. *)
Theorem C35_zone_name : forall rnd m lo a zi y mo d, Nearest rnd -> evening rnd m -> naw_ruz_order rnd m -> printable rnd m a zi y mo d ->
  dt_strftime rnd m lo a zi (str "%Z") = Ok (match zi with Some z => match zi_name z with Some n => n | None => [] end | None => [] end).
Proof.
  intros rnd m lo a zi y mo d N E O P. destruct (printable_struct rnd m a zi y mo d N E O P) as (s & w & _ & W & WR & GY & MO & MDD & HH & MI & SS & WD & YD & ZN & GO & KV & X).
  etransitivity; [apply (one_directive rnd m lo a zi s X 90); [discriminate|apply in_mem; reflexivity]|].
  change (directive rnd m lo s 90 0) with (@Ok text (f_Z s)). unfold f_Z. rewrite ZN. destruct zi as [z|]; [destruct (zi_name z)|]; reflexivity.
Qed.
Print Assumptions C35_zone_name.

(** ** C62: the 12-hour clock *)
(** If %p is printed at all, it is one of the two texts of the locale, and %I prints the hour less twelve exactly when %p
    prints the second of them; %r joins both. *)
Theorem C62_clock12 : forall rnd m lo a zi y mo d p, Nearest rnd -> evening rnd m -> naw_ruz_order rnd m -> printable rnd m a zi y mo d ->
  dt_strftime rnd m lo a zi (str "%p") = Ok p ->
  exists (pm : bool) t, p = (if pm then lo_pm lo else lo_am lo) /\ dt_strftime rnd m lo a zi (str "%I") = Ok t /\
    (pm = false -> t = columns 2 (dt_h a)) /\ (pm = true -> 12 <= dt_h a -> t = columns 2 (dt_h a - 12)) /\
    dt_strftime rnd m lo a zi (str "%r") = Ok (t ++ str ":" ++ columns 2 (dt_mi a) ++ str ":" ++ columns 2 (dt_s a) ++ str " " ++ p).
Proof.
  intros rnd m lo a zi y mo d p N E O P R. destruct (printable_struct rnd m a zi y mo d N E O P) as (s & w & _ & W & WR & GY & MO & MDD & HH & MI & SS & WD & YD & ZN & GO & KV & X).
  pose proof (one_directive rnd m lo a zi s X 112 ltac:(discriminate) ltac:(apply in_mem; reflexivity)) as Rp.
  change (dt_strftime rnd m lo a zi (str "%p") = f_p rnd m lo s) in Rp. rewrite Rp in R. unfold f_p in R. destruct (after_noon rnd m s) as [pm|] eqn:A; cbn [bind] in R; [|discriminate].
  destruct P as (_ & (C & _) & _). unfold valid_clock in C. assert (PE : p = if pm then lo_pm lo else lo_am lo) by congruence.
  exists pm, (fmt0 2 (if pm then st_hour s - 12 else st_hour s)). split; [exact PE|].
  assert (FI : f_I rnd m s false 0 = Ok (fmt0 2 (if pm then st_hour s - 12 else st_hour s))) by (unfold f_I; rewrite A; reflexivity).
  split; [etransitivity; [apply (one_directive rnd m lo a zi s X 73); [discriminate|apply in_mem; reflexivity]|]; exact FI|].
  rewrite HH. split; [intros ->; apply two; lia|]. split; [intros -> H12; apply two; lia|].
  etransitivity; [apply (one_directive rnd m lo a zi s X 114); [discriminate|apply in_mem; reflexivity]|].
  change (directive rnd m lo s 114 0) with (f_r rnd m lo s false). unfold f_r. rewrite FI. cbn [bind]. unfold f_p. rewrite A. cbn [bind]. rewrite HH, MI, SS, PE, !(two (dt_mi a)), !(two (dt_s a)) by lia. reflexivity.
Qed.
Print Assumptions C62_clock12.
(** Refuted: a %I in 01..12.  At hour 0, before midday, it is 00; at hour 12, from midday on, it is 00; and from midday on
    before hour 12 it is a negative number. *)
Theorem C62_hour_refuted : forall rnd m lo a zi y mo d, Nearest rnd -> evening rnd m -> naw_ruz_order rnd m -> printable rnd m a zi y mo d -> lo_am lo <> lo_pm lo ->
  (dt_h a = 0 -> dt_strftime rnd m lo a zi (str "%p") = Ok (lo_am lo) -> dt_strftime rnd m lo a zi (str "%I") = Ok (str "00")) /\
  (dt_h a = 12 -> dt_strftime rnd m lo a zi (str "%p") = Ok (lo_pm lo) -> dt_strftime rnd m lo a zi (str "%I") = Ok (str "00")) /\
  (dt_h a < 12 -> dt_strftime rnd m lo a zi (str "%p") = Ok (lo_pm lo) -> dt_strftime rnd m lo a zi (str "%I") = Ok (str "-" ++ short_decimal (12 - dt_h a))).
Proof.
  intros rnd m lo a zi y mo d N E O P AP. pose proof P as (_ & (C & _) & _). unfold valid_clock in C.
  assert (M : dt_h a < 12 -> dt_strftime rnd m lo a zi (str "%p") = Ok (lo_pm lo) -> dt_strftime rnd m lo a zi (str "%I") = Ok (str "-" ++ short_decimal (12 - dt_h a))).
  { intros H R. destruct (printable_struct rnd m a zi y mo d N E O P) as (s & w & _ & W & WR & GY & MO & MDD & HH & MI & SS & WD & YD & ZN & GO & KV & X).
    pose proof (one_directive rnd m lo a zi s X 112 ltac:(discriminate) ltac:(apply in_mem; reflexivity)) as Rp.
    change (dt_strftime rnd m lo a zi (str "%p") = f_p rnd m lo s) in Rp. rewrite Rp in R. unfold f_p in R. destruct (after_noon rnd m s) as [pm|] eqn:A; cbn [bind] in R; [|discriminate].
    destruct pm; [|congruence].
    etransitivity; [apply (one_directive rnd m lo a zi s X 73); [discriminate|apply in_mem; reflexivity]|].
    change (directive rnd m lo s 73 0) with (f_I rnd m s false 0). unfold f_I. rewrite A. cbn [bind andb]. rewrite HH. f_equal.
    pose (T := fun h => if list_eq_dec Z.eq_dec (fmt0 2 (h - 12)) (str "-" ++ short_decimal (12 - h)) then true else false).
    assert (B : T (dt_h a) = true) by (apply (zforall T 0 12); [vm_compute; reflexivity|lia]). unfold T in B. destruct (list_eq_dec _ _ _); [assumption|discriminate]. }
  split; [|split; [|exact M]].
  - intros H R. destruct (C62_clock12 rnd m lo a zi y mo d _ N E O P R) as (pm & t & PE & TI & F & _). destruct pm; [congruence|]. rewrite TI, (F eq_refl), H. reflexivity.
  - intros H R. destruct (C62_clock12 rnd m lo a zi y mo d _ N E O P R) as (pm & t & PE & TI & _ & T & _). destruct pm; [|congruence]. rewrite TI, (T eq_refl), H by lia. reflexivity.
Qed.
Print Assumptions C62_hour_refuted.

(** ** C63: names *)
Lemma name_day l w : List.length l = 7%nat -> 0 <= w <= 6 -> exists t, name_of IndexError l w = Ok t /\ nth_error l (Z.to_nat w) = Some t.
Proof.
  intros L W. unfold name_of. replace (w <? 0) with false by lia. destruct (nth_error l (Z.to_nat w)) as [t|] eqn:Q; [exists t; split; reflexivity|].
  apply nth_error_None in Q. lia.
Qed.
Lemma name_month l w : List.length l = 20%nat -> 0 <= w <= 19 -> exists t, name_of KeyError l w = Ok t /\ nth_error l (Z.to_nat w) = Some t.
Proof.
  intros L W. unfold name_of. replace (w <? 0) with false by lia. destruct (nth_error l (Z.to_nat w)) as [t|] eqn:Q; [exists t; split; reflexivity|].
  apply nth_error_None in Q. lia.
Qed.
Fixpoint distinct (l : list text) : bool :=
  match l with [] => true | x :: r => forallb (fun y => if list_eq_dec Z.eq_dec x y then false else true) r && distinct r end.
Lemma distinct_nodup l : distinct l = true -> NoDup l.
Proof.
  induction l as [|x r IH]; intro H; [constructor|]. cbn [distinct] in H. apply andb_true_iff in H as [A B]. constructor; [|apply IH, B].
  intro I. rewrite forallb_forall in A. specialize (A x I). destruct (list_eq_dec Z.eq_dec x x); [discriminate|congruence].
Qed.
Lemma nth_same l i j (t : text) : NoDup l -> 0 <= i -> 0 <= j -> nth_error l (Z.to_nat i) = Some t -> nth_error l (Z.to_nat j) = Some t -> i = j.
Proof.
  intros ND I J A B. apply Z2Nat.inj; [exact I|exact J|]. eapply (proj1 (NoDup_nth_error l) ND); [apply nth_error_Some; congruence|congruence].
Qed.
(** Full and abbreviated weekday names, and full month names, are always printed and tell their values apart, across
    datetimes, forms and locales. *)
Theorem C63_names : forall rnd m lo lo' a a' zi zi' y mo d y' mo' d', Nearest rnd -> evening rnd m -> naw_ruz_order rnd m -> printable rnd m a zi y mo d -> printable rnd m a' zi' y' mo' d' ->
  exists tA ta tB tA' ta' tB',
    dt_strftime rnd m lo a zi (str "%A") = Ok tA /\ dt_strftime rnd m lo' a' zi' (str "%A") = Ok tA' /\ (tA = tA' <-> weekday rnd m (dt_d a) = weekday rnd m (dt_d a')) /\
    dt_strftime rnd m lo a zi (str "%a") = Ok ta /\ dt_strftime rnd m lo' a' zi' (str "%a") = Ok ta' /\ (ta = ta' <-> weekday rnd m (dt_d a) = weekday rnd m (dt_d a')) /\
    dt_strftime rnd m lo a zi (str "%B") = Ok tB /\ dt_strftime rnd m lo' a' zi' (str "%B") = Ok tB' /\ (tB = tB' <-> mo = mo').
Proof.
  intros rnd m lo lo' a a' zi zi' y mo d y' mo' d' N E O P P'.
  assert (G : forall lo a zi y mo d, printable rnd m a zi y mo d -> exists w tA ta tB, weekday rnd m (dt_d a) = Ok w /\ 0 <= w <= 6 /\ 0 <= mo <= 19 /\
     dt_strftime rnd m lo a zi (str "%A") = Ok tA /\ nth_error DAYNAMES (Z.to_nat w) = Some tA /\
     dt_strftime rnd m lo a zi (str "%a") = Ok ta /\ nth_error DAYNAMES_ABV (Z.to_nat w) = Some ta /\
     dt_strftime rnd m lo a zi (str "%B") = Ok tB /\ nth_error MONTHNAMES (Z.to_nat mo) = Some tB).
  { clear - N E O. intros lo a zi y mo d P. destruct (printable_struct rnd m a zi y mo d N E O P) as (s & w & _ & W & WR & GY & MO & MDD & HH & MI & SS & WD & YD & ZN & GO & KV & X).
    destruct P as (S & _). destruct (sup_ok rnd m (dt_d a) y mo d N E S) as (D & K & Y). pose proof K as (KY & KM & KD).
    destruct (name_day DAYNAMES w eq_refl WR) as (tA & A1 & A2). destruct (name_day DAYNAMES_ABV w eq_refl WR) as (ta & B1 & B2). destruct (name_month MONTHNAMES mo eq_refl KM) as (tB & C1 & C2).
    exists w, tA, ta, tB. split; [exact W|]. split; [exact WR|]. split; [exact KM|].
    split; [etransitivity; [apply (one_directive rnd m lo a zi s X 65); [discriminate|apply in_mem; reflexivity]|]; change (directive rnd m lo s 65 0) with (f_A s); unfold f_A; rewrite WD; exact A1|]. split; [exact A2|].
    split; [etransitivity; [apply (one_directive rnd m lo a zi s X 97); [discriminate|apply in_mem; reflexivity]|]; change (directive rnd m lo s 97 0) with (f_a s); unfold f_a; rewrite WD; exact B1|]. split; [exact B2|].
    split; [etransitivity; [apply (one_directive rnd m lo a zi s X 66); [discriminate|apply in_mem; reflexivity]|]; change (directive rnd m lo s 66 0) with (f_B s); unfold f_B; rewrite MO; exact C1|]. exact C2. }
  destruct (G lo a zi y mo d P) as (w & tA & ta & tB & W & WR & KM & A1 & A2 & B1 & B2 & C1 & C2). destruct (G lo' a' zi' y' mo' d' P') as (w' & tA' & ta' & tB' & W' & WR' & KM' & A1' & A2' & B1' & B2' & C1' & C2').
  exists tA, ta, tB, tA', ta', tB'. rewrite W, W'.
  assert (DN : NoDup DAYNAMES) by (apply distinct_nodup; reflexivity). assert (DA : NoDup DAYNAMES_ABV) by (apply distinct_nodup; reflexivity). assert (MN : NoDup MONTHNAMES) by (apply distinct_nodup; reflexivity).
  split; [exact A1|]. split; [exact A1'|]. split; [split; [intros ->; f_equal; apply (nth_same DAYNAMES w w' tA'); [exact DN|lia|lia|exact A2|exact A2']|intro Q; assert (w = w') by congruence; congruence]|].
  split; [exact B1|]. split; [exact B1'|]. split; [split; [intros ->; f_equal; apply (nth_same DAYNAMES_ABV w w' ta'); [exact DA|lia|lia|exact B2|exact B2']|intro Q; assert (w = w') by congruence; congruence]|].
  split; [exact C1|]. split; [exact C1'|]. split; [intros ->; apply (nth_same MONTHNAMES mo mo' tB'); [exact MN|lia|lia|exact C2|exact C2']|intro Q; congruence].
Qed.
Print Assumptions C63_names.
(** Abbreviated month names: refuted, for months 11 and 15 and no others. *)
Theorem C63_month_abbreviation_refuted : forall rnd m lo lo' a a' zi zi' y mo d y' mo' d', Nearest rnd -> evening rnd m -> naw_ruz_order rnd m -> printable rnd m a zi y mo d -> printable rnd m a' zi' y' mo' d' ->
  exists t t', dt_strftime rnd m lo a zi (str "%b") = Ok t /\ dt_strftime rnd m lo' a' zi' (str "%b") = Ok t' /\ (t = t' <-> mo = mo' \/ (mo = 11 /\ mo' = 15) \/ (mo = 15 /\ mo' = 11)).
Proof.
  intros rnd m lo lo' a a' zi zi' y mo d y' mo' d' N E O P P'.
  assert (G : forall lo a zi y mo d, printable rnd m a zi y mo d -> 0 <= mo <= 19 /\ dt_strftime rnd m lo a zi (str "%b") = name_of KeyError MONTHNAMES_ABV mo).
  { clear - N E O. intros lo a zi y mo d P. destruct (printable_struct rnd m a zi y mo d N E O P) as (s & w & _ & W & WR & GY & MO & MDD & HH & MI & SS & WD & YD & ZN & GO & KV & X).
    destruct P as (S & _). destruct (sup_ok rnd m (dt_d a) y mo d N E S) as (D & K & Y). pose proof K as (KY & KM & KD). split; [exact KM|].
    etransitivity; [apply (one_directive rnd m lo a zi s X 98); [discriminate|apply in_mem; reflexivity]|]; change (directive rnd m lo s 98 0) with (f_b s); unfold f_b; rewrite MO; reflexivity. }
  destruct (G lo a zi y mo d P) as (KM & R). destruct (G lo' a' zi' y' mo' d' P') as (KM' & R'). rewrite R, R'.
  destruct (name_month MONTHNAMES_ABV mo eq_refl KM) as (t & T & _). destruct (name_month MONTHNAMES_ABV mo' eq_refl KM') as (t' & T' & _). exists t, t'. split; [exact T|]. split; [exact T'|].
  pose (F := fun x => forallb (fun z => Bool.eqb (match name_of KeyError MONTHNAMES_ABV x, name_of KeyError MONTHNAMES_ABV z with Ok p, Ok q => if list_eq_dec Z.eq_dec p q then true else false | _, _ => false end)
     ((x =? z) || ((x =? 11) && (z =? 15)) || ((x =? 15) && (z =? 11)))) (zlist 0 20)).
  assert (B : F mo = true) by (apply (zforall F 0 20); [vm_compute; reflexivity|lia]). unfold F in B.
  assert (B' := zforall _ 0 20 B mo' ltac:(lia)). cbv beta in B'. rewrite T, T' in B'. apply Bool.eqb_prop in B'. destruct (list_eq_dec Z.eq_dec t t') as [Q|Q]; split; intro HH; try exact Q; try lia; try congruence.
Qed.
Print Assumptions C63_month_abbreviation_refuted.

(** ** C64: ctime *)
Definition day_padded (d : Z) : list Z := if d <? 10 then str " " ++ columns 1 d else columns 2 d.
Lemma day_pad d : 1 <= d <= 19 -> repeat 32 (2 - List.length (dec d)) ++ dec d = day_padded d.
Proof.
  intro H. pose (P := fun d => if list_eq_dec Z.eq_dec (repeat 32 (2 - List.length (dec d)) ++ dec d) (day_padded d) then true else false).
  assert (A : P d = true) by (apply (zforall P 1 19); [vm_compute; reflexivity|lia]). unfold P in A. destruct (list_eq_dec _ _ _); [assumption|discriminate].
Qed.
Lemma ctime_year y : -9999 <= y <= 9999 -> fmt0 (if -1 <? y then 4 else 5) y = signed_year y.
Proof.
  intro H. unfold signed_year. destruct (Z.ltb_spec (-1) y), (Z.ltb_spec y 0); try lia.
  - rewrite fmt0_columns by (try lia; change (10 ^ Z.of_nat 4) with 10000; lia). reflexivity.
  - pose proof (year_minus y H) as M. unfold signed_year, minus in M. destruct (Z.ltb_spec y 0); [|lia]. rewrite <- M. replace (Z.abs y) with (- y) by lia. unfold fmt0.
    destruct (Z.ltb_spec y 0), (Z.ltb_spec (- y) 0); try lia. reflexivity.
Qed.
Lemma check_int_clock4 rnd m y mo d h mi s us : Nearest rnd -> evening rnd m -> okd y mo d -> 0 <= h <= 23 -> 0 <= mi <= 59 -> 0 <= s <= 59 -> 0 <= us <= 999999 ->
  check_short rnd (year_table rnd m) {| s_y := y; s_m := mo; s_d := inject_Z d; s_t := [inject_Z h; inject_Z mi; inject_Z s; inject_Z us] |} = Ok tt.
Proof.
  intros N EV K H MI S U. pose proof (check_int_clock rnd N m EV y mo d h mi s K H MI S) as C. unfold check_short in *. cbn [bd s_y s_m s_d s_t] in *.
  destruct (passert _) as [[]|]; [|discriminate]. cbn [bind] in *. unfold check_mdt in *. cbn [get_hms nth] in *.
  destruct (passert ((0 <=? mo) && _)) as [[]|]; [|discriminate]. cbn [bind] in *.
  destruct (if mo =? 0 then _ else _) as [cyc|]; [|discriminate]. cbn [bind] in *. destruct (passert (Qleb 1 _ && _)) as [[]|]; [|discriminate]. cbn [bind] in *.
  assert (CT : check_time (inject_Z h) (inject_Z mi) (inject_Z s) (inject_Z us) 60 = check_time (inject_Z h) (inject_Z mi) (inject_Z s) 0 60).
  { unfold check_time. change 0%Q with (inject_Z 0). change 1000000%Q with (inject_Z 1000000). rewrite !Qleb_Z, !Qltb_Z. replace ((0 <=? us) && (us <? 1000000)) with true by lia. reflexivity. }
  rewrite CT. exact C.
Qed.
(** The text of ctime: the words strftime prints for %A and %B, the day in two columns padded with a space, the clock and
    the year; for a date the clock is 00:00:00. *)
Theorem C64_ctime : forall rnd m lo a zi y mo d, Nearest rnd -> evening rnd m -> naw_ruz_order rnd m -> printable rnd m a zi y mo d ->
  exists W B, dt_strftime rnd m lo a zi (str "%A") = Ok W /\ dt_strftime rnd m lo a zi (str "%B") = Ok B /\
    date_ctime rnd m (dt_d a) = Ok (W ++ str " " ++ B ++ str " " ++ day_padded d ++ str " 00:00:00 " ++ signed_year y) /\
    dt_ctime rnd m a = Ok (W ++ str " " ++ B ++ str " " ++ day_padded d ++ str " " ++ hms_text (dt_h a) (dt_mi a) (dt_s a) ++ str " " ++ signed_year y).
Proof.
  intros rnd m lo a zi y mo d N E O P. destruct (printable_struct rnd m a zi y mo d N E O P) as (s & w & _ & W & WR & GY & MO & MDD & HH & MI & SS & WD & YD & ZN & GO & KV & X).
  destruct P as (S & (C & _) & _ & F). unfold valid_clock in C. destruct (sup_ok rnd m (dt_d a) y mo d N E S) as (D & K & Y). pose proof K as (KY & KM & KD). pose proof (ok_small y mo d K) as (_ & DS).
  destruct (name_day DAYNAMES w eq_refl WR) as (tA & A1 & A2). destruct (name_month MONTHNAMES mo eq_refl KM) as (tB & C1 & C2).
  exists tA, tB.
  split; [etransitivity; [apply (one_directive rnd m lo a zi s X 65); [discriminate|apply in_mem; reflexivity]|]; change (directive rnd m lo s 65 0) with (f_A s); unfold f_A; rewrite WD; exact A1|].
  split; [etransitivity; [apply (one_directive rnd m lo a zi s X 66); [discriminate|apply in_mem; reflexivity]|]; change (directive rnd m lo s 66 0) with (f_B s); unfold f_B; rewrite MO; exact C1|].
  assert (SF := short_form_ok rnd N m E (dt_d a) y mo d D K).
  assert (DW : day_of_week rnd m y mo d = Ok w). { unfold weekday in W. rewrite SF in W. exact W. }
  assert (G : forall h mi se, 0 <= h <= 24 -> 0 <= mi <= 59 -> 0 <= se <= 60 -> ctime_text rnd m y mo d h mi se = Ok (tA ++ str " " ++ tB ++ str " " ++ day_padded d ++ str " " ++ hms_text h mi se ++ str " " ++ signed_year y)).
  { intros h mi se H1 H2 H3. unfold ctime_text. rewrite DW. cbn [bind]. rewrite A1. cbn [bind]. rewrite C1. cbn [bind]. cbv zeta. rewrite ctime_year, !two by lia. rewrite (app_assoc (repeat 32 _)), day_pad by lia.
    unfold hms_text, hm_text. rewrite <- !app_assoc. reflexivity. }
  split.
  - unfold date_ctime. rewrite SF. cbn [bind]. rewrite G by lia. reflexivity.
  - unfold dt_ctime. destruct (dt_d a) as [y' mo' d'|k v yy mo' d'].
    + destruct D as (-> & -> & ->). rewrite G by lia. reflexivity.
    + destruct D as (V & YY & L & -> & ->). destruct F as [F|[F1 F2]]; [discriminate|]. assert (LY : long_year k v yy = y) by (unfold long_year; lia).
      pose proof (short_of_long rnd N m E false k v yy mo (inject_Z d) [inject_Z (dt_h a); inject_Z (dt_mi a); inject_Z (dt_s a); inject_Z (dt_us a)] V YY) as SL. rewrite LY in SL. cbn [nth] in SL.
      rewrite SL; [|apply check_int_clock4; [exact N|exact E|exact K|lia|lia|lia|lia]|change 24%Q with (inject_Z 24); rewrite <- Zlt_Qlt; lia|change 60%Q with (inject_Z 60); rewrite <- Zlt_Qlt; lia|
        change 60%Q with (inject_Z 60); rewrite <- Zlt_Qlt; lia|rewrite (leap_of_ok rnd N m E) by lia; rewrite <- Zle_Qle; lia].
      cbn [bind s_y s_m s_d s_t LongProofs.clock_of nth]. rewrite !Qfloor_Z. apply G; lia.
Qed.
Print Assumptions C64_ctime.

(** Cases.  The zone of [b] is three and a half hours east; with [sample_sun] the day of [c] is shorter than 24 hours. *)
Definition zone_at (o : Z) : tz := {| tz_id := 1; tz_off := Some o |}.
Definition aware (o : Z) : pdt := {| dt_d := DShort 183 1 1; dt_h := 9; dt_mi := 5; dt_s := 7; dt_us := 42; dt_tz := Some (zone_at o); dt_fold := 0 |}.
Definition zinfo_at (o : Z) : option zinfo := Some {| zi_tz := zone_at o; zi_name := Some (str "ABC"); zi_dst := None |}.
Lemma aware_printable rnd o : Nearest rnd -> Z.abs o < 86400000000 -> printable rnd sample_sun (aware o) (zinfo_at o) 183 1 1.
Proof.
  intros N R. split; [sup|]. split; [|split; [reflexivity|left; reflexivity]]. split; [cbn; unfold valid_clock; lia|]. split; [left; reflexivity|]. intros x OO. cbn in OO. assert (x = o) by congruence. lia.
Qed.
Example C35_case : forall rnd, Nearest rnd ->
  printable rnd sample_sun (aware (-18000000000)) (zinfo_at (-18000000000)) 183 1 1 /\ printable rnd sample_sun (aware 12600000000) (zinfo_at 12600000000) 183 1 1 /\
  12600000000 = 60000000 * 210 /\ 210 mod 60 <> 0 /\ minutes_text (str ":") (-300) = str "-05:00" /\ minutes_text [] 210 = str "+0330".
Proof. intros rnd N. split; [apply aware_printable; [exact N|lia]|]. split; [apply aware_printable; [exact N|lia]|]. split; [reflexivity|]. split; [discriminate|]. split; reflexivity. Qed.
(** What is printed at +03:30 and +01:01. *)
Example C35_minutes_case : dt_strftime b64 sample_sun sample_locale (aware 12600000000) (zinfo_at 12600000000) (str "%z") = Ok (str "+0350") /\
  dt_strftime b64 sample_sun sample_locale (aware 3660000000) (zinfo_at 3660000000) (str "%:z") = Ok (str "+01:01:66.666666").
Proof. split; vm_compute; reflexivity. Qed.
Definition before_noon (h : Z) : pdt := {| dt_d := DShort (-1797) 19 18; dt_h := h; dt_mi := 55; dt_s := 0; dt_us := 42; dt_tz := None; dt_fold := 0 |}.
Example C62_case : forall rnd, Nearest rnd ->
  printable rnd sample_sun (before_noon 11) None (-1797) 19 18 /\ lo_am sample_locale <> lo_pm sample_locale /\
  dt_strftime b64 sample_sun sample_locale (before_noon 11) None (str "%p") = Ok (lo_pm sample_locale) /\
  dt_strftime b64 sample_sun sample_locale (before_noon 11) None (str "%r") = Ok (str "-1:55:00 PM") /\
  dt_strftime b64 sample_sun sample_locale (before_noon 15) None (str "%r") = Ok (str "03:55:00 PM") /\
  dt_strftime b64 sample_sun sample_locale (before_noon 0) None (str "%p") = Ok (lo_am sample_locale).
Proof.
  intros rnd N. split; [split; [sup|split; [split; [cbn; unfold valid_clock; lia|split; [left; reflexivity|intros o OO; discriminate]]|split; [reflexivity|left; reflexivity]]]|].
  split; [discriminate|]. split; [vm_compute; reflexivity|]. split; [vm_compute; reflexivity|]. split; vm_compute; reflexivity.
Qed.
Example C63_case :
  dt_strftime b64 sample_sun sample_locale (before_noon 11) None (str "%A %B") = Ok (u "Kamál 'Alá'") /\
  date_strftime b64 sample_sun sample_locale (DShort 183 11 4) (str "%b") = Ok (str "Mas") /\ date_strftime b64 sample_sun sample_locale (DShort 183 15 4) (str "%b") = Ok (str "Mas").
Proof. split; [vm_compute; reflexivity|]. split; vm_compute; reflexivity. Qed.
Example C64_case : dt_ctime b64 sample_sun (before_noon 11) = Ok (u "Kamál 'Alá' 18 11:55:00 -1797") /\ date_ctime b64 sample_sun (DShort 183 2 4) = Ok (u "Jalál Jalál  4 00:00:00 0183").
Proof. split; vm_compute; reflexivity. Qed.
