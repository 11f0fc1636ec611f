(** PropertiesText4.v -- C60: ISO text of datetimes. *)
From Coq Require Import ZArith QArith Qround Qabs List Bool Lia Lqa String.
From Coq Require Import ZifyBool ZifyNat ZifyN.
From Verif Require Import Base Flt QUtil BaseModel MiscModel BadiModel BaseProofs SunProofs SpecBadi BadiProofs BadiProofs2 BadiProofs3 DecProofs BadiProofs4 LongYear LongProofs BadiProofs5
  ClockProofs3 ClockProofs4 TduModel DateModel SpecDate TduProofs TduProofs2 TduProofs3 DateProofs SampleSun PropertiesBadi PropertiesDate PropertiesDate2
  TimeModel SpecTime TimeProofs PropertiesTime PropertiesDt PropertiesDt2 TextModel SpecText TextProofs TextProofs2 TextProofs3 PropertiesText PropertiesText2 PropertiesText3.
Import ListNotations.
Local Open Scope Z_scope.
Ltac Zify.zify_post_hook ::= Z.div_mod_to_equations.

Lemma rfind_from_shift c s i : rfind_from c s i = option_map (fun k => (i + k)%nat) (rfind_from c s 0).
Proof.
  revert i. induction s as [|x r IH]; intro i; [reflexivity|]. cbn [rfind_from]. rewrite (IH (S i)), (IH 1%nat).
  destruct (rfind_from c r 0); cbn [option_map]; [f_equal; lia|]. destruct (x =? c); cbn [option_map]; [f_equal; lia|reflexivity].
Qed.
Lemma rfind_none c s : count c s = 0%nat -> rfind c s = None.
Proof.
  unfold rfind. induction s as [|x r IH]; [reflexivity|]. unfold count. cbn [filter rfind_from]. destruct (Z.eqb_spec c x) as [->|]; [discriminate|]. intro C.
  rewrite rfind_from_shift, (IH C). cbn [option_map]. destruct (Z.eqb_spec x c); [congruence|reflexivity].
Qed.
Lemma rfind_last c a b : count c b = 0%nat -> rfind c (a ++ c :: b) = Some (List.length a).
Proof.
  intro B. unfold rfind. induction a as [|x r IH]; cbn [app rfind_from List.length].
  - rewrite rfind_from_shift. fold (rfind c b). rewrite (rfind_none c b B). cbn [option_map]. rewrite Z.eqb_refl. reflexivity.
  - rewrite rfind_from_shift, IH. reflexivity.
Qed.
Lemma count_cons c x s : count c (x :: s) = ((if (c =? x)%Z then 1 else 0) + count c s)%nat.
Proof. unfold count. cbn [filter]. destruct (c =? x); reflexivity. Qed.

(** Characters of clock texts: none of T, space, Z, B, +, -. *)
Lemma form_free c x h mi s w f : is_digit c = false -> c <> 58 -> c <> 46 -> count c (clock_form x h mi s w f) = 0%nat.
Proof.
  intros D A B. unfold clock_form, fraction. rewrite !count_app, !count_columns by exact D.
  assert (C : count c (colon x) = 0%nat). { destruct x; [|reflexivity]. change (colon true) with [58]. rewrite count_cons. replace (c =? 58) with false by lia. reflexivity. }
  rewrite C. destruct w; [reflexivity|]. change (str ".") with [46]. rewrite count_app, count_cons, count_columns by exact D. replace (c =? 46) with false by lia. reflexivity.
Qed.

(** The parts of a text date + separator + clock + zone are found again. *)
Lemma parse_parts rnd m D c C ZT y mo d (t : Z * Z * Q) o :
  D <> [] -> C <> [] -> (c = 84 \/ c = 32) -> count 84 D = 0%nat ->
  (forall k, In k [84; 32; 90; 66; 43; 45] -> count k C = 0%nat) ->
  ZT = [] /\ o = None \/ (exists g W, ZT = g :: W /\ (g = 43 \/ g = 45) /\ (forall k, In k [84; 32; 90; 66; 43; 45] -> count k W = 0%nat) /\ parse_timezone ZT = Ok o) ->
  parse_date rnd m D = Ok [y; mo; d] -> parse_time rnd (c :: C) = Ok (Some t) ->
  parse_dtz rnd m (D ++ c :: C ++ ZT) = Ok ([y; mo; d], Some t, o).
Proof.
  intros DN CN SC D84 FC ZC PD PT.
  assert (FZ : forall k, In k [84; 32; 90; 66] -> count k ZT = 0%nat).
  { intros k K. destruct ZC as [[-> _]|(g & W & -> & G & FW & _)]; [reflexivity|]. rewrite count_cons, FW by (cbn in K |- *; tauto).
    destruct (Z.eqb_spec k g); [|reflexivity]. exfalso. cbn in K. lia. }
  assert (I : find_index (D ++ c :: C ++ ZT) ([84; 32] ++ TZ_CHARS) = List.length D).
  { unfold find_index. cbn [app flat_map TZ_CHARS]. destruct SC as [->| ->].
    - rewrite rfind_last; [reflexivity|]. rewrite count_app, FC, FZ by (cbn; tauto). reflexivity.
    - rewrite (rfind_none 84); [cbn [app]; rewrite rfind_last; [reflexivity|]; rewrite count_app, FC, FZ by (cbn; tauto); reflexivity|].
      rewrite count_app, count_cons, count_app, D84, FC, FZ by (cbn; tauto). reflexivity. }
  unfold parse_dtz. rewrite I, firstn_app, Nat.sub_diag, firstn_all, skipn_app, Nat.sub_diag, skipn_all. cbn [firstn skipn app]. rewrite app_nil_r.
  destruct D as [|d0 D]; [congruence|]. rewrite PD. cbn [bind].
  replace (existsb (Z.eqb c) TZ_CHARS) with false by (destruct SC as [->| ->]; reflexivity).
  assert (Nc : forall k, In k [90; 66; 43; 45] -> count k (c :: C) = 0%nat).
  { intros k K. rewrite count_cons, FC by (cbn in K |- *; tauto). destruct (Z.eqb_spec k c); [|reflexivity]. exfalso. cbn in K. lia. }
  assert (J : find_index (c :: C ++ ZT) TZ_CHARS = List.length (c :: C)).
  { change (c :: C ++ ZT) with ((c :: C) ++ ZT). unfold find_index. cbn [flat_map TZ_CHARS].
    rewrite (rfind_none 90), (rfind_none 66) by (rewrite count_app, Nc, FZ by (cbn; tauto); reflexivity). cbn [app].
    destruct ZC as [[-> _]|(g & W & -> & G & FW & _)].
    - rewrite app_nil_r, (rfind_none 43), (rfind_none 45) by (apply Nc; cbn; tauto). reflexivity.
    - destruct G as [->| ->].
      + change (c :: C ++ 43 :: W) with ((c :: C) ++ 43 :: W). rewrite rfind_last by (apply FW; cbn; tauto). reflexivity.
      + rewrite (rfind_none 43) by (change (c :: C ++ 45 :: W) with ((c :: C) ++ 45 :: W); rewrite count_app, (count_cons 43 45), Nc, FW by (cbn; tauto); reflexivity). change (c :: C ++ 45 :: W) with ((c :: C) ++ 45 :: W). rewrite rfind_last by (apply FW; cbn; tauto). reflexivity. }
  rewrite J. change (c :: C ++ ZT) with ((c :: C) ++ ZT). rewrite firstn_app, Nat.sub_diag, firstn_all, skipn_app, Nat.sub_diag, skipn_all. cbn [firstn skipn app]. rewrite app_nil_r.
  rewrite PT. cbn [bind]. destruct ZC as [[-> ->]|(g & W & -> & G & FW & P)]; [reflexivity|]. rewrite P. reflexivity.
Qed.

(** The seconds with six decimals, as split by the constructor. *)
Lemma split_seconds rnd h mi s us q : Nearest rnd -> 0 <= s <= 60 -> 0 <= us <= 999999 -> (q == rnd ((s * 1000000 + us) # 1000000))%Q ->
  exists u, create_time rnd (inject_Z h) (inject_Z mi) q 0 = Ok (h, mi, s, u) /\ (u = us \/ u = us - 1) /\ (us = 0 -> u = 0).
Proof.
  intros N S U E. unfold create_time. rewrite (fmod1_Z rnd h), (fmod1_Z rnd mi). cbn [andb orb Z.eqb negb]. rewrite !Qfloor_Z.
  destruct (Z.eq_dec us 0) as [->|U0].
  - assert (QS : (q == inject_Z s)%Q).
    { rewrite E. rewrite (near_proper rnd N _ (inject_Z s)) by (rewrite Qmake_Qdiv, !inject_Z_plus, !inject_Z_mult; field). apply near_int; [exact N|lia]. }
    assert (F : Qfloor q = s) by (rewrite (Qfloor_comp _ _ QS); apply Qfloor_Z).
    assert (Q0 : (0 <= q)%Q) by (rewrite QS; change 0%Q with (inject_Z 0); rewrite <- Zle_Qle; lia).
    destruct (fmod1_nonneg rnd q Q0) as [FM _]. rewrite F in FM.
    replace (nonzero (fmod1 rnd q)) with false; [exists 0; rewrite F; split; [reflexivity|]; split; [left; reflexivity|reflexivity]|].
    symmetry. unfold nonzero. replace (Qeqb (fmod1 rnd q) 0) with true; [reflexivity|]. symmetry. apply Qeqb_eq. rewrite FM, QS. ring.
  - set (v := (s * 1000000 + us) # 1000000) in *. assert (VV : (v * 1000000 == inject_Z s * 1000000 + inject_Z us)%Q) by (unfold v; rewrite Qmake_Qdiv, !inject_Z_plus, !inject_Z_mult; field).
    assert (UR : (1 <= inject_Z us <= 999999)%Q) by (change 1%Q with (inject_Z 1); change 999999%Q with (inject_Z 999999); rewrite <- !Zle_Qle; lia).
    assert (SR : (0 <= inject_Z s <= 60)%Q) by (change 0%Q with (inject_Z 0); change 60%Q with (inject_Z 60); rewrite <- !Zle_Qle; lia).
    pose proof (near_k rnd N 6 v (1 # 281474976710656) ltac:(apply Qabs_le_iff; change (2 ^ 6)%Q with 64%Q; split; lra) ltac:(discriminate)) as A. rewrite <- E in A.
    assert (Q0 : (0 <= q)%Q) by lra.
    assert (F : Qfloor q = s).
    { pose proof (Qfloor_le q) as B1. pose proof (Qlt_floor q) as B2. rewrite inject_Z_plus in B2. change (inject_Z 1) with 1%Q in B2.
      assert (Qfloor q < s + 1) by (rewrite Zlt_Qlt, inject_Z_plus; change (inject_Z 1) with 1%Q; lra).
      assert (s < Qfloor q + 1) by (rewrite Zlt_Qlt, inject_Z_plus; change (inject_Z 1) with 1%Q; lra). lia. }
    rewrite frac_true by (try exact Q0; rewrite F; intro; lra). rewrite F. eexists. split; [reflexivity|].
    destruct (fmod1_nonneg rnd q Q0) as [FM FR]. rewrite F in FM. unfold partial_second_to_microsecond. set (f := fmod1 rnd q) in *.
    destruct (fround6 rnd N f ltac:(split; lra)) as (k & K & K1 & K2 & K3). apply Qabs_le_iff in K1. apply Qabs_le_iff in K2. unfold eps in K1.
    set (r := fround rnd 6 f) in *. assert (KQ : ((k # 1000000) == inject_Z k * (1 # 1000000))%Q) by (unfold Qeq; cbn; lia). rewrite KQ in *.
    assert (KE : k = us).
    { assert (k < us + 1) by (rewrite Zlt_Qlt, inject_Z_plus; change (inject_Z 1) with 1%Q; lra).
      assert (us < k + 1) by (rewrite Zlt_Qlt, inject_Z_plus; change (inject_Z 1) with 1%Q; lra). lia. }
    subst k. unfold fmul.
    assert (R1 : (0 <= r <= 1)%Q) by (split; lra).
    pose proof (near_k rnd N 20 (r * 1000000) (1 # 17179869184) ltac:(apply Qabs_le_iff; change (2 ^ 20)%Q with 1048576%Q; split; lra) ltac:(discriminate)) as G.
    assert (G0 : (0 <= rnd (r * 1000000))%Q) by (apply near_nonneg; [exact N|lra]).
    set (z := rnd (r * 1000000)%Q) in *. rewrite (Qtrunc_nonneg z G0). pose proof (Qfloor_le z) as B1. pose proof (Qlt_floor z) as B2. rewrite inject_Z_plus in B2. change (inject_Z 1) with 1%Q in B2.
    assert (Qfloor z < us + 1) by (rewrite Zlt_Qlt, inject_Z_plus; change (inject_Z 1) with 1%Q; lra).
    assert (us - 1 < Qfloor z + 1) by (rewrite Zlt_Qlt; unfold Zminus; rewrite !inject_Z_plus; change (inject_Z 1) with 1%Q; change (inject_Z (-(1))) with (-(1))%Q; lra).
    split; lia.
Qed.

(** ** C60 *)
(** Offsets whose text is read back. *)
Definition readable_offset (o : option Z) : Prop := forall x, o = Some x -> whole_minutes x /\ (0 <= x \/ x mod 3600000000 = 0).
(** fromisoformat() of isoformat(), with T or a space: the same day and clock, except that the microsecond may be one less. *)
Theorem C60_roundtrip : forall rnd m mk a y mo d sep t, Nearest rnd -> evening rnd m -> dt_d a = DShort y mo d -> supported rnd m (dt_d a) y mo d -> valid_dt_clock a ->
  0 <= y \/ y <= -1000 -> readable_offset (offset (dt_tz a)) -> sep = 84 \/ sep = 32 -> dt_isoformat a [sep] Auto = Ok t ->
  exists u, dt_fromisoformat rnd m mk t = Ok {| dt_d := dt_d a; dt_h := dt_h a; dt_mi := dt_mi a; dt_s := dt_s a; dt_us := u; dt_tz := option_map mk (offset (dt_tz a)); dt_fold := 0 |} /\
    (u = dt_us a \/ u = dt_us a - 1) /\ (dt_us a = 0 -> u = 0).
Proof.
  intros rnd m mk [dd h mi s us z fo] y mo d sep t N E D S (V & _ & G) YC RO SP I. cbn [dt_d dt_h dt_mi dt_s dt_us dt_tz dt_fold] in *. subst dd. destruct V as (H & M & SR & U).
  destruct (sup_ok rnd m _ y mo d N E S) as (DD & K & Y). pose proof (ok_small y mo d K) as KS.
  unfold dt_isoformat in I. cbn [dt_d dt_h dt_mi dt_s dt_us dt_tz dt_fold ymd] in I. rewrite utcoffset_ok in I by exact G. cbn [bind] in I.
  set (w := if us =? 0 then 0%nat else 6%nat).
  assert (T : format_time h mi s us Auto = clock_form true h mi s w us).
  { unfold format_time, clock_form, w. rewrite !(fmt0_columns 2), (fmt0_columns 6) by (cbn; lia). destruct (us =? 0); cbn [fraction colon]; rewrite ?app_nil_r, <- ?app_assoc; reflexivity. }
  rewrite T, iso_ymd_text in I by (unfold okd in K; lia).
  assert (TI : t = ymd_text y mo d ++ sep :: clock_form true h mi s w us ++ format_offset (offset z)) by (cbn [app] in I; congruence). subst t. clear I T.
  assert (F : 0 <= us < 10 ^ Z.of_nat w) by (unfold w; destruct (Z.eqb_spec us 0); cbn; lia).
  destruct (tail_hms rnd N true h mi s w us ltac:(lia) ltac:(lia) ltac:(lia) F) as (q & P & EQ). destruct (form_counts true h mi s w us) as (TC & C1 & C2 & L).
  assert (PT : parse_time rnd (sep :: clock_form true h mi s w us) = Ok (Some (h, mi, q))).
  { rewrite (parse_sep rnd sep _ SP TC C1 C2 L). unfold clock_form. change (fraction w us) with (frac_text w us). rewrite P. reflexivity. }
  change (second_of rnd s w us) with (seconds_float rnd s w us) in EQ.
  assert (X : (seconds_float rnd s w us == rnd ((s * 1000000 + us) # 1000000))%Q).
  { unfold seconds_float, w. apply near_proper; [exact N|]. rewrite Qmake_Qdiv. destruct (Z.eqb_spec us 0) as [->|]; [|reflexivity].
    change (10 ^ Z.of_nat 0) with 1. rewrite !inject_Z_plus, !inject_Z_mult. field. }
  destruct (sec_bounds rnd s w us N SR F ltac:(right; unfold w; destruct (us =? 0); lia)) as [B1 B2]. destruct (qeq_bounds q _ 0 61 EQ B1 B2) as [B3 B4]. rewrite X in EQ.
  destruct (split_seconds rnd h mi s us q N SR U EQ) as (u & CT & UU).
  exists u. split; [|exact UU]. unfold dt_fromisoformat.
  rewrite (parse_parts rnd m (ymd_text y mo d) sep (clock_form true h mi s w us) (format_offset (offset z)) y mo d (h, mi, q) (offset z)).
  - cbn [bind]. unfold dt_newf. cbn [List.length Nat.eqb orb passert bind]. rewrite CT. cbn [bind]. rewrite (new_short rnd N m E y mo d K). cbn [bind].
    change (inject_Z 0) with 0%Q. rewrite (clock_check h mi q H M B3 B4). reflexivity.
  - unfold ymd_text, year_text. destruct (y <? 0); [discriminate|]. change (columns 4 y) with (48 + y / 10 ^ 3 mod 10 :: columns 3 y). discriminate.
  - unfold clock_form. change (columns 2 h) with (48 + h / 10 ^ 1 mod 10 :: columns 1 h). discriminate.
  - exact SP.
  - apply no_marks.
  - intros k KI. apply form_free; cbn in KI; [unfold is_digit|..]; lia.
  - destruct (offset z) as [o|] eqn:O; [right|left; split; reflexivity]. assert (OR := G o O). destruct (RO o eq_refl) as [WM OC].
    rewrite C28_shape by exact OR. rewrite offset_minutes by assumption. eexists; eexists. split; [reflexivity|].
    split; [unfold sign_char; destruct (o <? 0); tauto|]. split; [|rewrite <- offset_minutes by assumption; apply C32_roundtrip; assumption].
    intros k KI. unfold hm_text. change (str ":") with [58]. rewrite count_app, count_cons || rewrite !count_app, !count_cons. rewrite !count_columns by (cbn in KI; unfold is_digit; lia).
    replace (k =? 58) with false by (cbn in KI; lia). reflexivity.
  - apply parse_ymd; try assumption; unfold okd in K; lia.
  - exact PT.
Qed.
Print Assumptions C60_roundtrip.
(** With IEEE binary64 a microsecond is really lost: 00:00:00.000249 is read as .000248. *)
Theorem C60_microsecond_lost_refuted : exists m a t, evening b64 m /\ valid_dt_clock a /\ dt_us a = 249 /\ dt_isoformat a [84] Auto = Ok t /\
  forall mk, dt_fromisoformat b64 m mk t = Ok {| dt_d := dt_d a; dt_h := dt_h a; dt_mi := dt_mi a; dt_s := dt_s a; dt_us := 248; dt_tz := dt_tz a; dt_fold := 0 |}.
Proof.
  exists sample_sun, {| dt_d := DShort 181 1 1; dt_h := 0; dt_mi := 0; dt_s := 0; dt_us := 249; dt_tz := None; dt_fold := 0 |}, (str "0181-01-01T00:00:00.000249").
  split; [apply sample_evening|]. split; [split; [unfold valid_clock; cbn; lia|]; split; [left; reflexivity|]; intros x X; discriminate X|]. split; [reflexivity|]. split; [vm_compute; reflexivity|].
  intro mk. vm_compute. reflexivity.
Qed.
Print Assumptions C60_microsecond_lost_refuted.
(** Long form datetimes of different cycles print alike. *)
Theorem C60_cycle_not_printed_refuted : forall a k v y mo d k' v' sep spec, dt_d a = DLong k v y mo d ->
  dt_isoformat {| dt_d := DLong k' v' y mo d; dt_h := dt_h a; dt_mi := dt_mi a; dt_s := dt_s a; dt_us := dt_us a; dt_tz := dt_tz a; dt_fold := dt_fold a |} sep spec = dt_isoformat a sep spec.
Proof. intros a k v y mo d k' v' sep spec D. unfold dt_isoformat. rewrite D. reflexivity. Qed.
Print Assumptions C60_cycle_not_printed_refuted.
(** A date alone is misread: its day becomes a UTC offset of so many hours, and the date the first of the month. *)
Theorem C60_date_only_refuted : forall rnd m mk y mo d, Nearest rnd -> evening rnd m -> 0 <= y <= 1161 -> 0 <= mo <= 19 -> 1 <= d <= 19 ->
  dt_fromisoformat rnd m mk (ymd_text y mo d) =
    Ok {| dt_d := DShort y mo 1; dt_h := 0; dt_mi := 0; dt_s := 0; dt_us := 0; dt_tz := Some (mk (- d * 3600000000)); dt_fold := 0 |}.
Proof.
  intros rnd m mk y mo d N E Y M D. assert (K : okd y mo 1) by (unfold okd, bmonth_len; destruct (mo =? 0), (zleap y); lia).
  assert (TY : ymd_text y mo d = (signed_year y ++ str "-" ++ columns 2 mo) ++ 45 :: columns 2 d).
  { unfold ymd_text, year_text, signed_year. replace (y <? 0) with false by lia. rewrite <- !app_assoc. reflexivity. }
  assert (PD : parse_date rnd m (signed_year y ++ str "-" ++ columns 2 mo) = Ok [y; mo; 1]).
  { rewrite parse_signed; [apply tail_ym; lia|lia|]. rewrite !existsb_app, !existsb_columns by (intros c Hc; rewrite Hc; reflexivity). reflexivity. }
  assert (PZ : parse_timezone (45 :: columns 2 d) = Ok (Some (- d * 3600000000))).
  { unfold parse_timezone. replace (existsb _ _) with false by (symmetry; cbn [existsb]; rewrite existsb_columns by (intros c Hc; rewrite Hc; reflexivity); reflexivity).
    rewrite !count_cons, !count_columns by reflexivity. replace (List.length _) with 3%nat by reflexivity.
    rewrite split_digits by (try apply columns_digits; reflexivity). rewrite pyint_columns by (cbn; lia).
    cbn [Z.eqb Pos.eqb Nat.add Nat.leb passert bind negb orb andb Nat.ltb Nat.eqb fst snd]. unfold HOUR, MINUTE, DAY. replace (d * -1 * 3600000000 + 0 * 60000000) with (- d * 3600000000) by lia.
    match goal with |- context [?a || ?b] => replace (a || b) with false by lia end. match goal with |- context [?a && ?b] => replace (a && b) with true by lia end. reflexivity. }
  set (D0 := signed_year y ++ str "-" ++ columns 2 mo) in *.
  assert (FD : forall c, In c [84; 32; 90; 66; 43] -> count c (D0 ++ 45 :: columns 2 d) = 0%nat).
  { intros c C. unfold D0. rewrite count_app, count_cons, count_columns by (cbn in C; unfold is_digit; lia). rewrite marks_signed by (try (cbn in C; unfold is_digit; lia); change (str "-") with [45]; rewrite count_app, count_cons, count_columns by (cbn in C; unfold is_digit; lia); replace (c =? 45) with false by (cbn in C; lia); reflexivity).
    replace (c =? 45) with false by (cbn in C; lia). reflexivity. }
  rewrite TY. unfold dt_fromisoformat, parse_dtz.
  assert (I : find_index (D0 ++ 45 :: columns 2 d) ([84; 32] ++ TZ_CHARS) = List.length D0).
  { unfold find_index. cbn [app flat_map TZ_CHARS]. rewrite (rfind_none 84), (rfind_none 32), (rfind_none 90), (rfind_none 66), (rfind_none 43) by (apply FD; cbn; tauto).
    rewrite rfind_last by (apply count_columns; reflexivity). reflexivity. }
  rewrite I, firstn_app, Nat.sub_diag, firstn_all, skipn_app, Nat.sub_diag, skipn_all. cbn [firstn skipn app]. rewrite app_nil_r.
  destruct D0 as [|c0 D0]; [discriminate|]. rewrite PD. cbn [bind]. change (existsb (Z.eqb 45) TZ_CHARS) with true. cbv iota. rewrite PZ. cbn [bind].
  unfold dt_newf. cbn [List.length Nat.eqb orb passert bind]. change 0%Q with (inject_Z 0). rewrite create_time_Z. cbn [bind]. rewrite (new_short rnd N m E y mo 1 K). reflexivity.
Qed.
Print Assumptions C60_date_only_refuted.
Example C60_case :
  let z := {| tz_id := 7; tz_off := Some 12600000000 |} in
  let a := {| dt_d := DShort 181 19 19; dt_h := 24; dt_mi := 59; dt_s := 60; dt_us := 500000; dt_tz := Some z; dt_fold := 1 |} in
  supported b64 sample_sun (dt_d a) 181 19 19 /\ valid_dt_clock a /\ readable_offset (offset (dt_tz a)) /\
  dt_isoformat a [84] Auto = Ok (str "0181-19-19T24:59:60.500000+03:30") /\
  dt_fromisoformat b64 sample_sun (fun o => {| tz_id := 1; tz_off := Some o |}) (str "0181-19-19") =
    Ok {| dt_d := DShort 181 19 1; dt_h := 0; dt_mi := 0; dt_s := 0; dt_us := 0; dt_tz := Some {| tz_id := 1; tz_off := Some (-68400000000) |}; dt_fold := 0 |}.
Proof.
  cbv zeta. cbn [dt_d dt_tz offset tz_off]. split; [sup|]. split; [split; [unfold valid_clock; cbn; lia|]; split; [right; reflexivity|]; intros x [= <-]; lia|]. split; [intros x [= <-]; split; [reflexivity|lia]|].
  split; vm_compute; reflexivity.
Qed.
