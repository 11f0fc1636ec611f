(** PropertiesText3.v -- C31: ISO time text. *)
From Coq Require Import ZArith QArith Qround Qabs List Bool Lia Lqa String.
From Coq Require Import ZifyBool ZifyNat ZifyN.
From Verif Require Import Base Flt QUtil BaseModel MiscModel BadiModel BaseProofs SunProofs SpecBadi BadiProofs BadiProofs2 BadiProofs3 DecProofs BadiProofs4 LongYear LongProofs BadiProofs5
  ClockProofs3 ClockProofs4 TduModel DateModel SpecDate TduProofs TduProofs2 TduProofs3 DateProofs SampleSun PropertiesBadi PropertiesDate PropertiesDate2
  TimeModel SpecTime TimeProofs PropertiesTime PropertiesDt PropertiesDt2 TextModel SpecText TextProofs TextProofs2 TextProofs3 PropertiesText PropertiesText2.
Import ListNotations.
Local Open Scope Z_scope.
Ltac Zify.zify_post_hook ::= Z.div_mod_to_equations.

(** The text of a number of seconds with [w] decimals, as a float. *)
Definition seconds_float (rnd : Q -> Q) (s : Z) (w : nat) (f : Z) : Q := rnd (inject_Z (s * 10 ^ Z.of_nat w + f) / inject_Z (10 ^ Z.of_nat w))%Q.

Lemma sec_bounds rnd s w f : Nearest rnd -> 0 <= s <= 60 -> 0 <= f < 10 ^ Z.of_nat w -> s <= 59 \/ (w <= 12)%nat ->
  (0 <= seconds_float rnd s w f /\ seconds_float rnd s w f < 61)%Q.
Proof.
  intros N S F C. unfold seconds_float. set (P := 10 ^ Z.of_nat w) in *. assert (PP : 0 < P) by lia.
  assert (PQ : (0 < inject_Z P)%Q) by (change 0%Q with (inject_Z 0); rewrite <- Zlt_Qlt; lia).
  split; [apply near_nonneg; [exact N|]; apply Qle_shift_div_l; [exact PQ|]; rewrite Qmult_0_l; change 0%Q with (inject_Z 0); rewrite <- Zle_Qle; nia|].
  destruct (Z_le_gt_dec s 59) as [S59|S60].
  - apply (Qle_lt_trans _ (inject_Z 60)); [|reflexivity]. apply near_le_Z; [exact N|lia|]. apply Qle_shift_div_r; [exact PQ|]. rewrite <- inject_Z_mult, <- Zle_Qle. nia.
  - assert (W : (w <= 12)%nat) by lia. assert (P12 : P <= 1000000000000) by (unfold P; change 1000000000000 with (10 ^ 12); apply Z.pow_le_mono_r; lia).
    assert (X : (0 <= inject_Z (s * P + f) / inject_Z P <= 61 - (1 # 1000000000000))%Q).
    { split; [apply Qle_shift_div_l; [exact PQ|]; rewrite Qmult_0_l; change 0%Q with (inject_Z 0); rewrite <- Zle_Qle; nia|].
      apply Qle_shift_div_r; [exact PQ|]. assert (A : (inject_Z (s * P + f) <= inject_Z (61 * P - 1))%Q) by (rewrite <- Zle_Qle; nia).
      assert (B : (inject_Z P <= 1000000000000)%Q) by (change 1000000000000%Q with (inject_Z 1000000000000); rewrite <- Zle_Qle; exact P12).
      assert (D : (inject_Z (61 * P - 1) == 61 * inject_Z P - 1)%Q) by (unfold Zminus; rewrite inject_Z_plus, inject_Z_mult; reflexivity). rewrite D in A. lra. }
    set (v := (inject_Z (s * P + f) / inject_Z P)%Q) in *.
    pose proof (near_k rnd N 6 v (1 # 281474976710656) ltac:(apply Qabs_le_iff; change (2 ^ 6)%Q with 64%Q; split; lra) ltac:(discriminate)) as A. lra.
Qed.
Lemma clock_check h mi q : 0 <= h <= 24 -> 0 <= mi <= 59 -> (0 <= q)%Q -> (q < 61)%Q -> check_time (inject_Z h) (inject_Z mi) q 0 61 = Ok tt.
Proof.
  intros H M Q0 Q1. unfold check_time. change 0%Q with (inject_Z 0). change 25%Q with (inject_Z 25). change 60%Q with (inject_Z 60). rewrite !Qleb_Z, !Qltb_Z.
  replace ((0 <=? h) && (h <? 25)) with true by lia. replace ((0 <=? mi) && (mi <? 60)) with true by lia. change (inject_Z 0) with 0%Q.
  apply Qleb_le in Q0. apply Qltb_lt in Q1. rewrite Q0, Q1. reflexivity.
Qed.
Lemma qeq_bounds x y a b : (x == y -> a <= y -> y < b -> a <= x /\ x < b)%Q.
Proof. intros E. rewrite E. tauto. Qed.
Lemma form_counts x h mi s w f : timec (clock_form x h mi s w f) /\ (count 58 (clock_form x h mi s w f) < 3)%nat /\ (count 46 (clock_form x h mi s w f) <= 1)%nat /\ (2 <= List.length (clock_form x h mi s w f))%nat.
Proof.
  unfold clock_form. change (fraction w f) with (frac_text w f). split; [repeat apply timec_app; try apply timec_columns; try apply timec_colon; apply timec_frac|].
  rewrite !count_app, !count_columns by reflexivity.
  assert (A : count 58 (frac_text w f) = 0%nat) by (destruct w; [reflexivity|]; cbn [frac_text]; rewrite count_app, count_columns by reflexivity; reflexivity).
  assert (B : (count 46 (frac_text w f) <= 1)%nat) by (destruct w; [cbn; lia|]; cbn [frac_text]; rewrite count_app, count_columns by reflexivity; vm_compute; lia).
  rewrite A. split; [destruct x; vm_compute; lia|].
  replace (count 46 (colon x)) with 0%nat by (destruct x; reflexivity). split; [lia|]. rewrite app_length, columns_len. lia.
Qed.

(** ** C31 *)
(** T or a space, then the clock with any number of decimals: the hour and minute are read exactly and the seconds
    as the float nearest to them. *)
Theorem C31_clock : forall rnd c x h mi s w f, Nearest rnd -> (c = 84 \/ c = 32) -> 0 <= h <= 24 -> 0 <= mi <= 59 -> 0 <= s <= 60 -> 0 <= f < 10 ^ Z.of_nat w ->
  s <= 59 \/ (w <= 12)%nat ->
  exists q, time_fromisoformat rnd (c :: clock_form x h mi s w f) = Ok (h, mi, q) /\ (q == seconds_float rnd s w f)%Q.
Proof.
  intros rnd c x h mi s w f N C H M S F W. destruct (tail_hms rnd N x h mi s w f ltac:(lia) ltac:(lia) ltac:(lia) F) as (q & P & E).
  exists q. split; [|exact E]. destruct (form_counts x h mi s w f) as (TC & C1 & C2 & L). unfold time_fromisoformat. rewrite (parse_sep rnd c _ C TC C1 C2 L).
  unfold clock_form. change (fraction w f) with (frac_text w f). rewrite P. cbn [bind].
  destruct (sec_bounds rnd s w f N S F W) as [B1 B2]. destruct (qeq_bounds q _ 0 61 E B1 B2) as [B3 B4]. rewrite (clock_check h mi q H M B3 B4). reflexivity.
Qed.
Print Assumptions C31_clock.
(** The text that isoformat() gives a time, preceded by T: the microseconds are those of the time. *)
Theorem C31_T_text : forall rnd a t, Nearest rnd -> valid_time a -> t_tz a = None -> time_isoformat a Auto = Ok t ->
  exists q, time_fromisoformat rnd (84 :: t) = Ok (t_h a, t_mi a, q) /\ Qfloor (q * 1000000 + (1 # 2)) = t_s a * 1000000 + t_us a.
Proof.
  intros rnd [h mi s us z fo] t N (V & _ & _) Z I. cbn [t_h t_mi t_s t_us t_tz] in *. subst z. destruct V as (H & M & S & U).
  unfold time_isoformat in I. cbn [t_h t_mi t_s t_us t_tz utcoffset bind format_offset] in I. rewrite app_nil_r in I. assert (TI : t = format_time h mi s us Auto) by congruence. subst t. clear I.
  assert (T : format_time h mi s us Auto = clock_form true h mi s (if us =? 0 then 0 else 6) us).
  { unfold format_time, clock_form. rewrite !(fmt0_columns 2), (fmt0_columns 6) by (cbn; lia). destruct (us =? 0); cbn [fraction colon]; rewrite ?app_nil_r, <- ?app_assoc; reflexivity. }
  rewrite T. assert (F : 0 <= us < 10 ^ Z.of_nat (if us =? 0 then 0%nat else 6%nat)) by (destruct (Z.eqb_spec us 0); cbn; lia).
  destruct (C31_clock rnd 84 true h mi s (if us =? 0 then 0%nat else 6%nat) us N (or_introl eq_refl) H M S F) as (q & P & E); [right; destruct (us =? 0); lia|].
  exists q. split; [exact P|].
  assert (X : (seconds_float rnd s (if us =? 0 then 0%nat else 6%nat) us == rnd ((s * 1000000 + us) # 1000000))%Q).
  { unfold seconds_float. apply near_proper; [exact N|]. rewrite Qmake_Qdiv. destruct (Z.eqb_spec us 0) as [->|]; [|reflexivity].
    change (10 ^ Z.of_nat 0) with 1. rewrite !inject_Z_plus, !inject_Z_mult. field. }
  rewrite X in E.
  assert (R : (0 <= (s * 1000000 + us) # 1000000 <= 61)%Q) by (unfold Qle; cbn [Qnum Qden]; lia).
  set (v := (s * 1000000 + us) # 1000000) in *.
  pose proof (near_k rnd N 6 v (1 # 281474976710656) ltac:(apply Qabs_le_iff; change (2 ^ 6)%Q with 64%Q; split; lra) ltac:(discriminate)) as A.
  assert (VV : (v * 1000000 == inject_Z (s * 1000000 + us))%Q) by (unfold v, Qeq, Qmult, inject_Z; cbn [Qnum Qden]; lia).
  set (K := s * 1000000 + us) in *. rewrite <- E in A.
  pose proof (Qfloor_le (q * 1000000 + (1 # 2))%Q) as B1. pose proof (Qlt_floor (q * 1000000 + (1 # 2))%Q) as B2. rewrite inject_Z_plus in B2. change (inject_Z 1) with 1%Q in B2.
  set (g := Qfloor (q * 1000000 + (1 # 2))%Q) in *.
  assert (g < K + 1). { rewrite Zlt_Qlt, inject_Z_plus. change (inject_Z 1) with 1%Q. lra. }
  assert (K < g + 1). { rewrite Zlt_Qlt, inject_Z_plus. change (inject_Z 1) with 1%Q. lra. }
  lia.
Qed.
Print Assumptions C31_T_text.
(** hours and minutes only *)
Theorem C31_hours_minutes : forall rnd c x h mi, (c = 84 \/ c = 32) -> 0 <= h <= 24 -> 0 <= mi <= 59 ->
  time_fromisoformat rnd (c :: columns 2 h ++ colon x ++ columns 2 mi) = Ok (h, mi, 0%Q) /\ time_fromisoformat rnd (c :: columns 2 h) = Ok (h, 0, 0%Q).
Proof.
  intros rnd c x h mi C H M. unfold time_fromisoformat. split.
  - rewrite parse_sep; [rewrite tail_hm by lia; cbn [bind]; rewrite (clock_check h mi 0) by (try lia; try reflexivity; discriminate); reflexivity|exact C| | | |].
    + repeat apply timec_app; try apply timec_columns; apply timec_colon.
    + rewrite !count_app, !count_columns by reflexivity. destruct x; vm_compute; lia.
    + rewrite !count_app, !count_columns by reflexivity. destruct x; vm_compute; lia.
    + rewrite app_length, columns_len. lia.
  - rewrite parse_sep; [rewrite tail_h by lia; cbn [bind]; rewrite (clock_check h 0 0) by (try lia; try reflexivity; discriminate); reflexivity|exact C| | | |].
    + apply timec_columns.
    + rewrite count_columns by reflexivity. lia.
    + rewrite count_columns by reflexivity. lia.
    + rewrite columns_len. lia.
Qed.
Print Assumptions C31_hours_minutes.
(** A fraction of a minute is sixty times as many seconds, to within 10^-13. *)
Theorem C31_minute_fraction : forall rnd c x h mi w f, Nearest rnd -> (c = 84 \/ c = 32) -> 0 <= h <= 24 -> 0 <= mi <= 59 -> (0 < w)%nat -> 0 <= f < 10 ^ Z.of_nat w ->
  exists q, time_fromisoformat rnd (c :: columns 2 h ++ colon x ++ columns 2 mi ++ str "." ++ columns w f) = Ok (h, mi, q) /\
    (Qabs (q - 60 * (inject_Z f / inject_Z (10 ^ Z.of_nat w))) <= 1 # 10000000000000)%Q.
Proof.
  intros rnd c x h mi w f N C H M W F. unfold time_fromisoformat.
  rewrite parse_sep; [|exact C| | | |].
  2:{ repeat apply timec_app; try apply timec_columns; try apply timec_colon; apply timec_dot. }
  2:{ rewrite !count_app, !count_columns by reflexivity. destruct x; vm_compute; lia. }
  2:{ rewrite !count_app, !count_columns by reflexivity. destruct x; vm_compute; lia. }
  2:{ rewrite app_length, columns_len. lia. }
  rewrite tail_hmf by (try assumption; lia). cbn [bind]. set (P := 10 ^ Z.of_nat w) in *. assert (PP : 0 < P) by lia.
  assert (PQ : (0 < inject_Z P)%Q) by (change 0%Q with (inject_Z 0); rewrite <- Zlt_Qlt; lia).
  assert (X : (0 <= inject_Z f / inject_Z P <= 1)%Q).
  { split; [apply Qle_shift_div_l; [exact PQ|]; rewrite Qmult_0_l; change 0%Q with (inject_Z 0); rewrite <- Zle_Qle; lia|].
    apply Qle_shift_div_r; [exact PQ|]. rewrite Qmult_1_l, <- Zle_Qle. lia. }
  set (v := (inject_Z f / inject_Z P)%Q) in *.
  pose proof (near_k rnd N 0 v (1 # 18014398509481984) ltac:(apply Qabs_le_iff; change (2 ^ 0)%Q with 1%Q; split; lra) ltac:(discriminate)) as A.
  assert (A0 : (0 <= rnd v)%Q) by (apply near_nonneg; [exact N|lra]).
  assert (A1 : (rnd v <= inject_Z 1)%Q) by (apply near_le_Z; [exact N|lia|change (inject_Z 1) with 1%Q; lra]). change (inject_Z 1) with 1%Q in A1.
  set (r := rnd v) in *. unfold fmul.
  pose proof (near_k rnd N 6 (r * 60) (1 # 281474976710656) ltac:(apply Qabs_le_iff; change (2 ^ 6)%Q with 64%Q; split; lra) ltac:(discriminate)) as B.
  assert (B0 : (0 <= rnd (r * 60))%Q) by (apply near_nonneg; [exact N|lra]).
  assert (B1 : (rnd (r * 60) <= inject_Z 60)%Q) by (apply near_le_Z; [exact N|lia|change (inject_Z 60) with 60%Q; lra]). change (inject_Z 60) with 60%Q in B1.
  eexists. rewrite (clock_check h mi (rnd (r * 60)%Q)) by (try assumption; lra). split; [reflexivity|]. apply Qabs_le_iff. split; lra.
Qed.
Print Assumptions C31_minute_fraction.
(** A fraction of an hour, likewise to within 10^-11 seconds, unless it is so close to 1 that the minute would be 60. *)
Theorem C31_hour_fraction : forall rnd c h w f, Nearest rnd -> (c = 84 \/ c = 32) -> 0 <= h <= 24 -> (0 < w)%nat -> 0 <= f < 10 ^ Z.of_nat w -> (w <= 12)%nat ->
  exists mi q, time_fromisoformat rnd (c :: columns 2 h ++ str "." ++ columns w f) = Ok (h, mi, q) /\
    (Qabs (inject_Z mi * 60 + q - 3600 * (inject_Z f / inject_Z (10 ^ Z.of_nat w))) <= 1 # 100000000000)%Q.
Proof.
  intros rnd c h w f N C H W F W12. unfold time_fromisoformat.
  rewrite parse_sep; [|exact C| | | |].
  2:{ repeat apply timec_app; try apply timec_columns; apply timec_dot. }
  2:{ rewrite !count_app, !count_columns by reflexivity. vm_compute; lia. }
  2:{ rewrite !count_app, !count_columns by reflexivity. vm_compute; lia. }
  2:{ rewrite app_length, columns_len. lia. }
  rewrite tail_hf by (try assumption; lia). cbv zeta. cbn [bind]. set (P := 10 ^ Z.of_nat w) in *. assert (PP : 0 < P) by lia.
  assert (PQ : (0 < inject_Z P)%Q) by (change 0%Q with (inject_Z 0); rewrite <- Zlt_Qlt; lia).
  assert (P12 : P <= 1000000000000) by (unfold P; change 1000000000000 with (10 ^ 12); apply Z.pow_le_mono_r; lia).
  assert (X : (0 <= inject_Z f / inject_Z P <= 1 - (1 # 1000000000000))%Q).
  { split; [apply Qle_shift_div_l; [exact PQ|]; rewrite Qmult_0_l; change 0%Q with (inject_Z 0); rewrite <- Zle_Qle; lia|].
    apply Qle_shift_div_r; [exact PQ|].
    assert (A : (inject_Z f <= inject_Z (P - 1))%Q) by (rewrite <- Zle_Qle; lia). unfold Zminus in A. rewrite inject_Z_plus in A. change (inject_Z (- (1))) with (-1)%Q in A.
    assert (B : (inject_Z P <= 1000000000000)%Q) by (change 1000000000000%Q with (inject_Z 1000000000000); rewrite <- Zle_Qle; exact P12). lra. }
  set (v := (inject_Z f / inject_Z P)%Q) in *.
  pose proof (near_k rnd N 0 v (1 # 18014398509481984) ltac:(apply Qabs_le_iff; change (2 ^ 0)%Q with 1%Q; split; lra) ltac:(discriminate)) as A.
  assert (A0 : (0 <= rnd v)%Q) by (apply near_nonneg; [exact N|lra]).
  set (r := rnd v) in *. unfold fmul.
  pose proof (near_k rnd N 6 (r * 60) (1 # 281474976710656) ltac:(apply Qabs_le_iff; change (2 ^ 6)%Q with 64%Q; split; lra) ltac:(discriminate)) as B.
  assert (B0 : (0 <= rnd (r * 60))%Q) by (apply near_nonneg; [exact N|lra]).
  set (ph := rnd (r * 60)%Q) in *. destruct (fmod1_nonneg rnd ph B0) as [FM FR].
  pose proof (Qfloor_le ph) as G1. pose proof (Qlt_floor ph) as G2. rewrite inject_Z_plus in G2. change (inject_Z 1) with 1%Q in G2.
  set (u := fmod1 rnd ph) in *.
  pose proof (near_k rnd N 6 (u * 60) (1 # 281474976710656) ltac:(apply Qabs_le_iff; change (2 ^ 6)%Q with 64%Q; split; lra) ltac:(discriminate)) as D.
  assert (D0 : (0 <= rnd (u * 60))%Q) by (apply near_nonneg; [exact N|lra]).
  assert (MI : 0 <= Qfloor ph <= 59).
  { split; [apply Qfloor_nonneg; exact B0|]. assert (Qfloor ph < 60); [|lia]. rewrite Zlt_Qlt. change (inject_Z 60) with 60%Q. lra. }
  exists (Qfloor ph), (rnd (u * 60)%Q). rewrite (clock_check h (Qfloor ph) (rnd (u * 60)%Q)) by (try assumption; lra). split; [reflexivity|]. apply Qabs_le_iff. split; lra.
Qed.
Print Assumptions C31_hour_fraction.
(** But without the T no text that isoformat() produces is accepted, for any time and any timespec. *)
Theorem C31_own_text_refused : forall rnd a spec t, valid_time a -> time_isoformat a spec = Ok t -> time_fromisoformat rnd t = Err ValueError.
Proof.
  intros rnd [h mi s us z fo] spec t (V & _ & G) I. cbn [t_h t_mi t_s t_us t_tz] in *. destruct V as (H & M & S & U).
  unfold time_isoformat in I. cbn [t_h t_mi t_s t_us t_tz] in I. rewrite utcoffset_ok in I by exact G. cbn [bind] in I.
  assert (O32 : count 32 (format_offset (offset z)) = 0%nat).
  { destruct (offset z) as [o|] eqn:O; [|reflexivity]. rewrite C28_shape by (apply G; exact O). unfold offset_text, hm_text. rewrite !count_app, !count_columns by reflexivity.
    destruct (o <? 0), (Z.abs o mod 60000000 =? 0), (Z.abs o mod 1000000 =? 0); rewrite ?count_app, ?count_columns by reflexivity; reflexivity. }
  assert (F : exists r, format_time h mi s us spec = columns 2 h ++ r /\ count 32 r = 0%nat).
  { unfold format_time. rewrite !(fmt0_columns 2), (fmt0_columns 6), (fmt0_columns 3) by (cbn; lia).
    destruct spec; try destruct (us =? 0); rewrite <- ?app_assoc; first [exists []; rewrite app_nil_r; split; reflexivity | eexists; split; [reflexivity|]; rewrite !count_app, !count_columns by reflexivity; reflexivity]. }
  destruct F as (r & FT & R). rewrite FT in I. assert (TI : t = (columns 2 h ++ r) ++ format_offset (offset z)) by congruence. subst t. clear I.
  assert (P : exists e, parse_time rnd ((columns 2 h ++ r) ++ format_offset (offset z)) = Err e).
  { unfold parse_time. destruct (existsb _ _); [eexists; reflexivity|]. destruct (passert _); [|eexists; reflexivity]. cbn [bind].
    assert (C : count 32 ((columns 2 h ++ r) ++ format_offset (offset z)) = 0%nat) by (rewrite !count_app, R, O32, count_columns by reflexivity; reflexivity). rewrite C. cbn [Nat.ltb Nat.leb].
    destruct (head_columns 2 h ltac:(lia)) as (c & rr & Q & D). rewrite Q. cbn [app]. replace (c =? 84) with false by (unfold is_digit in D; lia). eexists. reflexivity. }
  destruct P as (e & P). unfold time_fromisoformat. rewrite P. reflexivity.
Qed.
Print Assumptions C31_own_text_refused.
Example C31_case : valid_time {| t_h := 14; t_mi := 7; t_s := 9; t_us := 250; t_tz := None; t_fold := 0 |} /\
  time_isoformat {| t_h := 14; t_mi := 7; t_s := 9; t_us := 250; t_tz := None; t_fold := 0 |} Auto = Ok (str "14:07:09.000250") /\
  (match time_fromisoformat b64 (str "T14:07:09.500000") with Ok (h, mi, q) => (h =? 14) && (mi =? 7) && Qeqb q (19 # 2) | Err _ => false end = true) /\
  (match time_fromisoformat b64 (str " 140730.5") with Ok (h, mi, q) => (h =? 14) && (mi =? 7) && Qeqb q (61 # 2) | Err _ => false end = true) /\
  (match time_fromisoformat b64 (str "T14:07.25") with Ok (h, mi, q) => (h =? 14) && (mi =? 7) && Qeqb q 15 | Err _ => false end = true) /\
  (match time_fromisoformat b64 (str "T14.375") with Ok (h, mi, q) => (h =? 14) && (mi =? 22) && Qeqb q 30 | Err _ => false end = true) /\
  time_fromisoformat b64 (str "14:07:09.000250") = Err ValueError.
Proof. split; [repeat split; cbn; try lia; discriminate|]. vm_compute. tauto. Qed.
