(** PropertiesText.v -- C28 to C30: offset text, ISO date text. *)
From Coq Require Import ZArith QArith Qround List Bool Lia String.
From Coq Require Import ZifyBool ZifyNat ZifyN.
From Verif Require Import Base Flt BaseModel BadiModel SpecBadi BadiProofs BadiProofs2 BadiProofs3 DecProofs BadiProofs4 LongYear LongProofs BadiProofs5
  TduModel DateModel SpecDate TduProofs TduProofs2 TduProofs3 DateProofs SampleSun PropertiesBadi PropertiesDate PropertiesDate2 TimeModel SpecTime TimeProofs TextModel SpecText TextProofs TextProofs2.
Import ListNotations.
Local Open Scope Z_scope.
Ltac Zify.zify_post_hook ::= Z.div_mod_to_equations.

(** ** C28: offset text *)
Theorem C28_shape : forall o, -86400000000 < o < 86400000000 -> format_offset (Some o) = offset_text o.
Proof.
  intros o R. unfold format_offset, offset_text, hm_text, DAY, HOUR, MINUTE. cbn [app].
  replace (o / 86400000000 <? 0) with (o <? 0) by lia.
  replace (if o <? 0 then - o else o) with (Z.abs o) by (destruct (Z.ltb_spec o 0); lia). set (a := Z.abs o). assert (A : 0 <= a < 86400000000) by lia. clearbody a.
  replace (a mod 3600000000 / 60000000) with (a / 60000000 mod 60) by lia.
  replace (a mod 3600000000 mod 60000000) with (a mod 60000000) by lia.
  replace (a mod 60000000 mod 1000000) with (a mod 1000000) by lia.
  rewrite !fmt0_columns by (cbn; lia).
  replace (a mod 60000000 / 1000000) with (a / 1000000 mod 60) by lia.
  destruct (o <? 0); destruct (a mod 60000000 =? 0); try destruct (a mod 1000000 =? 0); reflexivity.
Qed.
Print Assumptions C28_shape.
(** Distinct offsets have distinct texts. *)
Lemma offset_text_inj o o' : -86400000000 < o < 86400000000 -> -86400000000 < o' < 86400000000 -> offset_text o = offset_text o' -> o = o'.
Proof.
  intros R R' E. unfold offset_text in E. set (a := Z.abs o) in *. set (a' := Z.abs o') in *.
  assert (S : (o <? 0) = (o' <? 0)).
  { apply (f_equal (fun l => hd 0 l)) in E. destruct (o <? 0), (o' <? 0); try reflexivity; cbn in E; discriminate. }
  assert (H1 : a / 3600000000 = a' / 3600000000).
  { apply (f_equal (slice 1 3)) in E. apply (columns_inj 2); [cbn; lia|cbn; lia|].
    destruct (o <? 0), (o' <? 0); exact E. }
  assert (H2 : a / 60000000 mod 60 = a' / 60000000 mod 60).
  { apply (f_equal (slice 4 6)) in E. apply (columns_inj 2); [cbn; lia|cbn; lia|].
    destruct (o <? 0), (o' <? 0); exact E. }
  assert (F : (if a mod 60000000 =? 0 then [] else str ":" ++ columns 2 (a / 1000000 mod 60) ++ (if a mod 1000000 =? 0 then [] else str "." ++ columns 6 (a mod 1000000))) =
    (if a' mod 60000000 =? 0 then [] else str ":" ++ columns 2 (a' / 1000000 mod 60) ++ (if a' mod 1000000 =? 0 then [] else str "." ++ columns 6 (a' mod 1000000)))).
  { apply (f_equal (skipn 6)) in E. destruct (o <? 0), (o' <? 0); exact E. }
  assert (a mod 60000000 = a' mod 60000000); [|lia].
  destruct (a mod 60000000 =? 0) eqn:A, (a' mod 60000000 =? 0) eqn:A'; try discriminate F; [lia|].
  assert (H3 : a / 1000000 mod 60 = a' / 1000000 mod 60).
  { apply (f_equal (slice 1 3)) in F. apply (columns_inj 2); [cbn; lia|cbn; lia|exact F]. }
  apply (f_equal (skipn 3)) in F.
  destruct (a mod 1000000 =? 0) eqn:B, (a' mod 1000000 =? 0) eqn:B'; try discriminate F; [lia|].
  assert (H4 : a mod 1000000 = a' mod 1000000).
  { apply (f_equal (skipn 1)) in F. apply (columns_inj 6); [cbn; lia|cbn; lia|exact F]. }
  lia.
Qed.
Theorem C28_text_determines_offset : forall o o', -86400000000 < o < 86400000000 -> -86400000000 < o' < 86400000000 ->
  format_offset (Some o) = format_offset (Some o') -> o = o'.
Proof. intros o o' R R' E. rewrite !C28_shape in E by assumption. apply offset_text_inj; assumption. Qed.
Print Assumptions C28_text_determines_offset.
(** The default name of a zone is "UTC" followed by the same text, except for the zero offset. *)
Theorem C28_zone_name : forall o, -86400000000 < o < 86400000000 -> name_from_offset o = str "UTC" ++ (if o =? 0 then [] else offset_text o).
Proof.
  intros o R. unfold name_from_offset. destruct (o =? 0) eqn:Z0; [reflexivity|]. unfold offset_text, hm_text, HOUR, MINUTE.
  replace (if o <? 0 then - o else o) with (Z.abs o) by (destruct (Z.ltb_spec o 0); lia). set (a := Z.abs o). assert (A : 0 <= a < 86400000000) by lia. clearbody a.
  replace (a mod 3600000000 / 60000000) with (a / 60000000 mod 60) by lia.
  replace (a mod 3600000000 mod 60000000) with (a mod 60000000) by lia.
  replace (a mod 60000000 mod 1000000) with (a mod 1000000) by lia.
  replace (a mod 60000000 / 1000000) with (a / 1000000 mod 60) by lia.
  rewrite !fmt0_columns by (cbn; lia).
  destruct (o <? 0); destruct (a mod 60000000 =? 0) eqn:B; destruct (a mod 1000000 =? 0) eqn:C; destruct (a / 1000000 mod 60 =? 0) eqn:D; try lia; reflexivity.
Qed.
Print Assumptions C28_zone_name.
Example C28_case : format_offset (Some (-12600000001)) = str "-03:30:00.000001" /\ format_offset (Some 0) = str "+00:00" /\
  format_offset (Some (-30000000)) = str "-00:00:30" /\ name_from_offset 20700000000 = str "UTC+05:45".
Proof. vm_compute. tauto. Qed.

(** ** C29: ISO date text *)
Lemma iso_ymd_text y mo d : -9999 <= y <= 9999 -> 0 <= mo <= 99 -> 0 <= d <= 99 -> iso_ymd y mo d = ymd_text y mo d.
Proof.
  intros Y M D. unfold iso_ymd, ymd_text, year_text. rewrite !(fmt0_columns 2) by (cbn; lia). unfold fmt0.
  destruct (y <? 0) eqn:S; [|rewrite pad_dec by (cbn; lia); reflexivity].
  destruct (y <=? -1000) eqn:K; [|rewrite pad_dec by (cbn; lia); reflexivity].
  assert (P : pad (4 - 1) (dec (- y)) = columns 4 (- y)); [|rewrite P; reflexivity].
  rewrite <- (pad_dec 4) by (cbn; lia). unfold pad.
  destruct (le_lt_dec 4 (List.length (dec (- y)))) as [L|L].
  - replace (4 - 1 - List.length (dec (- y)))%nat with 0%nat by lia. replace (4 - List.length (dec (- y)))%nat with 0%nat by lia. reflexivity.
  - exfalso. destruct (dec_digits (- y) ltac:(lia)) as (c & r & E & DD & V). rewrite E in *. cbn [List.length] in L.
    assert (B : forall s, forallb is_digit s = true -> value s < 10 ^ Z.of_nat (List.length s)).
    { clear. intro s. rewrite <- (rev_involutive s). induction (rev s) as [|x l IH]; [reflexivity|]. cbn [rev]. rewrite forallb_app, value_app, app_length.
      intro H. apply andb_true_iff in H as [H X]. cbn in X. unfold is_digit in X. specialize (IH H). rewrite Nat2Z.inj_add. cbn [List.length]. rewrite Z.pow_add_r by lia. change (10 ^ Z.of_nat 1) with 10. lia. }
    specialize (B _ DD). assert (10 ^ Z.of_nat (List.length (c :: r)) <= 10 ^ 3) by (apply Z.pow_le_mono_r; cbn [List.length]; lia). lia.
Qed.
Lemma ok_small y mo d : okd y mo d -> 0 <= mo <= 19 /\ 1 <= d <= 19.
Proof. unfold okd, bmonth_len. destruct (mo =? 0), (zleap y); lia. Qed.

(** isoformat() of a date of either form is the year, month and day of its short form. *)
Theorem C29_isoformat_text : forall rnd m a y mo d, Nearest rnd -> evening rnd m -> supported rnd m a y mo d ->
  date_isoformat rnd m a = Ok (ymd_text y mo d).
Proof.
  intros rnd m a y mo d N E S. destruct (sup_ok rnd m a y mo d N E S) as (D & K & Y). unfold date_isoformat.
  rewrite (short_form_ok rnd N m E a y mo d D K). cbn [bind]. pose proof (ok_small y mo d K). rewrite iso_ymd_text by (unfold okd in K; lia). reflexivity.
Qed.
Print Assumptions C29_isoformat_text.
(** Distinct days have distinct texts. *)
Theorem C29_text_determines_day : forall y mo d y' mo' d', -1842 <= y <= 1161 -> -1842 <= y' <= 1161 -> 0 <= mo <= 19 -> 0 <= mo' <= 19 ->
  1 <= d <= 19 -> 1 <= d' <= 19 -> ymd_text y mo d = ymd_text y' mo' d' -> (y, mo, d) = (y', mo', d').
Proof.
  intros y mo d y' mo' d' Y Y' M M' D D' E.
  assert (L : forall y mo d, List.length (ymd_text y mo d) = (if (y <=? -1000)%Z then 11 else 10)%nat).
  { intros. unfold ymd_text. rewrite !app_length, !columns_len. unfold year_text. destruct (y0 <? 0) eqn:A, (y0 <=? -1000) eqn:B; try lia; rewrite ?app_length, columns_len; reflexivity. }
  pose proof (f_equal (@List.length _) E) as LL. rewrite !L in LL.
  assert (YB : (y <=? -1000) = (y' <=? -1000)) by (destruct (y <=? -1000), (y' <=? -1000); congruence).
  assert (R : forall y mo d, ymd_text y mo d = year_text y ++ (str "-" ++ columns 2 mo ++ str "-" ++ columns 2 d)) by reflexivity.
  assert (LY : forall y, List.length (year_text y) = (if (y <=? -1000)%Z then 5 else 4)%nat).
  { intros. unfold year_text. destruct (y0 <? 0) eqn:A, (y0 <=? -1000) eqn:B; try lia; rewrite ?app_length, columns_len; reflexivity. }
  rewrite !R in E. apply app_inj_len in E; [|rewrite !LY, YB; reflexivity]. destruct E as [EY E].
  assert (mo = mo') by (apply (f_equal (slice 1 3)) in E; apply (columns_inj 2); [cbn; lia|cbn; lia|exact E]).
  assert (d = d') by (apply (f_equal (skipn 4)) in E; apply (columns_inj 2); [cbn; lia|cbn; lia|exact E]).
  assert (y = y'); [|congruence].
  unfold year_text in EY. rewrite YB in EY. destruct (y <? 0) eqn:A, (y' <? 0) eqn:B.
  - cbn [str list_ascii_of_string map app] in EY. apply (f_equal (@tl _)) in EY. cbn [tl] in EY.
    destruct (y' <=? -1000) eqn:C; apply columns_inj in EY; cbn; lia.
  - exfalso. apply (f_equal (fun l => hd 0 l)) in EY. destruct (head_columns 4 y' ltac:(lia)) as (c & r & Q & G). rewrite Q in EY. cbn in EY. unfold is_digit in G. lia.
  - exfalso. apply (f_equal (fun l => hd 0 l)) in EY. destruct (head_columns 4 y ltac:(lia)) as (c & r & Q & G). rewrite Q in EY. cbn in EY. unfold is_digit in G. lia.
  - apply columns_inj in EY; cbn; lia.
Qed.
Print Assumptions C29_text_determines_day.

Lemma no_marks y mo d : count 84 (ymd_text y mo d) = 0%nat /\ count 32 (ymd_text y mo d) = 0%nat.
Proof.
  unfold ymd_text, year_text. split; rewrite !count_app, !count_columns by reflexivity; destruct (y <? 0); rewrite ?count_app, ?count_columns by reflexivity; reflexivity.
Qed.
Lemma parse_ymd rnd m y mo d : -1842 <= y <= 1161 -> (0 <= y \/ y <= -1000) -> 0 <= mo < 100 -> 0 <= d < 100 -> parse_date rnd m (ymd_text y mo d) = Ok [y; mo; d].
Proof.
  intros Y C M D. unfold ymd_text, year_text.
  assert (B : existsb (fun c => negb (is_digit c) && negb ((c =? 45) || (c =? 87))) (str "-" ++ columns 2 mo ++ str "-" ++ columns 2 d) = false).
  { rewrite !existsb_app, !(existsb_columns 2) by (intros c H; rewrite H; reflexivity). reflexivity. }
  destruct (y <? 0) eqn:S.
  - replace (y <=? -1000) with true by lia.
    change ((str "-" ++ columns 4 (- y)) ++ str "-" ++ columns 2 mo ++ str "-" ++ columns 2 d) with (45 :: columns 4 (- y) ++ str "-" ++ columns 2 mo ++ str "-" ++ columns 2 d).
    rewrite parse_neg by (try assumption; lia). apply tail_ymd; assumption.
  - rewrite parse_pos by (try assumption; lia). apply tail_ymd; assumption.
Qed.
Lemma from_fields rnd m s short y mo d : Nearest rnd -> evening rnd m -> count 84 s = 0%nat -> count 32 s = 0%nat -> parse_date rnd m s = Ok [y; mo; d] ->
  okd y mo d -> date_fromisoformat rnd m s short = Ok (form_of rnd short y mo d).
Proof.
  intros N E T0 S0 P K. unfold date_fromisoformat. rewrite T0, S0, P. cbn [Nat.ltb Nat.leb orb].
  destruct short; [rewrite (new_short rnd N m E y mo d K); reflexivity|].
  destruct (long_bd rnd N m E y mo d ltac:(unfold okd in K; lia) ltac:(unfold okd in K; lia) ltac:(unfold okd in K; lia)) as (k & v & yy & Q & L & KR & V & YY).
  change (sd y mo d) with (bd y mo d). rewrite Q. cbn [bind]. unfold bdate_fields, ld. cbn [l_k l_v l_y l_m l_d l_t map app]. rewrite Qfloor_Z.
  rewrite (new_long rnd N m E k v yy mo d V YY) by (rewrite L; exact K). f_equal. unfold form_of.
  rewrite <- L, (long_year_unique rnd N) by (rewrite ?L; unfold okd in K; lia). reflexivity.
Qed.
(** fromisoformat() inverts isoformat(), in both forms, except for the years -999 to -1 ... *)
Theorem C29_roundtrip : forall rnd m a y mo d, Nearest rnd -> evening rnd m -> supported rnd m a y mo d -> 0 <= y \/ y <= -1000 ->
  exists t, date_isoformat rnd m a = Ok t /\ date_fromisoformat rnd m t (is_short a) = Ok a.
Proof.
  intros rnd m a y mo d N E S C. exists (ymd_text y mo d). split; [apply C29_isoformat_text; assumption|].
  destruct (sup_ok rnd m a y mo d N E S) as (D & K & Y). destruct (no_marks y mo d) as [A B]. pose proof (ok_small y mo d K).
  rewrite (from_fields rnd m _ (is_short a) y mo d N E A B (parse_ymd rnd m y mo d ltac:(unfold okd in K; lia) C ltac:(lia) ltac:(lia)) K).
  rewrite <- (denotes_form_of rnd N a y mo d D K). reflexivity.
Qed.
Print Assumptions C29_roundtrip.
(** ... whose texts it refuses. *)
Theorem C29_three_digit_years_refused : forall rnd m y mo d short, -999 <= y <= -1 -> 0 <= mo <= 19 -> 1 <= d <= 19 ->
  date_fromisoformat rnd m (ymd_text y mo d) short = Err ValueError.
Proof.
  intros rnd m y mo d short Y M D. unfold date_fromisoformat. destruct (no_marks y mo d) as [-> ->]. cbn [Nat.ltb Nat.leb orb].
  assert (P : parse_date rnd m (ymd_text y mo d) = Err ValueError); [|rewrite P; reflexivity].
  unfold ymd_text, year_text. replace (y <? 0) with true by lia. replace (y <=? -1000) with false by lia.
  change ((str "-" ++ columns 3 (- y)) ++ str "-" ++ columns 2 mo ++ str "-" ++ columns 2 d) with (45 :: columns 3 (- y) ++ str "-" ++ columns 2 mo ++ str "-" ++ columns 2 d).
  unfold parse_date. cbn [existsb]. rewrite !existsb_app, !existsb_columns by (intros c H; rewrite H; reflexivity). cbn [orb existsb str list_ascii_of_string map negb andb Z.eqb Pos.eqb is_digit].
  match goal with |- (if ?b then _ else _) = _ => change b with false end. cbn match.
  cbv zeta. change (45 =? 45) with true. cbn match. replace (slice 0 5 _) with (45 :: columns 3 (- y) ++ [45]) by reflexivity.
  assert (Q : pyint (45 :: columns 3 (- y) ++ [45]) = Err ValueError).
  { unfold pyint, strip. cbn [lstrip Z.eqb Pos.eqb rev]. rewrite rev_app_distr. cbn [rev app lstrip Z.eqb Pos.eqb].
    cbn [rev]. rewrite rev_app_distr, rev_involutive. cbn [rev app Z.eqb Pos.eqb]. unfold digits_int.
    destruct (columns 3 (- y) ++ [45]) eqn:Q; [apply app_eq_nil in Q as [_ Q]; discriminate|]. rewrite <- Q, forallb_app. cbn. rewrite andb_false_r. reflexivity. }
  rewrite Q. reflexivity.
Qed.
Print Assumptions C29_three_digit_years_refused.
(** Whatever the text, a date that fromisoformat() returns is a day of the calendar. *)
Theorem C29_accepts_only_days : forall rnd m s a, Nearest rnd -> evening rnd m -> date_fromisoformat rnd m s true = Ok a ->
  exists y mo d, a = DShort y mo d /\ -1843 <= y <= 1162 /\ valid_bday (leap_of rnd m) y mo d.
Proof.
  intros rnd m s a N E H. unfold date_fromisoformat in H. destruct (_ || _); [discriminate|]. destruct (parse_date rnd m s) as [date|] eqn:P; [|discriminate].
  assert (L : date <> [] -> (List.length date <= 3)%nat).
  { intros _. clear H. unfold parse_date in P. destruct (existsb _ s); [discriminate|]. destruct s as [|c0 tl]; [injection P as <-; cbn; lia|].
    destruct (pyint _) as [year|]; [|discriminate]. cbn [bind] in P. destruct (passert _); [|discriminate]. cbn [bind] in P. unfold parse_date_tail in P.
    destruct (passert _); [|discriminate]. cbn [bind] in P.
    repeat match type of P with
    | (if ?b then _ else _) = _ => destruct b
    | bind ?x _ = Ok _ => destruct x; [cbn [bind] in P|discriminate]
    | (let '(_, _) := ?x in _) = _ => destruct x
    | Ok _ = Ok _ => injection P as <-; cbn [List.length]; try lia; try (destruct (bdate_fields _) as [|? [|? [|? ?]]]; cbn [List.length]; lia)
    end. }
  destruct date as [|y [|mo [|d [|x l]]]]; [discriminate|discriminate|discriminate| |exfalso; specialize (L ltac:(discriminate)); cbn [List.length] in L; lia].
  unfold date_new in H. destruct (check_short rnd (year_table rnd m) (sd y mo d)) eqn:C; [|discriminate]. cbn [bind] in H. injection H as <-. exists y, mo, d. split; [reflexivity|].
  destruct (check_short_range rnd m (sd y mo d) ltac:(destruct a0; exact C)) as [Y M]. cbn [sd s_y s_m] in Y, M.
  split; [exact Y|]. destruct (Z.eq_dec y 1162) as [->|NE]; [|apply (valid_iff rnd N m E); [lia|destruct a0; exact C]].
  unfold check_short, check_mdt in C. cbn [sd s_y s_m s_d s_t get_hms] in C. destruct (passert _); [|discriminate]. cbn [bind] in C.
  destruct (passert _); [|discriminate]. cbn [bind] in C. unfold valid_bday. split; [exact M|]. unfold bmonth_len. destruct (mo =? 0) eqn:MZ.
  - rewrite (is_leap_err rnd N m E 1162 ltac:(lia)) in C. discriminate.
  - cbn [bind] in C. destruct (passert (Qleb 1 (inject_Z d) && Qltb (inject_Z d) (inject_Z 20))) eqn:DD; [|discriminate].
    unfold passert in DD. destruct (_ && _) eqn:DB; [|discriminate]. change 1%Q with (inject_Z 1) in DB. rewrite Qleb_Z, Qltb_Z in DB. lia.
Qed.
Print Assumptions C29_accepts_only_days.
Example C29_case : supported b64 sample_sun (DLong 1 10 10 0 4) 181 0 4 /\ date_isoformat b64 sample_sun (DLong 1 10 10 0 4) = Ok (str "0181-00-04") /\
  date_fromisoformat b64 sample_sun (str "0181-00-04") false = Ok (DLong 1 10 10 0 4) /\
  date_isoformat b64 sample_sun (DShort (-1000) 19 19) = Ok (str "-1000-19-19") /\ date_fromisoformat b64 sample_sun (str "-1000-19-19") true = Ok (DShort (-1000) 19 19) /\
  date_isoformat b64 sample_sun (DShort (-999) 19 19) = Ok (str "-999-19-19") /\ date_fromisoformat b64 sample_sun (str "-999-19-19") true = Err ValueError.
Proof. split; [sup|vm_compute; tauto]. Qed.
