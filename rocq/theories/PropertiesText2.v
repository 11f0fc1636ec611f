(** PropertiesText2.v -- C30: the other ISO date forms; C32: ISO offsets. *)
From Coq Require Import ZArith QArith Qround List Bool Lia String.
From Coq Require Import ZifyBool ZifyNat ZifyN.
From Verif Require Import Base Flt BaseModel BadiModel SpecBadi BadiProofs BadiProofs2 BadiProofs3 DecProofs BadiProofs4 LongYear LongProofs BadiProofs5
  TduModel DateModel SpecDate TduProofs TduProofs2 TduProofs3 DateProofs SampleSun PropertiesBadi PropertiesDate PropertiesDate2 TimeModel SpecTime TimeProofs TextModel SpecText TextProofs TextProofs2 PropertiesText.
Import ListNotations.
Local Open Scope Z_scope.
Ltac Zify.zify_post_hook ::= Z.div_mod_to_equations.

Notation badc := (fun c => negb (is_digit c) && negb ((c =? 45) || (c =? 87))).
Lemma parse_signed rnd m y tl : -1842 <= y <= 1161 -> existsb badc tl = false ->
  parse_date rnd m (signed_year y ++ tl) = parse_date_tail rnd m y (columns 4 (Z.abs y) ++ tl).
Proof.
  intros Y B. unfold signed_year. destruct (y <? 0) eqn:S.
  - change ((str "-" ++ columns 4 (- y)) ++ tl) with (45 :: columns 4 (- y) ++ tl). rewrite parse_neg by (try assumption; lia). rewrite Z.abs_neq by lia. reflexivity.
  - rewrite parse_pos by (try assumption; lia). rewrite Z.abs_eq by lia. reflexivity.
Qed.
Ltac goodc := rewrite ?existsb_app, ?existsb_columns by (let c := fresh in let h := fresh in intros c h; rewrite h; reflexivity); reflexivity.
Lemma count_dash c : c <> 45 -> count c (str "-") = 0%nat.
Proof. intro H. change (str "-") with [45]. unfold count. cbn [filter]. destruct (Z.eqb_spec c 45); [contradiction|reflexivity]. Qed.
Lemma marks_signed c y tl : is_digit c = false -> c <> 45 -> count c tl = 0%nat -> count c (signed_year y ++ tl) = 0%nat.
Proof.
  intros D N C. rewrite count_app, C. unfold signed_year. destruct (y <? 0); rewrite ?count_app, count_columns by assumption; [|reflexivity].
  rewrite count_dash by assumption. reflexivity.
Qed.

(** The text with a sign and four columns is read for every year, also those whose isoformat() text is refused. *)
Theorem C29_signed_text : forall rnd m a y mo d, Nearest rnd -> evening rnd m -> supported rnd m a y mo d ->
  date_fromisoformat rnd m (signed_year y ++ str "-" ++ columns 2 mo ++ str "-" ++ columns 2 d) (is_short a) = Ok a.
Proof.
  intros rnd m a y mo d N E S. destruct (sup_ok rnd m a y mo d N E S) as (D & K & Y). pose proof (ok_small y mo d K).
  rewrite (from_fields rnd m _ (is_short a) y mo d N E).
  - rewrite <- (denotes_form_of rnd N a y mo d D K). reflexivity.
  - apply marks_signed; [reflexivity|lia|]. ctext; reflexivity.
  - apply marks_signed; [reflexivity|lia|]. ctext; reflexivity.
  - rewrite parse_signed; [apply tail_ymd; lia|unfold okd in K; lia|goodc].
  - exact K.
Qed.
Print Assumptions C29_signed_text.
Example C29_signed_case : supported b64 sample_sun (DShort (-999) 19 19) (-999) 19 19 /\
  date_fromisoformat b64 sample_sun (str "-0999-19-19") true = Ok (DShort (-999) 19 19).
Proof. split; [sup|vm_compute; reflexivity]. Qed.

(** ** C30 *)
(** YYYY-MM is the first day of the month. *)
Theorem C30_year_month : forall rnd m y mo, Nearest rnd -> evening rnd m -> -1842 <= y <= 1161 -> 0 <= mo <= 19 ->
  date_fromisoformat rnd m (signed_year y ++ str "-" ++ columns 2 mo) true = Ok (DShort y mo 1).
Proof.
  intros rnd m y mo N E Y M. rewrite (from_fields rnd m _ true y mo 1 N E).
  - reflexivity.
  - apply marks_signed; [reflexivity|lia|]. ctext; reflexivity.
  - apply marks_signed; [reflexivity|lia|]. ctext; reflexivity.
  - rewrite parse_signed; [apply tail_ym; lia|lia|goodc].
  - unfold okd, bmonth_len. destruct (mo =? 0), (zleap y); lia.
Qed.
Print Assumptions C30_year_month.
(** YYYYMMDD: the tens digit of the day is not looked at. *)
Lemma basic_parse rnd m y mo d : -1842 <= y <= 1161 -> 0 <= mo < 100 -> 0 <= d < 100 ->
  parse_date rnd m (signed_year y ++ columns 2 mo ++ columns 2 d) = Ok [y; mo; d mod 10].
Proof. intros Y M D. rewrite parse_signed; [apply tail_basic; assumption|exact Y|goodc]. Qed.
Theorem C30_basic_tens_digit_ignored : forall rnd m y mo d, Nearest rnd -> evening rnd m -> -1842 <= y <= 1161 -> valid_bday (leap_of rnd m) y mo d ->
  date_fromisoformat rnd m (signed_year y ++ columns 2 mo ++ columns 2 d) true =
  if d =? 10 then Err AssertionError else Ok (DShort y mo (d mod 10)).
Proof.
  intros rnd m y mo d N E Y V. pose proof V as (M & D). rewrite (leap_of_ok rnd N m E) in D by lia.
  assert (D19 : 1 <= d <= 19) by (revert D; unfold bmonth_len; destruct (mo =? 0), (zleap y); lia).
  assert (A : count 84 (signed_year y ++ columns 2 mo ++ columns 2 d) = 0%nat) by (apply marks_signed; [reflexivity|lia|]; ctext; reflexivity).
  assert (B : count 32 (signed_year y ++ columns 2 mo ++ columns 2 d) = 0%nat) by (apply marks_signed; [reflexivity|lia|]; ctext; reflexivity).
  pose proof (basic_parse rnd m y mo d Y ltac:(lia) ltac:(lia)) as P.
  destruct (Z.eqb_spec d 10) as [->|ND].
  - unfold date_fromisoformat. rewrite A, B, P. cbn [Nat.ltb Nat.leb orb]. change (10 mod 10) with 0.
    apply (C11_date_short rnd m y mo 0 N E Y). unfold valid_bday. lia.
  - apply (from_fields rnd m _ true y mo (d mod 10) N E A B P). unfold okd. unfold bmonth_len in *. destruct (mo =? 0), (zleap y); lia.
Qed.
Print Assumptions C30_basic_tens_digit_ignored.
(** So the basic form is read correctly for days 1 to 9 and for no other day. *)
Theorem C30_basic_refuted : forall rnd m y mo d, Nearest rnd -> evening rnd m -> -1842 <= y <= 1161 -> valid_bday (leap_of rnd m) y mo d ->
  (date_fromisoformat rnd m (signed_year y ++ columns 2 mo ++ columns 2 d) true = Ok (DShort y mo d) <-> d <= 9).
Proof.
  intros rnd m y mo d N E Y V. rewrite (C30_basic_tens_digit_ignored rnd m y mo d N E Y V). destruct V as [_ D].
  assert (D19 : 1 <= d <= 19) by (revert D; unfold bmonth_len; destruct (mo =? 0), (leap_of rnd m y); lia).
  destruct (Z.eqb_spec d 10); split; intro H.
  - discriminate.
  - lia.
  - injection H as H. lia.
  - do 2 f_equal. lia.
Qed.
Print Assumptions C30_basic_refuted.
(** YYYYDDD and YYYY-DDD: the DDD-th day of the year. *)
Lemma find_month_ok leap n : 1 <= n <= 361 + bmonth_len leap 0 ->
  let '(mo, d) := find_month (month_days leap) n 0 in 0 <= mo <= 19 /\ 1 <= d <= bmonth_len leap mo /\ bday_of_year leap mo d = n.
Proof.
  intro R.
  assert (K : forallb (fun leap => forallb (fun n => if n <=? 361 + bmonth_len leap 0 then let '(mo, d) := find_month (month_days leap) n 0 in
    (0 <=? mo) && (mo <=? 19) && (1 <=? d) && (d <=? bmonth_len leap mo) && (bday_of_year leap mo d =? n) else true) (zlist 1 366)) [true; false] = true) by (vm_compute; reflexivity).
  rewrite forallb_forall in K. specialize (K leap ltac:(destruct leap; cbn; tauto)).
  pose proof (zforall _ _ _ K n) as Q. cbn beta in Q. specialize (Q ltac:(unfold bmonth_len in R; cbn in R; destruct leap; lia)).
  destruct (n <=? _) eqn:B; [|lia]. destruct (find_month (month_days leap) n 0) as [mo d]. lia.
Qed.
Lemma find_month_big leap n : 361 + bmonth_len leap 0 < n <= 999 -> find_month (month_days leap) n 0 = (19, n - 361 - bmonth_len leap 0).
Proof.
  intro R. cbn in R.
  assert (K : forallb (fun leap => forallb (fun n => if 361 + bmonth_len leap 0 <? n then let '(mo, d) := find_month (month_days leap) n 0 in
    (mo =? 19) && (d =? n - 361 - bmonth_len leap 0) else true) (zlist 1 999)) [true; false] = true) by (vm_compute; reflexivity).
  rewrite forallb_forall in K. specialize (K leap ltac:(destruct leap; cbn; tauto)).
  pose proof (zforall _ _ _ K n) as Q. cbn beta in Q. specialize (Q ltac:(destruct leap; lia)). unfold bmonth_len in *. cbn [Z.eqb] in *.
  destruct (_ <? n) eqn:B; [|destruct leap; lia]. destruct (find_month (month_days leap) n 0) as [mo d]. apply andb_true_iff in Q as [Q1 Q2]. apply Z.eqb_eq in Q1, Q2. congruence.
Qed.
Lemma doy_parse rnd m x y n : Nearest rnd -> evening rnd m -> -1842 <= y <= 1161 -> 0 <= n < 1000 ->
  parse_date rnd m (signed_year y ++ dash x ++ columns 3 n) = let '(mo, d) := find_month (month_days (zleap y)) n 0 in Ok [y; mo; d].
Proof.
  intros N E Y R. rewrite parse_signed; [|exact Y|destruct x; goodc].
  apply tail_doy; [apply (is_leap_ok rnd N m E); lia|exact R].
Qed.
Lemma doy_marks c x y n : is_digit c = false -> c <> 45 -> count c (signed_year y ++ dash x ++ columns 3 n) = 0%nat.
Proof.
  intros D C. apply marks_signed; try assumption. rewrite count_app, count_columns by exact D. destruct x; [|reflexivity]. unfold dash.
  rewrite count_dash by assumption. reflexivity.
Qed.
Theorem C30_day_of_year : forall rnd m x y n, Nearest rnd -> evening rnd m -> -1842 <= y <= 1161 -> 1 <= n <= 361 + bmonth_len (leap_of rnd m y) 0 ->
  exists mo d, date_fromisoformat rnd m (signed_year y ++ dash x ++ columns 3 n) true = Ok (DShort y mo d) /\
    valid_bday (leap_of rnd m) y mo d /\ bday_of_year (leap_of rnd m y) mo d = n.
Proof.
  intros rnd m x y n N E Y R. rewrite (leap_of_ok rnd N m E) in R by lia. pose proof (find_month_ok (zleap y) n R) as F.
  assert (R' : 0 <= n < 1000) by (unfold bmonth_len in R; cbn in R; destruct (zleap y); lia).
  pose proof (doy_parse rnd m x y n N E Y R') as P. destruct (find_month (month_days (zleap y)) n 0) as [mo d]. exists mo, d.
  split; [|unfold valid_bday; rewrite (leap_of_ok rnd N m E) by lia; tauto].
  apply (from_fields rnd m _ true y mo d N E); [apply doy_marks; [reflexivity|lia]|apply doy_marks; [reflexivity|lia]|exact P|]. unfold okd. split; [lia|tauto].
Qed.
Print Assumptions C30_day_of_year.
(** Up to nineteen days past the end of the year the text is not refused but read as a day of month 19. *)
Theorem C30_day_of_year_overflow_refuted : forall rnd m x y n, Nearest rnd -> evening rnd m -> -1842 <= y <= 1161 ->
  let len := 361 + bmonth_len (leap_of rnd m y) 0 in len < n <= len + 19 ->
  date_fromisoformat rnd m (signed_year y ++ dash x ++ columns 3 n) true = Ok (DShort y 19 (n - len)).
Proof.
  intros rnd m x y n N E Y len R. unfold len in *. rewrite (leap_of_ok rnd N m E) in * by lia.
  assert (R' : 365 < n < 1000) by (unfold bmonth_len in R; cbn in R; destruct (zleap y); lia).
  pose proof (doy_parse rnd m x y n N E Y ltac:(lia)) as P. rewrite find_month_big in P by lia.
  rewrite (from_fields rnd m _ true y 19 (n - 361 - bmonth_len (zleap y) 0) N E); [unfold form_of; do 2 f_equal; lia|apply doy_marks; [reflexivity|lia]|apply doy_marks; [reflexivity|lia]|exact P|].
  unfold okd. split; [lia|]. split; [lia|]. change (bmonth_len (zleap y) 19) with 19. lia.
Qed.
Print Assumptions C30_day_of_year_overflow_refuted.
(** Day 0, and days further past the end, are refused (with AssertionError). *)
Theorem C30_day_of_year_refused : forall rnd m x y n, Nearest rnd -> evening rnd m -> -1842 <= y <= 1161 ->
  n = 0 \/ 380 + bmonth_len (leap_of rnd m y) 0 < n <= 999 ->
  date_fromisoformat rnd m (signed_year y ++ dash x ++ columns 3 n) true = Err AssertionError.
Proof.
  intros rnd m x y n N E Y R. unfold date_fromisoformat.
  rewrite !doy_marks by (try reflexivity; lia). cbn [Nat.ltb Nat.leb orb].
  assert (R' : 0 <= n < 1000) by (unfold bmonth_len in R; cbn in R; destruct (leap_of rnd m y); lia).
  rewrite (doy_parse rnd m x y n N E Y R'). rewrite (leap_of_ok rnd N m E) in R by lia. destruct R as [->|R].
  - replace (find_month (month_days (zleap y)) 0 0) with (1, 0) by (destruct (zleap y); reflexivity).
    apply (C11_date_short rnd m y 1 0 N E Y). unfold valid_bday. lia.
  - rewrite find_month_big by (unfold bmonth_len in *; cbn in *; destruct (zleap y); lia).
    apply (C11_date_short rnd m y _ _ N E Y). unfold valid_bday. change (bmonth_len (leap_of rnd m y) 19) with 19. lia.
Qed.
Print Assumptions C30_day_of_year_refused.
(** YYYYWwwD and YYYY-Www-D give what fromisocalendar() gives. *)
Theorem C30_week : forall rnd m x y w d a, -1842 <= y <= 1161 -> 0 <= w <= 99 -> 0 <= d <= 9 ->
  (date_fromisoformat rnd m (signed_year y ++ dash x ++ str "W" ++ columns 2 w ++ dash x ++ columns 1 d) true = Ok a <->
   fromisocalendar rnd m true y w d = Ok a).
Proof.
  intros rnd m x y w d a Y W D. unfold date_fromisoformat, fromisocalendar.
  rewrite !marks_signed by (try lia; try reflexivity; destruct x; unfold dash; ctext; reflexivity). cbn [Nat.ltb Nat.leb orb].
  assert (P : parse_date rnd m (signed_year y ++ dash x ++ str "W" ++ columns 2 w ++ dash x ++ columns 1 d) =
    let* b := isoweek_to_badi rnd m true y w d in Ok (firstn 3 (bdate_fields b))).
  { rewrite parse_signed; [|exact Y|destruct x; goodc]. apply tail_week; lia. }
  rewrite P. destruct (isoweek_to_badi rnd m true y w d) as [b|]; cbn [bind]; [|split; discriminate].
  destruct (firstn 3 (bdate_fields b)) as [|h t] eqn:F; [|reflexivity]. destruct b; discriminate.
Qed.
Print Assumptions C30_week.
Example C30_case :
  date_fromisoformat b64 sample_sun (str "0181-365") true = Ok (DShort 181 19 19) /\ date_fromisoformat b64 sample_sun (str "-0005347") true = Ok (DShort (-5) 19 1) /\
  date_fromisoformat b64 sample_sun (str "0181366") true = Ok (DShort 181 19 1) /\ date_fromisoformat b64 sample_sun (str "0181-999") true = Err AssertionError /\
  date_fromisoformat b64 sample_sun (str "01810115") true = Ok (DShort 181 1 5) /\ date_fromisoformat b64 sample_sun (str "01810105") true = Ok (DShort 181 1 5) /\
  date_fromisoformat b64 sample_sun (str "0181-W02-1") true = fromisocalendar b64 sample_sun true 181 2 1 /\ date_fromisoformat b64 sample_sun (str "0181W021") true = Ok (DShort 181 1 5) /\
  date_fromisoformat b64 sample_sun (str "0181-07") true = Ok (DShort 181 7 1) /\ 361 + bmonth_len (leap_of b64 sample_sun 181) 0 = 365 /\ 361 + bmonth_len (leap_of b64 sample_sun (-5)) 0 = 365.
Proof. vm_compute. tauto. Qed.

(** ** C32: ISO offsets *)
Lemma split_digits s : forallb is_digit s = true -> forall c, is_digit c = false -> split c s = [s].
Proof.
  induction s as [|x r IH]; intros H c C; [reflexivity|]. cbn in H. apply andb_true_iff in H as [X H]. cbn [split].
  destruct (Z.eqb_spec x c) as [->|]; [congruence|]. rewrite (IH H c C). reflexivity.
Qed.
Lemma split_two s t c : forallb is_digit s = true -> forallb is_digit t = true -> is_digit c = false -> split c (s ++ [c] ++ t) = [s; t].
Proof.
  induction s as [|x r IH]; intros H K C.
  - cbn [app split]. rewrite Z.eqb_refl, (split_digits t K c C). reflexivity.
  - cbn in H. apply andb_true_iff in H as [X H]. cbn [app split] in *. destruct (Z.eqb_spec x c) as [->|]; [congruence|]. rewrite (IH H K C). reflexivity.
Qed.
Notation badz := (fun c => negb (is_digit c) && negb ((c =? 90) || (c =? 66) || (c =? 43) || (c =? 45) || (c =? 58))).
Definition sign_char (neg : bool) : Z := if neg then 45 else 43.
Lemma offset_parse neg h mi : 0 <= h <= 23 -> 0 <= mi <= 99 ->
  parse_timezone (sign_char neg :: hm_text h mi) =
  let off := (if neg then - h else h) * 3600000000 + mi * 60000000 in
  if (- 86399999999 <=? off) && (off <=? 86399999999) then Ok (Some off) else Err ValueError.
Proof.
  intros H M. unfold parse_timezone, hm_text. change (str ":") with [58].
  replace (existsb badz (sign_char neg :: columns 2 h ++ [58] ++ columns 2 mi)) with false.
  2:{ symmetry. cbn [existsb]. rewrite !existsb_app, !existsb_columns by (intros c D; rewrite D; reflexivity). destruct neg; reflexivity. }
  replace (count 45 (sign_char neg :: columns 2 h ++ [58] ++ columns 2 mi)) with (if neg then 1 else 0)%nat by (symmetry; change (sign_char neg :: columns 2 h ++ [58] ++ columns 2 mi) with ([sign_char neg] ++ columns 2 h ++ [58] ++ columns 2 mi); rewrite !count_app, !count_columns by reflexivity; destruct neg; reflexivity).
  replace (count 43 (sign_char neg :: columns 2 h ++ [58] ++ columns 2 mi)) with (if neg then 0 else 1)%nat by (symmetry; change (sign_char neg :: columns 2 h ++ [58] ++ columns 2 mi) with ([sign_char neg] ++ columns 2 h ++ [58] ++ columns 2 mi); rewrite !count_app, !count_columns by reflexivity; destruct neg; reflexivity).
  replace (count 90 (sign_char neg :: columns 2 h ++ [58] ++ columns 2 mi)) with 0%nat by (symmetry; change (sign_char neg :: columns 2 h ++ [58] ++ columns 2 mi) with ([sign_char neg] ++ columns 2 h ++ [58] ++ columns 2 mi); rewrite !count_app, !count_columns by reflexivity; destruct neg; reflexivity).
  replace (count 66 (sign_char neg :: columns 2 h ++ [58] ++ columns 2 mi)) with 0%nat by (symmetry; change (sign_char neg :: columns 2 h ++ [58] ++ columns 2 mi) with ([sign_char neg] ++ columns 2 h ++ [58] ++ columns 2 mi); rewrite !count_app, !count_columns by reflexivity; destruct neg; reflexivity).
  replace (count 58 (sign_char neg :: columns 2 h ++ [58] ++ columns 2 mi)) with 1%nat by (symmetry; change (sign_char neg :: columns 2 h ++ [58] ++ columns 2 mi) with ([sign_char neg] ++ columns 2 h ++ [58] ++ columns 2 mi); rewrite !count_app, !count_columns by reflexivity; destruct neg; reflexivity).
  rewrite (split_two (columns 2 h) (columns 2 mi) 58) by (try apply columns_digits; reflexivity).
  replace (List.length _) with 6%nat by reflexivity.
  rewrite !pyint_columns by (cbn; lia). unfold HOUR, MINUTE, DAY.
  destruct neg; cbn [sign_char count filter Z.eqb Pos.eqb str list_ascii_of_string map List.length Nat.add Nat.leb passert bind negb orb andb Nat.ltb Nat.eqb fst snd].
  - replace (h * -1) with (- h) by lia.
    match goal with |- context [?a || ?b] => replace (a || b) with false by lia end.
    change (- (86400000000 - 1)) with (-86399999999). change (86400000000 - 1) with 86399999999. reflexivity.
  - match goal with |- context [?a || ?b] => replace (a || b) with false by lia end.
    change (- (86400000000 - 1)) with (-86399999999). change (86400000000 - 1) with 86399999999. reflexivity.
Qed.
Lemma offset_minutes o : -86400000000 < o < 86400000000 -> whole_minutes o ->
  offset_text o = sign_char (o <? 0) :: hm_text (Z.abs o / 3600000000) (Z.abs o / 60000000 mod 60).
Proof.
  intros R W. unfold whole_minutes in W. unfold offset_text. replace (Z.abs o mod 60000000 =? 0) with true by lia. rewrite app_nil_r. destruct (o <? 0); reflexivity.
Qed.
(** A whole-minute offset that is positive, zero or a whole number of hours is read back. *)
Theorem C32_roundtrip : forall o, -86400000000 < o < 86400000000 -> whole_minutes o -> 0 <= o \/ o mod 3600000000 = 0 ->
  parse_timezone (offset_text o) = Ok (Some o).
Proof.
  intros o R W C. rewrite offset_minutes by assumption. unfold whole_minutes in W. rewrite offset_parse by lia. cbv zeta.
  assert (V : (if o <? 0 then - (Z.abs o / 3600000000) else Z.abs o / 3600000000) * 3600000000 + Z.abs o / 60000000 mod 60 * 60000000 = o).
  { destruct (Z.ltb_spec o 0); lia. }
  rewrite V. replace (_ && _) with true by lia. reflexivity.
Qed.
Print Assumptions C32_roundtrip.
(** The minutes of every other negative offset are read with the wrong sign. *)
Theorem C32_negative_minutes_refuted : forall o, -86400000000 < o < 0 -> whole_minutes o -> o mod 3600000000 <> 0 ->
  exists o', parse_timezone (offset_text o) = Ok (Some o') /\ o' <> o /\ o' - o = 2 * (- o mod 3600000000).
Proof.
  intros o R W C. rewrite offset_minutes by (try assumption; lia). unfold whole_minutes in W. rewrite offset_parse by lia. cbv zeta.
  eexists. split; [|split].
  - replace (_ && _) with true; [reflexivity|]. symmetry. destruct (Z.ltb_spec o 0); lia.
  - destruct (Z.ltb_spec o 0); lia.
  - destruct (Z.ltb_spec o 0); lia.
Qed.
Print Assumptions C32_negative_minutes_refuted.
(** Offsets with seconds are refused. *)
Theorem C32_seconds_refused : forall o, -86400000000 < o < 86400000000 -> ~ whole_minutes o ->
  parse_timezone (offset_text o) = Err AssertionError \/ parse_timezone (offset_text o) = Err ValueError.
Proof.
  intros o R W. unfold whole_minutes in W. unfold offset_text, hm_text, parse_timezone. set (a := Z.abs o). replace (a mod 60000000 =? 0) with false by lia.
  destruct (existsb _ _); [right; reflexivity|]. left.
  rewrite !count_app, !count_columns by reflexivity. destruct (o <? 0); destruct (a mod 1000000 =? 0); rewrite ?count_app, ?count_columns by reflexivity; reflexivity.
Qed.
Print Assumptions C32_seconds_refused.
Theorem C32_letters : parse_timezone (str "Z") = Ok (Some 0) /\ parse_timezone (str "B") = Ok (Some 12600000000) /\ parse_timezone [] = Ok None.
Proof. repeat split. Qed.
Print Assumptions C32_letters.
(** The basic form of an offset is read as a number of hours. *)
Theorem C32_basic_form_refuted : forall neg h mi, 0 <= h <= 23 -> 0 <= mi <= 59 ->
  parse_timezone (sign_char neg :: columns 2 h ++ columns 2 mi) =
  if h * 100 + mi <=? 23 then Ok (Some ((if neg then -1 else 1) * (h * 100 + mi) * 3600000000)) else Err ValueError.
Proof.
  intros neg h mi H M. unfold parse_timezone.
  replace (existsb badz (sign_char neg :: columns 2 h ++ columns 2 mi)) with false.
  2:{ symmetry. cbn [existsb]. rewrite !existsb_app, !existsb_columns by (intros c D; rewrite D; reflexivity). destruct neg; reflexivity. }
  replace (count 45 (sign_char neg :: columns 2 h ++ columns 2 mi)) with (if neg then 1 else 0)%nat by (symmetry; change (sign_char neg :: columns 2 h ++ columns 2 mi) with ([sign_char neg] ++ columns 2 h ++ columns 2 mi); rewrite !count_app, !count_columns by reflexivity; destruct neg; reflexivity).
  replace (count 43 (sign_char neg :: columns 2 h ++ columns 2 mi)) with (if neg then 0 else 1)%nat by (symmetry; change (sign_char neg :: columns 2 h ++ columns 2 mi) with ([sign_char neg] ++ columns 2 h ++ columns 2 mi); rewrite !count_app, !count_columns by reflexivity; destruct neg; reflexivity).
  replace (count 90 (sign_char neg :: columns 2 h ++ columns 2 mi)) with 0%nat by (symmetry; change (sign_char neg :: columns 2 h ++ columns 2 mi) with ([sign_char neg] ++ columns 2 h ++ columns 2 mi); rewrite !count_app, !count_columns by reflexivity; destruct neg; reflexivity).
  replace (count 66 (sign_char neg :: columns 2 h ++ columns 2 mi)) with 0%nat by (symmetry; change (sign_char neg :: columns 2 h ++ columns 2 mi) with ([sign_char neg] ++ columns 2 h ++ columns 2 mi); rewrite !count_app, !count_columns by reflexivity; destruct neg; reflexivity).
  replace (count 58 (sign_char neg :: columns 2 h ++ columns 2 mi)) with 0%nat by (symmetry; change (sign_char neg :: columns 2 h ++ columns 2 mi) with ([sign_char neg] ++ columns 2 h ++ columns 2 mi); rewrite !count_app, !count_columns by reflexivity; destruct neg; reflexivity).
  assert (D : columns 2 h ++ columns 2 mi = columns 4 (h * 100 + mi)).
  { unfold columns. cbn [seq rev map app Z.of_nat Pos.of_succ_nat Pos.succ]. change (10 ^ 3) with 1000. change (10 ^ 2) with 100. change (10 ^ 1) with 10. change (10 ^ 0) with 1.
    f_equal; [lia|]. f_equal; [lia|]. f_equal; [lia|]. f_equal. lia. }
  rewrite D, (split_digits (columns 4 (h * 100 + mi)) (columns_digits 4 _) 58 eq_refl). rewrite pyint_columns by (cbn; lia).
  replace (List.length _) with 5%nat by reflexivity. unfold HOUR, MINUTE, DAY.
  destruct neg; cbn [sign_char count filter Z.eqb Pos.eqb str list_ascii_of_string map List.length Nat.add Nat.leb passert bind negb orb andb Nat.ltb Nat.eqb fst snd].
  - match goal with |- context [?a || ?b] => replace (a || b) with false by lia end. cbn match.
    destruct (Z.leb_spec (h * 100 + mi) 23); match goal with |- (if ?b then _ else _) = _ => destruct b eqn:Q end; try lia; try reflexivity. do 2 f_equal. lia.
  - match goal with |- context [?a || ?b] => replace (a || b) with false by lia end. cbn match.
    destruct (Z.leb_spec (h * 100 + mi) 23); match goal with |- (if ?b then _ else _) = _ => destruct b eqn:Q end; try lia; try reflexivity. do 2 f_equal. lia.
Qed.
Print Assumptions C32_basic_form_refuted.
Example C32_case : parse_timezone (str "+03:30") = Ok (Some 12600000000) /\ offset_text 12600000000 = str "+03:30" /\ parse_timezone (str "-03:30") = Ok (Some (-9000000000)) /\
  offset_text (-12600000000) = str "-03:30" /\ parse_timezone (str "-11:00") = Ok (Some (-39600000000)) /\ parse_timezone (str "+0330") = Err ValueError /\
  parse_timezone (str "-0012") = Ok (Some (-43200000000)) /\ parse_timezone (str "+03:30:15") = Err AssertionError.
Proof. vm_compute. tauto. Qed.
