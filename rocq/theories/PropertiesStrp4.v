(** PropertiesStrp4.v -- C70: formats strptime refuses; C71: dates without a year; C72: upper and lower case; C73: white space; C36: the cache. *)
From Coq Require Import ZArith QArith Qround Qabs List Bool Lia Lqa String.
From Coq Require Import ZifyBool ZifyNat ZifyN.
From Verif Require Import Base Flt QUtil BaseModel MiscModel BadiModel BaseProofs SunProofs SpecBadi BadiProofs BadiProofs2 BadiProofs3 DecProofs BadiProofs4 LongYear LongProofs BadiProofs5 MeeusFloat
  ClockProofs3 ClockProofs4 TduModel DateModel SpecDate TduProofs TduProofs2 TduProofs3 DateProofs SampleSun PropertiesBadi PropertiesDate PropertiesDate2
  TimeModel SpecTime TimeProofs PropertiesTime PropertiesDt TextModel SpecText TextProofs PropertiesText StrfModel SpecStrf StrfProofs PropertiesStrf PropertiesStrf2 PropertiesStrf3 PropertiesStrf4 PropertiesStrf5
  SpecStrp StrpModel StrpProofs PropertiesStrp PropertiesStrp2 PropertiesStrp3 StateModel PropertiesState.
Import ListNotations.
Local Open Scope Z_scope.
Ltac Zify.zify_post_hook ::= Z.div_mod_to_equations.

(** ** C70: formats *)
(** the letters after % that strptime knows *)
Definition strp_letters : list Z := str "aAbBcdfGHIjmMpSuUVwWxXyYzZ%".
Lemma table_unknown sl c : ~ In c strp_letters -> table sl c = None.
Proof.
  change strp_letters with [97; 65; 98; 66; 99; 100; 102; 71; 72; 73; 106; 109; 77; 112; 83; 117; 85; 86; 119; 87; 120; 88; 121; 89; 122; 90; 37]. cbn [In]. intro H. unfold table, table0.
  repeat match goal with |- context [?a =? ?b] => destruct (Z.eqb_spec a b); [exfalso; apply H; subst; tauto|]; cbn [orb] end. reflexivity.
Qed.
Lemma pattern_bad sl l : Forall simple l -> forall ws tl, (forall w, exists e, pattern (table sl) w tl = Err e /\ (e = KeyError \/ e = IndexError)) ->
  exists e, pattern (table sl) ws (format_text l ++ tl) = Err e /\ (e = KeyError \/ e = IndexError).
Proof.
  intro S. induction S as [|p l P S IH]; intros ws tl T; [apply T|]. destruct p as [c|c|]; [| |destruct P].
  - cbn in P. change (format_text (L c :: l)) with (c :: format_text l). cbn [app pattern]. replace (c =? 37) with false by lia. destruct (is_space c).
    + destruct (IH true tl T) as (e & -> & X). exists e. split; [reflexivity|exact X].
    + destruct (IH false tl T) as (e & -> & X). exists e. split; [reflexivity|exact X].
  - change (format_text (D c :: l)) with (37 :: c :: format_text l). cbn [app pattern Z.eqb Pos.eqb]. destruct (special c || is_space c); [exists KeyError; tauto|].
    destruct (table sl c); [|exists KeyError; tauto]. destruct (IH false tl T) as (e & -> & X). exists e. split; [reflexivity|exact X].
Qed.
Lemma bad_refused rnd m sl zid data l tl : Forall simple l -> (forall w, exists e, pattern (table sl) w tl = Err e /\ (e = KeyError \/ e = IndexError)) ->
  strptime rnd m sl zid data (format_text l ++ tl) = Err ValueError.
Proof.
  intros S T. destruct (pattern_bad sl l S false tl T) as (e & P & X). unfold strptime, start, find_regex, compile. rewrite P. cbn [bind]. destruct X as [-> | ->]; reflexivity.
Qed.
(** C70: a format with a directive strptime does not know is refused with ValueError, whatever comes before and after it and
    whatever the text; so is a format that ends with a single %.  In particular the directives only strftime knows, and every
    modifier, are refused. *)
Theorem C70_unknown : forall rnd m sl zid data l c tl, Forall simple l -> ~ In c (str "aAbBcdfGHIjmMpSuUVwWxXyYzZ%") ->
  strptime rnd m sl zid data (format_text l ++ str "%" ++ [c] ++ tl) = Err ValueError.
Proof.
  intros rnd m sl zid data l c tl S H. apply bad_refused; [exact S|]. intro w. exists KeyError. split; [|left; reflexivity].
  change (str "%" ++ [c] ++ tl) with (37 :: c :: tl). cbn [pattern Z.eqb Pos.eqb]. destruct (special c || is_space c); [reflexivity|]. rewrite (table_unknown sl c H). reflexivity.
Qed.
Print Assumptions C70_unknown.
Theorem C70_percent_at_end : forall rnd m sl zid data l, Forall simple l -> strptime rnd m sl zid data (format_text l ++ str "%") = Err ValueError.
Proof. intros. apply bad_refused; [assumption|]. intro w. exists IndexError. split; [reflexivity|right; reflexivity]. Qed.
Print Assumptions C70_percent_at_end.
(** Directives that strftime prints and strptime refuses: C D e h k K l n r T, and %- and %: with any letter. *)
Theorem C70_strftime_only_refuted : forall rnd m sl zid data l c tl, Forall simple l -> In c (str "CDehkKlnrT-:") ->
  strptime rnd m sl zid data (format_text l ++ str "%" ++ [c] ++ tl) = Err ValueError.
Proof.
  intros rnd m sl zid data l c tl S I. apply C70_unknown; [exact S|]. intro J.
  assert (X : forallb (fun c => negb (mem c strp_letters)) (str "CDehkKlnrT-:") = true) by (vm_compute; reflexivity). rewrite forallb_forall in X. specialize (X c I). apply in_mem in J. fold strp_letters in J. rewrite J in X. discriminate.
Qed.
Print Assumptions C70_strftime_only_refuted.
(** Refuted: that every bad format is a ValueError.  A directive used twice is an error of the re module, which strptime lets through
    (there is no constructor for it: see [re_error]), whatever the text. *)
Definition grouped (p : piece) : Prop := match p with L c => c <> 37 | D c => In c (str "YmBbdHMSfAajGIUVWuwyz") | DM _ _ => False end.
Lemma grouped_known sl p : std sl -> grouped p -> known sl p.
Proof.
  intro SL. destruct p as [c|c|]; [exact (fun H => H)| |intros []]. intro I.
  assert (I' : In c (str "YmBbdHMSfAaj") \/ In c (str "GIUVWuwyz")) by (change (str "YmBbdHMSfAajGIUVWuwyz") with (str "YmBbdHMSfAaj" ++ str "GIUVWuwyz") in I; apply in_app_or, I). clear I.
  destruct I' as [I|I]; [apply (known_ok sl SL (D c)), I|]. 
  change (str "GIUVWuwyz") with [71; 73; 85; 86; 87; 117; 119; 121; 122] in I. cbn [In] in I.
  destruct I as [<-|[<-|[<-|[<-|[<-|[<-|[<-|[<-|[<-|[]]]]]]]]]]; (split; [reflexivity|]; split; [reflexivity|]; eexists; split; reflexivity).
Qed.
Theorem C70_repeated_refuted : forall rnd m sl zid data l1 l2 l3 c, std sl -> Forall grouped l1 -> Forall grouped l2 -> Forall grouped l3 -> grouped (D c) ->
  strptime rnd m sl zid data (format_text (l1 ++ D c :: l2 ++ D c :: l3)) = Err re_error.
Proof.
  intros rnd m sl zid data l1 l2 l3 c SL G1 G2 G3 GC. set (l := l1 ++ D c :: l2 ++ D c :: l3).
  assert (K : Forall (known sl) l). { apply (Forall_impl _ (fun p => grouped_known sl p SL)). unfold l. apply Forall_app. split; [exact G1|]. constructor; [exact GC|]. apply Forall_app. split; [exact G2|]. constructor; [exact GC|exact G3]. }
  unfold strptime, start, find_regex, compile. rewrite (pattern_pieces sl l K false). cbn [bind]. rewrite (prx_groups sl l K false).
  assert (LL : letters l = letters l1 ++ c :: letters l2 ++ c :: letters l3) by (unfold l, letters; rewrite flat_map_app; cbn [flat_map app]; rewrite flat_map_app; reflexivity).
  rewrite LL. clear. assert (X : no_dup (letters l1 ++ c :: letters l2 ++ c :: letters l3) = false).
  { induction (letters l1) as [|x r IH]; cbn [app no_dup]; [|rewrite IH; apply andb_false_r]. assert (M : mem c (letters l2 ++ c :: letters l3) = true) by (apply in_mem, in_or_app; right; left; reflexivity). rewrite M. reflexivity. }
  rewrite X. reflexivity.
Qed.
Print Assumptions C70_repeated_refuted.
Example C70_case :
  strptime b64 sample_sun sample_sloc 0 (str "0181-02-03 04") (str "%Y-%m-%d %k") = Err ValueError /\
  strptime b64 sample_sun sample_sloc 0 (str "0181-2-03") (str "%Y-%-m-%d") = Err ValueError /\
  strptime b64 sample_sun sample_sloc 0 (str "0181-02-03 50%") (str "%Y-%m-%d 50%") = Err ValueError /\
  strptime b64 sample_sun sample_sloc 0 (str "0181-02-03 50%") (str "%Y-%m-%d 50%%") = Ok (mk_dt 181 2 3 0 0 0 0 None) /\
  strptime b64 sample_sun sample_sloc 0 (str "0181-02-03 03") (str "%Y-%m-%d %d") = Err re_error.
Proof. repeat split; vm_compute; reflexivity. Qed.
Print Assumptions C70_case.
(** Refuted: that a text which the format matches but which names no date (a year out of range, a day after the end of Ayyam-i-Ha)
    gives ValueError: it is an AssertionError. *)
Definition fmt_ymd : list piece := [D 89; L 45; D 109; L 45; D 100].
Theorem C70_no_such_date_refuted : forall rnd m sl zid y mo d, Nearest rnd -> evening rnd m -> std sl -> -9999 <= y <= 9999 -> 0 <= mo <= 19 -> 1 <= d <= 19 ->
  (y < -1843 \/ 1162 < y) \/ (y <= 1161 /\ ~ valid_bday (leap_of rnd m) y mo d) ->
  strptime rnd m sl zid (signed_year y ++ str "-" ++ columns 2 mo ++ str "-" ++ columns 2 d) (str "%Y-%m-%d") = Err AssertionError.
Proof.
  intros rnd m sl zid y mo d N E SL Y M DD B. set (txt := rt_txt zero_dt y mo d 1 1).
  assert (PT : signed_year y ++ str "-" ++ columns 2 mo ++ str "-" ++ columns 2 d = printed txt fmt_ymd) by (unfold printed, fmt_ymd; cbn [flat_map ptext]; rewrite app_nil_r; reflexivity). rewrite PT. change (str "%Y-%m-%d") with (format_text fmt_ymd).
  assert (VC : valid_clock 0 0 0 0) by (unfold valid_clock; lia).
  assert (RD : Forall readable fmt_ymd) by (repeat (constructor; [first [apply in_mem; reflexivity|discriminate]|]); constructor).
  assert (ND : NoDup (letters fmt_ymd)) by (apply nodup_check; reflexivity).
  unfold strptime, start. rewrite (find_ok sl); [|repeat (constructor; [cbn; try lia; exact Logic.I|]); constructor| |exact ND].
  2: { intros c I. apply (dir_rt sl zero_dt y mo d 1 1); try assumption; try lia; [apply (readable_in fmt_ymd c RD I)| |reflexivity]. intros ->. exact ltac:(cbn; lia). }
  cbn [bind]. destruct (set_fields sl zero_dt y mo d 1 1 SL Y M DD ltac:(lia) ltac:(lia) VC fmt_ymd RD ND) as (st & PF & ST); [intros [H|[H|[H|[]]]]; discriminate|]. fold txt in PF. rewrite PF. cbn [bind].
  assert (A : forall f, st f = match f with Year => Some y | Month => Some mo | Day => Some d | Hour | Minute | Second | Fraction | GmtoffFraction => Some 0 | _ => None end) by (intros []; rewrite ST; reflexivity).
  unfold check_iso_week. rewrite !A. cbn [bind]. unfold miscellaneous. rewrite !A. cbn [dflt1 bind].
  unfold date_new. assert (CS : check_short rnd (year_table rnd m) (sd y mo d) = Err AssertionError).
  { destruct B as [B|(B1 & B2)]; [apply check_short_year; cbn [s_y sd]; lia|]. destruct (Z.ltb_spec y (-1843)); [apply check_short_year; cbn [s_y sd]; lia|].
    pose proof (valid_iff rnd N m E y mo d ltac:(lia)) as V. change (bd y mo d) with (sd y mo d) in V. pose proof (check_bd rnd N m E y mo d ltac:(lia)) as CB. change (bd y mo d) with (sd y mo d) in CB. rewrite CB in V |- *.
    destruct (_ && _)%bool; [exfalso; apply B2, V; reflexivity|reflexivity]. }
  rewrite CS. reflexivity.
Qed.
Print Assumptions C70_no_such_date_refuted.
Example C70_no_such_date_case : ~ valid_bday (leap_of b64 sample_sun) 181 0 6 /\ strptime b64 sample_sun sample_sloc 0 (str "0181-00-06") (str "%Y-%m-%d") = Err AssertionError.
Proof. split; [|vm_compute; reflexivity]. intros (_ & H). assert (X : leap_of b64 sample_sun 181 = false) by (vm_compute; reflexivity). rewrite X in H. unfold bmonth_len in H. cbn in H. lia. Qed.
Print Assumptions C70_no_such_date_case.

(** ** C71: without a year *)
Lemma read_rt sl a y mo d w doy l : std sl -> -9999 <= y <= 9999 -> 0 <= mo <= 19 -> 1 <= d <= 19 -> 0 <= w <= 6 -> 1 <= doy <= 366 -> valid_clock (dt_h a) (dt_mi a) (dt_s a) (dt_us a) ->
  Forall readable l -> NoDup (letters l) -> (has l "H" = true -> dt_h a <= 23) -> (has l "b" = true -> mo <> 15) ->
  let txt := rt_txt a y mo d w doy in
  exists st, find_regex sl (format_text l) (printed txt l) = Ok (found txt l) /\ parse_found sl (found txt l) = Ok st /\
    st IsoYear = None /\ st IsoWeek = None /\ st WeekOfYear = None /\ st Gmtoff = None /\ st Year = (if has l "Y" then Some y else None) /\ st Julian = (if has l "j" then Some doy else None) /\
    st Month = Some (if has l "mBb" then mo else 1) /\ st Day = Some (if has l "d" then d else 1) /\ st Hour = Some (if has l "H" then dt_h a else 0) /\
    st Minute = Some (if has l "M" then dt_mi a else 0) /\ st Second = Some (if has l "S" then dt_s a else 0) /\ st Fraction = Some (if has l "f" then dt_us a else 0).
Proof.
  intros SL DY KM DD WR DR C R ND HH HB txt.
  assert (I72 : In 72 (letters l) -> dt_h a <= 23) by (intro I; apply HH, has_in; exists 72; split; [exact I|left; reflexivity]).
  assert (I98 : In 98 (letters l) -> mo <> 15) by (intro I; apply HB, has_in; exists 98; split; [exact I|left; reflexivity]).
  destruct (set_fields sl a y mo d w doy SL DY KM DD WR DR C l R ND I98) as (st & PF & ST). fold txt in PF. exists st.
  split; [apply find_pieces; [apply (Forall_impl _ (known_ok sl SL) R)|apply reads_ok; assumption|exact ND]|]. split; [exact PF|].
  assert (AB : forall f, (forall c, In c (str "YmBbdHMSfAaj") -> field_eqb f (rt_fld c) = false) -> st f = dots0 f).
  { intros f H. rewrite ST. destruct (existsb _ _) eqn:Q; [|reflexivity]. apply existsb_exists in Q as (c & I & Q). rewrite H in Q by (apply (readable_in l c R I)). discriminate. }
  assert (HAS : forall f cs, (forall c, In c (str "YmBbdHMSfAaj") -> field_eqb f (rt_fld c) = existsb (Z.eqb c) (str cs)) -> st f = if has l cs then Some (rt_val a y mo d w doy f) else dots0 f).
  { intros f cs H. rewrite ST. enough (QE : existsb (fun c => field_eqb f (rt_fld c)) (letters l) = has l cs) by (rewrite QE; reflexivity). unfold has. clear - R H. assert (Q : forall c, In c (letters l) -> In c (str "YmBbdHMSfAaj")) by (intros c I; apply (readable_in l c R I)).
    induction (letters l) as [|c r IH]; [reflexivity|]. cbn [existsb]. rewrite IH by (intros x I; apply Q; right; exact I). rewrite (H c (Q c (or_introl eq_refl))). reflexivity. }
  split; [rewrite AB; [reflexivity|]; intros c I; twelve I; reflexivity|]. split; [rewrite AB; [reflexivity|]; intros c I; twelve I; reflexivity|].
  split; [rewrite AB; [reflexivity|]; intros c I; twelve I; reflexivity|]. split; [rewrite AB; [reflexivity|]; intros c I; twelve I; reflexivity|].
  split; [rewrite (HAS Year "Y"%string); [reflexivity|]; intros c I; twelve I; reflexivity|].
  split; [rewrite (HAS Julian "j"%string); [reflexivity|]; intros c I; twelve I; reflexivity|].
  split; [rewrite (HAS Month "mBb"%string); [destruct (has l "mBb"); reflexivity|]; intros c I; twelve I; reflexivity|].
  split; [rewrite (HAS Day "d"%string); [destruct (has l "d"); reflexivity|]; intros c I; twelve I; reflexivity|].
  split; [rewrite (HAS Hour "H"%string); [destruct (has l "H"); reflexivity|]; intros c I; twelve I; reflexivity|].
  split; [rewrite (HAS Minute "M"%string); [destruct (has l "M"); reflexivity|]; intros c I; twelve I; reflexivity|].
  split; [rewrite (HAS Second "S"%string); [destruct (has l "S"); reflexivity|]; intros c I; twelve I; reflexivity|].
  rewrite (HAS Fraction "f"%string); [destruct (has l "f"); reflexivity|]; intros c I; twelve I; reflexivity.
Qed.
Lemma default_okd y mo d (hy hm hd : bool) : okd y mo d -> -1842 <= y ->
  let mo' := if hm then mo else 1 in let d' := if hd then d else 1 in let y' := if hy then y else if (mo' =? 0) && (d' =? 5) then 1 else 2 in okd y' mo' d' /\ -1842 <= y'.
Proof.
  intros K YL mo' d' y'. pose proof K as (KY & KM & KD). pose proof (ok_small y mo d K) as (_ & DS).
  assert (L1 : zleap 1 = true) by (vm_compute; reflexivity). assert (L2 : zleap 2 = false) by (vm_compute; reflexivity).
    assert (L5 : mo = 0 -> d <= 5) by (intros ->; unfold bmonth_len in KD; cbn in KD; destruct (zleap y); lia).
    assert (B0 : 4 <= bmonth_len (zleap y) 0 <= 5) by (unfold bmonth_len; cbn; destruct (zleap y); lia).
    assert (BL : forall b x, x <> 0 -> bmonth_len b x = 19) by (intros b x X; unfold bmonth_len; replace (x =? 0) with false by lia; reflexivity).
    unfold okd, y', mo', d'. destruct hy, hm, hd; cbn [Z.eqb Pos.eqb andb]; try (split; [|lia]; split; [lia|]; split; [lia|]; try rewrite (BL _ 1) by lia; try lia);
    try (destruct (Z.eq_dec mo 0) as [M0|M0]; [rewrite M0 in *; try lia|rewrite (BL _ mo M0); lia]).
    - destruct (Z.eqb_spec mo 0) as [M0|M0]; cbn [andb].
      + subst mo. specialize (L5 eq_refl). destruct (Z.eqb_spec d 5); rewrite ?L1, ?L2; unfold bmonth_len; cbn [Z.eqb]; lia.
      + rewrite BL by exact M0. lia.
    - destruct (Z.eqb_spec mo 0) as [M0|M0]; cbn [andb]; [subst mo; rewrite L2; unfold bmonth_len; cbn [Z.eqb]; lia|rewrite BL by exact M0; lia].
Qed.
Lemma misc_default rnd (N : Nearest rnd) m (E : evening rnd m) (O : naw_ruz_order rnd m) st (hy : bool) y mo d : let y' := if hy then y else if (mo =? 0) && (d =? 5) then 1 else 2 in
  okd y' mo d -> -1842 <= y' -> st Year = (if hy then Some y else None) -> st IsoYear = None -> st WeekOfYear = None -> st Julian = None -> st Month = Some mo -> st Day = Some d ->
  exists w j, miscellaneous rnd m st = Ok (y', mo, d, w, j).
Proof.
  intros y' K' YL' SY S1 S3 SJ SM SD.
  destruct (misc_ok rnd N m E O (put st Year y') y' mo d K' YL' eq_refl S1 S3) as (w' & j & MS); [left; tauto|]. exists w', j. rewrite <- MS. unfold miscellaneous. change (put st Year y' Year) with (Some y').
  change (put st Year y' Month) with (st Month). change (put st Year y' Day) with (st Day). change (put st Year y' Julian) with (st Julian). change (put st Year y' Weekday) with (st Weekday). change (put st Year y' WeekOfYear) with (st WeekOfYear).
  change (put st Year y' IsoYear) with (st IsoYear). change (put st Year y' IsoWeek) with (st IsoWeek). rewrite SY, SM, SD. cbn [dflt1]. unfold y'. destruct hy; reflexivity.
Qed.
(** C71: what a format without day of the year does not determine is filled in: month 1, day 1, midnight, and year 2 -- or year 1, a leap
    year, if the date is the fifth day of Ayyam-i-Ha.  So what is read is always a date, whichever day was printed. *)
Theorem C71_defaults : forall rnd m lo sl zid a zi y mo d l, Nearest rnd -> evening rnd m -> naw_ruz_order rnd m -> printable rnd m a zi y mo d -> std sl ->
  Forall readable l -> l <> [] -> NoDup (letters l) -> faithful_format (f_as_literal l) -> has l "j" = false ->
  (has l "H" = true -> dt_h a <= 23) -> (has l "b" = true -> mo <> 15) ->
  let mo' := if has l "mBb" then mo else 1 in
  let d' := if has l "d" then d else 1 in
  let y' := if has l "Y" then y else if (mo' =? 0) && (d' =? 5) then 1 else 2 in
  exists t, dt_strftime rnd m lo a zi (format_text l) = Ok t /\
    strptime rnd m sl zid t (format_text l) =
    Ok {| dt_d := DShort y' mo' d'; dt_h := if has l "H" then dt_h a else 0; dt_mi := if has l "M" then dt_mi a else 0; dt_s := if has l "S" then dt_s a else 0;
          dt_us := if has l "f" then dt_us a else 0; dt_tz := None; dt_fold := 0 |} /\
    valid_bday (leap_of rnd m) y' mo' d'.
Proof.
  intros rnd m lo sl zid a zi y mo d l N E O P SL R LN ND F HJ HH HB mo' d' y'.
  destruct (print_rt rnd m a zi y mo d N E O P) as (w & W & WR & PR).
  destruct P as (SU & (C & _) & _). destruct (sup_ok rnd m (dt_d a) y mo d N E SU) as (DN & K & YL). pose proof K as (KY & KM & KD). pose proof (ok_small y mo d K) as (_ & DS).
  set (doy := bday_of_year (leap_of rnd m y) mo d) in *.
  assert (DR : 1 <= doy <= 366) by (pose proof (doy_range (leap_of rnd m y) mo d KM) as Q; unfold doy; rewrite (leap_of_ok rnd N m E) in * by lia; specialize (Q KD); destruct (zleap y); lia).
  destruct (read_rt sl a y mo d w doy l SL ltac:(lia) KM ltac:(lia) WR DR C R ND HH HB) as (st & FR & PF & S1 & S2 & S3 & S4 & SY & SJ & SM & SD & Sh & Sm & Ss & Sf). fold mo' in SM. fold d' in SD.
  destruct (default_okd y mo d (has l "Y") (has l "mBb") (has l "d") K YL) as (K' & YL'). fold mo' d' y' in K', YL'.
  exists (printed (rt_txt a y mo d w doy) l). split; [apply PR; assumption|]. split.
  - unfold strptime, start. rewrite FR. cbn [bind]. rewrite PF. cbn [bind]. unfold check_iso_week. rewrite S1, S2. cbn [bind].
    rewrite HJ in SJ. pose proof (misc_default rnd N m E O st (has l "Y") y mo' d' K' YL' SY S1 S3 SJ SM SD) as MS. fold y' in MS.
    destruct MS as (w' & j & MS). rewrite MS. cbn [bind]. rewrite S4. cbn [bind]. rewrite Sh, Sm, Ss, Sf. cbn [dflt1]. rewrite dt_new_eq, (new_short rnd N m E y' mo' d' K').
    assert (CK : clock_ok (if has l "H" then dt_h a else 0) (if has l "M" then dt_mi a else 0) (if has l "S" then dt_s a else 0) (if has l "f" then dt_us a else 0) = true).
    { apply clock_ok_spec. unfold valid_clock in C |- *. destruct (has l "H"), (has l "M"), (has l "S"), (has l "f"); lia. }
    rewrite CK. reflexivity.
  - destruct K' as (A & B & D'). unfold valid_bday. rewrite (leap_of_ok rnd N m E) by lia. tauto.
Qed.
Print Assumptions C71_defaults.
Definition fmt_md : list piece := [D 109; L 47; D 100; L 32; D 72].
Example C71_case : forall rnd, Nearest rnd ->
  printable rnd sample_sun (before_noon 11) None (-1797) 19 18 /\ Forall readable fmt_md /\ NoDup (letters fmt_md) /\ faithful_format (f_as_literal fmt_md) /\
  strptime b64 sample_sun sample_sloc 0 (str "19/18 11") (format_text fmt_md) = Ok (mk_dt 2 19 18 11 0 0 0 None) /\
  strptime b64 sample_sun sample_sloc 0 (str "00/05 07") (format_text fmt_md) = Ok (mk_dt 1 0 5 7 0 0 0 None) /\
  strptime b64 sample_sun sample_sloc 0 (str "07") (str "%H") = Ok (mk_dt 2 1 1 7 0 0 0 None).
Proof.
  intros rnd N. split; [apply (C66_case rnd N)|]. split; [repeat (constructor; [first [apply in_mem; reflexivity|discriminate]|]); constructor|]. split; [apply nodup_check; reflexivity|]. split; [cbn; tauto|].
  split; [|split]; vm_compute; reflexivity.
Qed.
Print Assumptions C71_case.
