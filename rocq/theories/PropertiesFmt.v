(** PropertiesFmt.v -- C100: format() and f-strings. *)
From Coq Require Import ZArith QArith Qround Qabs List Bool Lia Lqa String.
From Coq Require Import ZifyBool ZifyNat ZifyN.
From Verif Require Import Base Flt QUtil BaseModel MiscModel BadiModel BaseProofs SunProofs SpecBadi BadiProofs BadiProofs2 BadiProofs3 DecProofs BadiProofs4 LongYear LongProofs BadiProofs5
  ClockProofs3 ClockProofs4 TduModel DateModel SpecDate TduProofs TduProofs2 TduProofs3 DateProofs SampleSun PropertiesBadi
  TimeModel SpecTime TimeProofs TextModel SpecText TextProofs PropertiesText PropertiesText2 StrfModel SpecStrf StrfProofs PropertiesStrf PropertiesStrf2 PropertiesStrf3 PropertiesStrf4 ReprModel PropertiesRepr FmtModel.
Import ListNotations.
Local Open Scope Z_scope.

Lemma pieces_text rnd m lo a zi s l : (forall lo fmt, dt_strftime rnd m lo a zi fmt = let f := replace_f (dt_us a) fmt in let* _ := check_format f in strftime_loop rnd m lo s (last f 0) f) ->
  forall fmt, replace_f (dt_us a) fmt = format_text l -> l <> [] -> Forall well_formed l ->
  dt_strftime rnd m lo a zi fmt = cat (map (pval rnd m lo s) (surviving (last (map end_of l) 0) l)).
Proof.
  intros X fmt R NE W. rewrite X, R. cbv zeta. pose proof (format_general rnd m lo s l [] W) as G. rewrite app_nil_r in G. rewrite G.
  pose proof (last_format l 0 NE) as LF. assert (F : format_text l <> []) by (destruct l as [|[c|c|md c] l']; [congruence|discriminate..]).
  destruct (format_text l) as [|x r] eqn:E; [congruence|]. cbn [bind check_format_loop]. rewrite LF. destruct (cat _); [|reflexivity]. cbn. rewrite app_nil_r. reflexivity.
Qed.
Ltac wf := repeat (apply Forall_cons; [cbn [well_formed]; first [discriminate | apply in_mem; reflexivity | (cbn; tauto)]|]); apply Forall_nil.

(** What strftime prints for the six fields of a printable datetime, and for an ISO format of them. *)
Lemma iso_fields rnd m lo a zi y mo d : Nearest rnd -> evening rnd m -> naw_ruz_order rnd m -> printable rnd m a zi y mo d ->
  exists s, (forall lo fmt, dt_strftime rnd m lo a zi fmt = let f := replace_f (dt_us a) fmt in let* _ := check_format f in strftime_loop rnd m lo s (last f 0) f) /\
    directive rnd m lo s 89 0 = Ok (signed_year y) /\ directive rnd m lo s 109 0 = Ok (columns 2 mo) /\ directive rnd m lo s 100 0 = Ok (columns 2 d) /\
    directive rnd m lo s 72 0 = Ok (columns 2 (dt_h a)) /\ directive rnd m lo s 77 0 = Ok (columns 2 (dt_mi a)) /\ directive rnd m lo s 83 0 = Ok (columns 2 (dt_s a)).
Proof.
  intros N E O P. destruct (printable_struct rnd m a zi y mo d N E O P) as (s & w & _ & _ & _ & _ & _ & _ & _ & _ & _ & _ & _ & _ & _ & _ & X).
  destruct (C34_fields rnd m lo a zi y mo d N E O P) as (A & B & C & DD & F & G & _). exists s. split; [exact X|].
  assert (OD : forall c, c <> 102 -> well_formed (D c) -> dt_strftime rnd m lo a zi [37; c] = directive rnd m lo s c 0) by (exact (one_directive rnd m lo a zi s (fun lo => X lo))).
  repeat split; rewrite <- OD by (try discriminate; apply in_mem; reflexivity); assumption.
Qed.

(** C100: f"{d:%Y-%m-%d}" is the year in four columns, after a minus sign if it is negative, the month and the day, for every
    supported date of either form; and date.fromisoformat() reads it back as the same date, for every year. *)
Theorem C100_date : forall rnd m lo a y mo d, Nearest rnd -> evening rnd m -> naw_ruz_order rnd m -> supported rnd m a y mo d ->
  exists t, date_format rnd m lo a (FStr (str "%Y-%m-%d")) = Ok t /\ t = signed_year y ++ str "-" ++ columns 2 mo ++ str "-" ++ columns 2 d /\
    date_fromisoformat rnd m t (is_short a) = Ok a /\
    (is_short a = true -> exists u, date_format rnd m lo a (FStr []) = Ok u /\ (u = t <-> 0 <= y \/ y <= -1000)).
Proof.
  intros rnd m lo a y mo d N E O S. set (b := {| dt_d := a; dt_h := 0; dt_mi := 0; dt_s := 0; dt_us := 0; dt_tz := None; dt_fold := 0 |}).
  assert (P : printable rnd m b None y mo d).
  { split; [exact S|]. split; [split; [cbn; unfold valid_clock; lia|split; [left; reflexivity|intros o OO; discriminate]]|]. split; [reflexivity|]. right. cbn. lia. }
  destruct (iso_fields rnd m lo b None y mo d N E O P) as (s & X & FY & FM & FD & _).
  exists (signed_year y ++ str "-" ++ columns 2 mo ++ str "-" ++ columns 2 d).
  split.
  { change (date_format rnd m lo a (FStr (str "%Y-%m-%d"))) with (dt_strftime rnd m lo b None (str "%Y-%m-%d")).
    rewrite (pieces_text rnd m lo b None s [D 89; L 45; D 109; L 45; D 100] X (str "%Y-%m-%d") eq_refl) by (try discriminate; wf).
    cbn [map end_of last surviving is_mark Z.eqb Pos.eqb orb app pval cat]. rewrite FY, FM, FD. cbn [cat bind]. rewrite app_nil_r. reflexivity. }
  split; [reflexivity|]. split; [exact (C29_signed_text rnd m a y mo d N E S)|].
  intro SH. exists (ymd_text y mo d).
  split.
  { cbn [date_format]. destruct a as [y' mo' d'|]; [|discriminate]. cbn [date_str]. exact (C29_isoformat_text rnd m _ y mo d N E S). }
  unfold ymd_text, year_text, signed_year. destruct (Z.ltb_spec y 0); [|split; [intros _; lia|intros _; reflexivity]].
  destruct (Z.leb_spec y (-1000)); [split; [intros _; lia|intros _; reflexivity]|].
  split; [|lia]. intro Q. apply (f_equal (@List.length Z)) in Q. rewrite !app_length, !columns_len in Q. cbn in Q. lia.
Qed.
Print Assumptions C100_date.
(** a year whose two texts differ, one whose two texts agree, and a date of the long form *)
Example C100_date_case : let lo := sample_locale in
  supported b64 sample_sun (DShort (-541) 3 17) (-541) 3 17 /\
  date_format b64 sample_sun lo (DShort (-541) 3 17) (FStr (str "%Y-%m-%d")) = Ok (str "-0541-03-17") /\ date_format b64 sample_sun lo (DShort (-541) 3 17) (FStr []) = Ok (str "-541-03-17") /\
  date_format b64 sample_sun lo (DShort 181 3 7) (FStr (str "%Y-%m-%d")) = Ok (str "0181-03-07") /\ date_format b64 sample_sun lo (DShort 181 3 7) (FStr []) = Ok (str "0181-03-07") /\
  date_format b64 sample_sun lo (DLong 1 10 10 3 7) (FStr (str "%Y-%m-%d")) = Ok (str "0181-03-07") /\ date_format b64 sample_sun lo (DLong 1 10 10 3 7) (FStr []) = Ok (str "01-10-10-03-07").
Proof. cbv zeta. split; [split; [cbn; lia|]; split; [lia|]; split; [lia|vm_compute; split; discriminate]|]. repeat split; vm_compute; reflexivity. Qed.

(** C100: for a datetime, f"{dt:%Y-%m-%dT%H:%M:%S}" is the same date text, T and the clock; f"{dt}" is this text for a short
    datetime without timezone and microseconds if its year is not one of -999..-1. *)
Theorem C100_datetime : forall rnd m lo a zi y mo d, Nearest rnd -> evening rnd m -> naw_ruz_order rnd m -> printable rnd m a zi y mo d ->
  exists t, dt_format rnd m lo a zi (FStr (str "%Y-%m-%dT%H:%M:%S")) = Ok t /\
    t = signed_year y ++ str "-" ++ columns 2 mo ++ str "-" ++ columns 2 d ++ str "T" ++ hms_text (dt_h a) (dt_mi a) (dt_s a) /\
    (is_short (dt_d a) = true -> dt_tz a = None -> dt_us a = 0 -> exists u, dt_format rnd m lo a zi (FStr []) = Ok u /\ (u = t <-> 0 <= y \/ y <= -1000)).
Proof.
  intros rnd m lo a zi y mo d N E O P. destruct (iso_fields rnd m lo a zi y mo d N E O P) as (s & X & FY & FM & FD & FH & FI & FS).
  exists (signed_year y ++ str "-" ++ columns 2 mo ++ str "-" ++ columns 2 d ++ str "T" ++ hms_text (dt_h a) (dt_mi a) (dt_s a)).
  split.
  { change (dt_format rnd m lo a zi (FStr (str "%Y-%m-%dT%H:%M:%S"))) with (dt_strftime rnd m lo a zi (str "%Y-%m-%dT%H:%M:%S")).
    rewrite (pieces_text rnd m lo a zi s [D 89; L 45; D 109; L 45; D 100; L 84; D 72; L 58; D 77; L 58; D 83] X (str "%Y-%m-%dT%H:%M:%S") eq_refl) by (try discriminate; wf).
    cbn [map end_of last surviving is_mark Z.eqb Pos.eqb orb app pval cat]. rewrite FY, FM, FD, FH, FI, FS. cbn [cat bind]. unfold hms_text, hm_text. rewrite app_nil_r, <- ?app_assoc. reflexivity. }
  split; [reflexivity|]. intros SH TZ US. exists (ymd_text y mo d ++ str "T" ++ hms_text (dt_h a) (dt_mi a) (dt_s a)).
  split.
  { destruct P as (S & V & _). cbn [dt_format]. change (lit "T") with (str "T"). destruct (dt_d a) as [y' mo' d'|] eqn:DA; [|discriminate]. pose proof S as ((-> & -> & ->) & _). rewrite <- DA in S.
    rewrite (C83_short rnd m a y mo d N E DA S V), TZ, US. unfold clock_text. cbn [Z.eqb offset]. rewrite !app_nil_r. reflexivity. }
  unfold ymd_text, year_text, signed_year. destruct (Z.ltb_spec y 0); [|split; [intros _; lia|intros _; rewrite <- ?app_assoc; reflexivity]].
  destruct (Z.leb_spec y (-1000)); [split; [intros _; lia|intros _; rewrite <- ?app_assoc; reflexivity]|].
  split; [|lia]. intro Q. apply (f_equal (@List.length Z)) in Q. rewrite !app_length, !columns_len in Q. cbn in Q. lia.
Qed.
Print Assumptions C100_datetime.
Example C100_datetime_case : let a := {| dt_d := DShort 181 3 7; dt_h := 13; dt_mi := 5; dt_s := 9; dt_us := 0; dt_tz := None; dt_fold := 0 |} in
  printable b64 sample_sun a None 181 3 7 /\ dt_format b64 sample_sun sample_locale a None (FStr (str "%Y-%m-%dT%H:%M:%S")) = Ok (str "0181-03-07T13:05:09") /\
  dt_format b64 sample_sun sample_locale a None (FStr []) = Ok (str "0181-03-07T13:05:09") /\ dt_format b64 sample_sun sample_locale a None FOther = Err TypeError.
Proof.
  cbv zeta. split.
  { split; [split; [cbn; lia|]; split; [lia|]; split; [lia|vm_compute; split; discriminate]|]. split; [split; [cbn; unfold valid_clock; lia|split; [left; reflexivity|intros o OO; discriminate]]|]. split; [reflexivity|left; reflexivity]. }
  repeat split; vm_compute; reflexivity.
Qed.

(** C100: for a time of day, f"{t:%H:%M:%S}" is its clock, hour 24 and second 60 included, and f"{t}" is its clock, then the
    microseconds if there are any and the offset if there is one. *)
Theorem C100_time : forall rnd m lo a zi, Nearest rnd -> evening rnd m -> valid_time a -> option_map zi_tz zi = t_tz a ->
  time_format rnd m lo a zi (FStr (str "%H:%M:%S")) = Ok (hms_text (t_h a) (t_mi a) (t_s a)) /\
  time_format rnd m lo a zi (FStr []) = Ok (clock_text (t_h a) (t_mi a) (t_s a) (t_us a) ++ match offset (t_tz a) with Some o => offset_text o | None => [] end).
Proof.
  intros rnd m lo a zi N E (V & FO & G) Z. unfold valid_clock in V. split.
  - set (l := [1; 1; 1; t_h a; t_mi a; t_s a; 0; 1; -1]).
    assert (T : takes rnd m lo (Plain l) zi).
    { apply (C54_plain_tuple rnd m lo l zi N E). split; [|split; [cbn; lia|rewrite Z; exact G]]. left. exists 1, 1, 1, (t_h a), (t_mi a), (t_s a), 0, 1, (-1). split; [reflexivity|]. split; [lia|].
      unfold fields_ok. cbn [bmonth_len]. unfold bmonth_len. cbn. destruct (leap_of rnd m 1); lia. }
    assert (X : exists s, (forall fmt, strftime rnd m lo fmt (Plain l) zi = let* _ := check_format fmt in strftime_loop rnd m lo s (last fmt 0) fmt) /\ struct_time rnd m l zi = Ok s).
    { unfold takes, strftime in *. change (check_format (str "%n")) with (@Ok unit tt) in T. cbn [bind] in T. destruct (checktm rnd m l) as [[]|]; [|discriminate]. cbn [bind] in *.
      destruct (struct_time rnd m l zi) as [s|]; [|discriminate]. exists s. split; reflexivity. }
    destruct X as (s & X & ST). destruct (C54_struct_time_items rnd m l zi s ST) as (I & _).
    change (time_format rnd m lo a zi (FStr (str "%H:%M:%S"))) with (strftime rnd m lo (format_text [D 72; L 58; D 77; L 58; D 83]) (Plain l) zi). rewrite X.
    assert (W : Forall well_formed [D 72; L 58; D 77; L 58; D 83]) by wf.
    pose proof (format_general rnd m lo s [D 72; L 58; D 77; L 58; D 83] [] W) as FG. rewrite app_nil_r in FG. rewrite FG. clear FG.
    assert (F : st_hour s = t_h a /\ st_min s = t_mi a /\ st_sec s = t_s a).
    { unfold st_items in I. destruct (st_kv s) as [[k v]|]; cbn in I; [discriminate|]. injection I. intros. repeat split; congruence. }
    destruct F as (HH & MI & SS).
    change (format_text [D 72; L 58; D 77; L 58; D 83]) with (str "%H:%M:%S"). cbn [str map list_ascii_of_string]. cbn [map end_of last surviving is_mark Z.eqb Pos.eqb orb app pval cat check_format_loop strftime_loop bind].
    change (directive rnd m lo s 72 0) with (@Ok text (f_H s 0)). change (directive rnd m lo s 77 0) with (@Ok text (f_M s 0)). change (directive rnd m lo s 83 0) with (@Ok text (f_S s 0)).
    unfold f_H, f_M, f_S. cbn [Z.eqb]. rewrite HH, MI, SS, !two by lia. cbn [cat bind]. unfold hms_text, hm_text. rewrite ?app_nil_r, <- ?app_assoc. reflexivity.
  - cbn [time_format]. unfold time_isoformat. rewrite utcoffset_ok by exact G. cbn [bind]. f_equal. f_equal.
    + unfold format_time, clock_text, hms_text, hm_text. rewrite !(fmt0_columns 2), (fmt0_columns 6) by (cbn; lia). destruct (t_us a =? 0); rewrite ?app_nil_r, <- ?app_assoc; reflexivity.
    + destruct (offset (t_tz a)) as [o|] eqn:Q; [apply C28_shape, (G o Q)|reflexivity].
Qed.
Print Assumptions C100_time.
Example C100_time_case : let a := {| t_h := 24; t_mi := 0; t_s := 60; t_us := 7; t_tz := Some {| tz_id := 1; tz_off := Some (-12600000000) |}; t_fold := 0 |} in
  let zi := Some {| zi_tz := {| tz_id := 1; tz_off := Some (-12600000000) |}; zi_name := None; zi_dst := None |} in
  valid_time a /\ time_format b64 sample_sun sample_locale a zi (FStr (str "%H:%M:%S")) = Ok (str "24:00:60") /\ time_format b64 sample_sun sample_locale a zi (FStr []) = Ok (str "24:00:60.000007-03:30").
Proof.
  cbv zeta. split; [split; [cbn; unfold valid_clock; lia|split; [left; reflexivity|intros o OO; inversion OO; lia]]|]. split; vm_compute; reflexivity.
Qed.
