(** PropertiesStrp3.v -- C67: results of strptime; C68: week of the year; C69: ISO weeks. *)
From Coq Require Import ZArith QArith Qround Qabs List Bool Lia Lqa String.
From Coq Require Import ZifyBool ZifyNat ZifyN.
From Verif Require Import Base Flt QUtil BaseModel MiscModel BadiModel BaseProofs SunProofs SpecBadi BadiProofs BadiProofs2 BadiProofs3 DecProofs BadiProofs4 LongYear LongProofs BadiProofs5 MeeusFloat
  ClockProofs3 ClockProofs4 TduModel DateModel SpecDate TduProofs TduProofs2 TduProofs3 DateProofs SampleSun PropertiesBadi PropertiesDate PropertiesDate2
  TimeModel SpecTime TimeProofs PropertiesTime PropertiesDt TextModel SpecText TextProofs PropertiesText StrfModel SpecStrf StrfProofs PropertiesStrf PropertiesStrf2 PropertiesStrf3 PropertiesStrf4 PropertiesStrf5
  SpecStrp StrpModel StrpProofs PropertiesStrp PropertiesStrp2.
Import ListNotations.
Local Open Scope Z_scope.
Ltac Zify.zify_post_hook ::= Z.div_mod_to_equations.

(** C67: whatever the text and the format, what strptime returns is a short datetime with a date and a clock the constructor
    accepts, fold 0, and no zone or one of less than a day. *)
Theorem C67_result : forall rnd m sl zid data f r, Nearest rnd -> evening rnd m -> strptime rnd m sl zid data f = Ok r ->
  exists y mo d, dt_d r = DShort y mo d /\ -1843 <= y <= 1162 /\ 0 <= mo <= 19 /\ (y <= 1161 -> valid_bday (leap_of rnd m) y mo d) /\
    date_new rnd m [y; mo; d] = Ok (dt_d r) /\ valid_dt_clock r /\ dt_fold r = 0 /\ (dt_tz r = None \/ exists o, dt_tz r = Some {| tz_id := zid; tz_off := Some o |}).
Proof.
  intros rnd m sl zid data f r N E H. unfold strptime in H. destruct (start rnd m sl data f) as [[[st [[[[y mo] d] w] j]] z]|]; [|discriminate]. cbn [bind] in H.
  assert (TZ : exists tzi, (tzi = None \/ exists o, tzi = Some {| tz_id := zid; tz_off := Some o |}) /\ good_offset tzi /\
    dt_new rnd m [y; mo; d] (dflt1 (st Hour)) (dflt1 (st Minute)) (dflt1 (st Second)) (dflt1 (st Fraction)) tzi 0 = Ok r).
  { destruct (st Gmtoff) as [o|]; cbn [bind] in H; [|exists None; split; [left; reflexivity|]; split; [intros o Q; discriminate|exact H]].
    set (off := o * 1000000 + dflt1 (st GmtoffFraction)) in *. destruct ((- (DAY - 1) <=? off) && (off <=? DAY - 1)) eqn:Q; cbn [bind] in H; [|discriminate].
    exists (Some {| tz_id := zid; tz_off := Some off |}). split; [right; eexists; reflexivity|]. split; [|exact H]. intros o' Q'. cbn in Q'. assert (o' = off) by congruence. change DAY with 86400000000 in Q. lia. }
  destruct TZ as (tzi & T1 & T2 & R). apply C56_datetime_constructor in R as (dd & DN & C & _ & ->). cbn [dt_d dt_fold dt_tz].
  pose proof DN as DN'. unfold date_new in DN'. destruct (check_short rnd (year_table rnd m) (sd y mo d)) as [[]|] eqn:CS; [|discriminate]. cbn [bind] in DN'. assert (DE : DShort y mo d = dd) by congruence.
  pose proof (check_short_range rnd m (sd y mo d) CS) as (YR & MR). cbn [s_y s_m sd] in YR, MR.
  exists y, mo, d. split; [symmetry; exact DE|]. split; [exact YR|]. split; [exact MR|]. split; [intro Y1; apply (valid_iff rnd N m E y mo d ltac:(lia)); exact CS|].
  split; [exact DN|]. split; [split; [exact C|split; [left; reflexivity|exact T2]]|]. split; [reflexivity|exact T1].
Qed.
Print Assumptions C67_result.

(** ** Formats of any known directives *)
Definition dir_ok (sl : sloc) (txt : Z -> text) (c : Z) : Prop :=
  table sl c = Some (RGrp c (inner sl c)) /\ groups (inner sl c) = [] /\ special c = false /\ is_space c = false /\
  (forall s, first (inner sl c) (txt c ++ s) = Some ([], s)) /\ exists x t, txt c = x :: t /\ is_space x = false.
Definition simple (p : piece) : Prop := match p with L c => c <> 37 | D _ => True | DM _ _ => False end.
Lemma find_ok sl txt l : Forall simple l -> (forall c, In c (letters l) -> dir_ok sl txt c) -> NoDup (letters l) -> find_regex sl (format_text l) (printed txt l) = Ok (found txt l).
Proof.
  intros SI DO ND. apply find_pieces; [| |exact ND].
  - clear ND. induction SI as [|p l P SI IH]; [constructor|]. constructor; [|apply IH; intros c I; apply DO; unfold letters; cbn [flat_map]; apply in_or_app; right; exact I].
    destruct p as [c|c|]; [exact P| |exact P]. destruct (DO c ltac:(left; reflexivity)) as (T & G & SP & WS & _). split; [exact SP|]. split; [exact WS|]. exists (inner sl c). split; assumption.
  - clear ND. induction SI as [|p l P SI IH]; [constructor|]. constructor; [|apply IH; intros c I; apply DO; unfold letters; cbn [flat_map]; apply in_or_app; right; exact I].
    destruct p as [c|c|]; [exact Logic.I| |exact P]. destruct (DO c ltac:(left; reflexivity)) as (T & G & SP & WS & F & X). exists (inner sl c). split; [exact T|]. split; [exact F|exact X].
Qed.
Lemma dir_rt sl a y mo d w doy c : std sl -> -9999 <= y <= 9999 -> 0 <= mo <= 19 -> 1 <= d <= 19 -> 0 <= w <= 6 -> 1 <= doy <= 366 -> valid_clock (dt_h a) (dt_mi a) (dt_s a) (dt_us a) ->
  In c (str "YmBbdHMSfAaj") -> (c = 72 -> dt_h a <= 23) -> forall txt, txt c = rt_txt a y mo d w doy c -> dir_ok sl txt c.
Proof.
  intros SL Y M DD W J C I H txt TX. destruct (tab sl SL c I) as (T & G & SP & WS). unfold dir_ok. rewrite TX. repeat (split; [assumption|]).
  split; [intro s; apply txt_first; assumption|apply txt_head; assumption].
Qed.
Lemma dir_cols sl txt c n z : table sl c = Some (RGrp c (inner sl c)) -> groups (inner sl c) = [] -> special c = false -> is_space c = false -> txt c = columns (S n) z ->
  (forall s, first (inner sl c) (columns (S n) z ++ s) = Some ([], s)) -> dir_ok sl txt c.
Proof. intros T G SP WS TX F. unfold dir_ok. rewrite TX. split; [exact T|]. split; [exact G|]. split; [exact SP|]. split; [exact WS|]. split; [exact F|apply cols_head]. Qed.

(** ** Week of the year *)
Definition wk_txt (y wk w c : Z) : text := if c =? 89 then signed_year y else if c =? 85 then columns 2 wk else nth (Z.to_nat w) DAYNAMES [].
Definition wk_fld (c : Z) : field := if c =? 89 then Year else if c =? 85 then WeekOfYear else Weekday.
Definition wk_val (y wk w : Z) (f : field) : Z := match f with Year => y | WeekOfYear => wk | _ => w end.
Definition fmt_week : list piece := [D 89; L 32; D 85; L 32; D 65].
Definition zero_dt : pdt := mk_dt 1 1 1 0 0 0 0 None.
(** the day of the year that strptime computes *)
Definition read_doy (fw wk w : Z) : Z := if wk =? 0 then if w <? fw then 7 - fw + w + 1 else 1 + w - fw else 1 + ((7 - fw) mod 7 + 7 * (wk - 1)) + w.
Lemma read_week rnd m sl zid y wk w y' mo' d' : Nearest rnd -> evening rnd m -> naw_ruz_order rnd m -> std sl -> -1843 <= y <= 1161 -> 0 <= wk <= 52 -> 0 <= w <= 6 ->
  1 <= read_doy (zw y 1 1) wk w -> okd y' mo' d' -> fromordinal rnd m true (read_doy (zw y 1 1) wk w - 1 + zord y 1 1) = Ok (DShort y' mo' d') ->
  strptime rnd m sl zid (printed (wk_txt y wk w) fmt_week) (format_text fmt_week) = Ok (mk_dt y' mo' d' 0 0 0 0 None).
Proof.
  intros N E O SL Y WK W J K' FO. unfold strptime, start.
  assert (VC : valid_clock 0 0 0 0) by (unfold valid_clock; lia).
  assert (DO : forall c, In c (letters fmt_week) -> dir_ok sl (wk_txt y wk w) c).
  { intros c [<-|[<-|[<-|[]]]].
    - apply (dir_rt sl zero_dt y 1 1 w 1); try assumption; try lia; [apply in_mem; reflexivity|reflexivity].
    - apply (dir_cols sl _ 85 1 wk); try reflexivity. intro s. apply U_cols. lia.
    - apply (dir_rt sl zero_dt y 1 1 w 1); try assumption; try lia; [apply in_mem; reflexivity|reflexivity]. }
  rewrite (find_ok sl); [|repeat (constructor; [cbn; try lia; exact Logic.I|]); constructor|exact DO|apply nodup_check; reflexivity]. cbn [bind].
  destruct (found_values sl (wk_txt y wk w) wk_fld (wk_val y wk w) (found (wk_txt y wk w) fmt_week) (letters fmt_week) dots0) as (st & PF & ST).
  { intros c st [<-|[<-|[<-|[]]]].
    - apply (step_ok sl zero_dt y 1 1 w 1 SL); try assumption; try lia. apply in_mem. reflexivity.
    - unfold found_step. cbn [Z.eqb Pos.eqb orb]. change (wk_txt y wk w 85) with (columns 2 wk). rewrite pyint_columns by (try lia; change (10 ^ Z.of_nat 2) with 100; lia). reflexivity.
    - apply (step_ok sl zero_dt y 1 1 w 1 SL); try assumption; try lia. apply in_mem. reflexivity. }
  unfold parse_found. change (found (wk_txt y wk w) fmt_week) with (map (fun c => (c, wk_txt y wk w c)) (letters fmt_week)) in PF |- *. rewrite PF. cbn [bind].
  assert (A1 : st IsoYear = None) by (rewrite ST; reflexivity). assert (A2 : st IsoWeek = None) by (rewrite ST; reflexivity). assert (A3 : st Gmtoff = None) by (rewrite ST; reflexivity).
  assert (A4 : st Year = Some y) by (rewrite ST; reflexivity). assert (A5 : st WeekOfYear = Some wk) by (rewrite ST; reflexivity). assert (A6 : st Weekday = Some w) by (rewrite ST; reflexivity).
  assert (A7 : st Julian = None) by (rewrite ST; reflexivity).
  unfold check_iso_week. rewrite A1, A2. cbn [bind]. assert (K1 : okd y 1 1) by (split; [exact Y|]; split; [lia|]; unfold bmonth_len; cbn; lia).
  assert (W1 : weekday rnd m (DShort y 1 1) = Ok (zw y 1 1)) by (apply (weekday_ok rnd N m E O (DShort y 1 1) y 1 1 ltac:(cbn; tauto) K1)).
  assert (MS : miscellaneous rnd m st = Ok (y', mo', d', w, read_doy (zw y 1 1) wk w)).
  { unfold miscellaneous. rewrite A4, A5, A6, A7. unfold calc_julian. rewrite (new_short rnd N m E y 1 1 K1). cbn [bind]. rewrite W1. cbn [bind]. fold (read_doy (zw y 1 1) wk w).
    destruct (Z.leb_spec (read_doy (zw y 1 1) wk w) 0); [lia|]. cbn [bind]. rewrite (new_short rnd N m E y 1 1 K1). cbn [bind].
    rewrite (toord_ok rnd N m E O (DShort y 1 1) y 1 1 ltac:(cbn; tauto) K1). cbn [bind]. rewrite FO. cbn [bind ymd]. reflexivity. }
  rewrite MS. cbn [bind]. rewrite A3. cbn [bind]. assert (A8 : forall f, (f = Hour \/ f = Minute \/ f = Second \/ f = Fraction) -> st f = Some 0) by (intros f [->|[->|[->| ->]]]; rewrite ST; reflexivity).
  rewrite !A8 by tauto. cbn [dflt1]. rewrite dt_new_eq, (new_short rnd N m E y' mo' d' K'). reflexivity.
Qed.
Lemma print_week rnd m lo a zi y mo d : Nearest rnd -> evening rnd m -> naw_ruz_order rnd m -> printable rnd m a zi y mo d ->
  let wk := (zord y mo d - w1 (yord y)) / 7 + 1 in
  dt_strftime rnd m lo a zi (str "%U") = Ok (columns 2 wk) /\ 0 <= wk <= 53 /\ dt_strftime rnd m lo a zi (format_text fmt_week) = Ok (printed (wk_txt y wk (zw y mo d)) fmt_week).
Proof.
  intros N E O P wk. destruct (printable_struct rnd m a zi y mo d N E O P) as (s & w & _ & W & WR & GY & MO & MDD & SH & MI & SS & WD & YD & _ & _ & _ & X).
  destruct P as (SU & (C & _) & _). destruct (sup_ok rnd m (dt_d a) y mo d N E SU) as (DN & K & YL). pose proof K as (KY & KM & KD). unfold valid_clock in C.
  assert (WE : w = zw y mo d) by (pose proof (proj1 (weekday_ok rnd N m E O (dt_d a) y mo d DN K)) as Q; unfold zw; congruence).
  assert (R : 0 <= wk <= 53). { unfold wk. pose proof (rd_range y mo d KY KM KD). pose proof (w1_spec (yord y)) as WS. unfold zord, yord in *. pose proof (year_len y KY). destruct (zleap y); cbn [b2z] in *; lia. }
  assert (FU : f_U rnd m s = Ok (columns 2 wk)).
  { unfold f_U, year_week_day. rewrite GY, MO, MDD, (week1_ok rnd N m E O y) by lia. cbn [bind]. rewrite (ymd2ord_ok rnd N m E y mo d O ltac:(lia) KM ltac:(lia)). cbn [bind]. fold wk. rewrite two by lia. reflexivity. }
  split; [etransitivity; [apply (one_directive rnd m lo a zi s X 85); [discriminate|apply in_mem; reflexivity]|exact FU]|]. split; [exact R|].
  rewrite X. set (txt := fun c => if c =? 102 then columns 6 (dt_us a) else wk_txt y wk (zw y mo d) c). assert (TE : printed (wk_txt y wk (zw y mo d)) fmt_week = printed txt fmt_week) by reflexivity. rewrite TE.
  apply print_pieces; [repeat (constructor; [first [apply in_mem; reflexivity|discriminate]|]); constructor|discriminate|cbn; tauto|reflexivity|lia|].
  intros c [<-|[<-|[<-|[]]]] _.
  - change (directive rnd m lo s 89 0) with (@Ok text (f_G s)). unfold f_G. rewrite GY, year_minus by lia. reflexivity.
  - exact FU.
  - change (directive rnd m lo s 65 0) with (f_A s). unfold f_A. rewrite WD, WE. rewrite WE in WR. destruct (name_day DAYNAMES (zw y mo d) eq_refl WR) as (t & T1 & T2). rewrite T1. change (txt 65) with (nth (Z.to_nat (zw y mo d)) DAYNAMES []). rewrite (nth_of _ _ _ _ T2). reflexivity.
Qed.
Lemma week_doy y mo d : okd y mo d -> let fw := zw y 1 1 in let wk := (zord y mo d - w1 (yord y)) / 7 + 1 in
  zord y 1 1 + read_doy fw wk (zw y mo d) - 1 = zord y mo d + (if (1 <=? fw) && (fw <=? 3) then 7 else 0) /\ 1 <= read_doy fw wk (zw y mo d).
Proof.
  intros (Y & M & DD) fw wk. pose proof (rd_range y mo d Y M DD) as R0. assert (R : yord y <= zord y mo d < ystart (y + 1) + fudge y) by (unfold yord, zord; lia). clear R0.
  pose proof (zord_11 y) as Z1. unfold fw, wk, zw, read_doy, w1 in *. rewrite !Z1. clear Z1. generalize dependent (zord y mo d). intros t R. set (f := yord y) in *. clearbody f.
  destruct (Z.ltb_spec 3 ((f - 6) mod 7)); destruct (Z.leb_spec 1 ((f + 1) mod 7)); destruct (Z.leb_spec ((f + 1) mod 7) 3); cbn [andb];
    match goal with |- context [?x =? 0] => destruct (Z.eqb_spec x 0) end; try (destruct (Z.ltb_spec ((t + 1) mod 7) ((f + 1) mod 7))); lia.
Qed.

(** C68: year, week of the year and weekday name are read back, when Naw-Ruz falls on the first day of the week or after the fourth. *)
Theorem C68_week : forall rnd m lo sl zid a zi y mo d fw wk, Nearest rnd -> evening rnd m -> naw_ruz_order rnd m -> printable rnd m a zi y mo d -> std sl ->
  weekday rnd m (DShort y 1 1) = Ok fw -> fw = 0 \/ 4 <= fw -> dt_strftime rnd m lo a zi (str "%U") = Ok (columns 2 wk) -> 0 <= wk <= 52 ->
  (y <= 1160 \/ (mo = 1 /\ d = 1)) -> ~ In (y, mo, d) refused_bdates -> ~ In y stale_years ->
  exists t, dt_strftime rnd m lo a zi (str "%Y %U %A") = Ok t /\ strptime rnd m sl zid t (str "%Y %U %A") = Ok (mk_dt y mo d 0 0 0 0 None).
Proof.
  intros rnd m lo sl zid a zi y mo d fw wk N E O P SL FW F U WK L RF STY. destruct (print_week rnd m lo a zi y mo d N E O P) as (PU & PR & PT).
  set (wk' := (zord y mo d - w1 (yord y)) / 7 + 1) in *. assert (WE : wk' = wk).
  { rewrite PU in U. assert (Q : pyint (columns 2 wk') = pyint (columns 2 wk)) by congruence. rewrite !pyint_columns in Q by (try lia; change (10 ^ Z.of_nat 2) with 100; lia). congruence. }
  destruct P as (SU & _). destruct (sup_ok rnd m (dt_d a) y mo d N E SU) as (DN & K & YL). pose proof K as (KY & KM & KD).
  assert (K1 : okd y 1 1) by (split; [exact KY|]; split; [lia|]; unfold bmonth_len; cbn; lia).
  assert (FE : fw = zw y 1 1). { pose proof (proj1 (weekday_ok rnd N m E O (DShort y 1 1) y 1 1 ltac:(cbn; tauto) K1)) as Q. unfold zw. congruence. }
  destruct (week_doy y mo d K) as (W1 & W2). fold wk' in W1, W2.
  exists (printed (wk_txt y wk' (zw y mo d)) fmt_week). split; [exact PT|].
  apply (read_week rnd m sl zid y wk' (zw y mo d) y mo d N E O SL KY ltac:(lia)); [unfold zw; lia|exact W2|exact K|].
  replace (read_doy (zw y 1 1) wk' (zw y mo d) - 1 + zord y 1 1) with (zord y mo d). 2:{ rewrite <- FE in *. destruct (Z.leb_spec 1 fw), (Z.leb_spec fw 3); cbn [andb] in W1; lia. }
  rewrite (zord_steady y mo d STY).
  rewrite (fromord_ok rnd N m E) by (exact K || (apply late_bound; assumption)). destruct (inb (y, mo, d) refused_bdates) eqn:IB; [exfalso; apply RF, inb_in, IB|]. reflexivity.
Qed.
Print Assumptions C68_week.
(** Refuted: in the years that begin on the second, third or fourth day of the week the same text is read one week late. *)
Theorem C68_week_late_refuted : forall rnd m lo sl zid a zi y mo d fw wk b, Nearest rnd -> evening rnd m -> naw_ruz_order rnd m -> printable rnd m a zi y mo d -> std sl ->
  weekday rnd m (DShort y 1 1) = Ok fw -> 1 <= fw <= 3 -> dt_strftime rnd m lo a zi (str "%U") = Ok (columns 2 wk) -> 0 <= wk <= 52 ->
  date_add rnd m (DShort y mo d) 7 = Ok b ->
  exists t, dt_strftime rnd m lo a zi (str "%Y %U %A") = Ok t /\
    strptime rnd m sl zid t (str "%Y %U %A") = Ok {| dt_d := b; dt_h := 0; dt_mi := 0; dt_s := 0; dt_us := 0; dt_tz := None; dt_fold := 0 |}.
Proof.
  intros rnd m lo sl zid a zi y mo d fw wk b N E O P SL FW F U WK DA. destruct (print_week rnd m lo a zi y mo d N E O P) as (PU & PR & PT).
  set (wk' := (zord y mo d - w1 (yord y)) / 7 + 1) in *. assert (WE : wk' = wk).
  { rewrite PU in U. assert (Q : pyint (columns 2 wk') = pyint (columns 2 wk)) by congruence. rewrite !pyint_columns in Q by (try lia; change (10 ^ Z.of_nat 2) with 100; lia). congruence. }
  destruct P as (SU & _). destruct (sup_ok rnd m (dt_d a) y mo d N E SU) as (DN & K & YL). pose proof K as (KY & KM & KD).
  assert (K1 : okd y 1 1) by (split; [exact KY|]; split; [lia|]; unfold bmonth_len; cbn; lia).
  assert (FE : fw = zw y 1 1). { pose proof (proj1 (weekday_ok rnd N m E O (DShort y 1 1) y 1 1 ltac:(cbn; tauto) K1)) as Q. unfold zw. congruence. }
  destruct (week_doy y mo d K) as (W1 & W2). fold wk' in W1, W2.
  rewrite (add_ok rnd N m E O (DShort y mo d) y mo d 7 ltac:(cbn; tauto) K) in DA. destruct ((77 <? _) && _) eqn:RG; [|discriminate]. cbn [is_short] in DA.
  destruct (fromord_inv rnd N m E true (zord y mo d + 7) b ltac:(lia) DA) as (y' & mo' & d' & K' & NE & _ & _ & ->). cbn [form_of] in *.
  exists (printed (wk_txt y wk' (zw y mo d)) fmt_week). split; [exact PT|].
  apply (read_week rnd m sl zid y wk' (zw y mo d) y' mo' d' N E O SL KY ltac:(lia)); [unfold zw; lia|exact W2|exact K'|].
  replace (read_doy (zw y 1 1) wk' (zw y mo d) - 1 + zord y 1 1) with (zord y mo d + 7). 2:{ rewrite <- FE in *. destruct (Z.leb_spec 1 fw), (Z.leb_spec fw 3); cbn [andb] in W1; lia. }
  exact DA.
Qed.
Print Assumptions C68_week_late_refuted.
(** what a regular expression without white space consumes *)
Fixpoint within (P : Z -> Prop) (r : rx) : Prop :=
  match r with
  | REps => True
  | RC p => forall c, p c = true -> P c
  | RWs => False
  | RSeq a b | RAlt a b => within P a /\ within P b
  | RGrp _ a => within P a
  end.
Lemma rmatch_within P r : forall s x, within P r -> In x (rmatch r s) -> exists p, s = p ++ snd x /\ Forall P p.
Proof.
  induction r as [|p| |a IHa b IHb|a IHa b IHb|n a IHa]; intros s x W I; cbn [rmatch within] in *.
  - destruct I as [<-|[]]. exists []. split; [reflexivity|constructor].
  - destruct s as [|c s']; [destruct I|]. destruct (p c) eqn:C; [|destruct I]. destruct I as [<-|[]]. exists [c]. split; [reflexivity|]. constructor; [apply W, C|constructor].
  - destruct W.
  - destruct W as [Wa Wb]. apply in_flat_map in I. destruct I as (y & Y & I). apply in_map_iff in I. destruct I as (z & <- & Z). cbn [snd].
    destruct (IHa _ _ Wa Y) as (p & E1 & F1). destruct (IHb _ _ Wb Z) as (q & E2 & F2). exists (p ++ q). split; [rewrite <- app_assoc; congruence|apply Forall_app; tauto].
  - destruct W as [Wa Wb]. apply in_app_or in I. destruct I as [I|I]; [exact (IHa _ _ Wa I)|exact (IHb _ _ Wb I)].
  - apply in_map_iff in I. destruct I as (z & <- & Z). exact (IHa _ _ W Z).
Qed.
Lemma rmatch_seq_nil a b s : (forall x, In x (rmatch a s) -> rmatch b (snd x) = []) -> rmatch (RSeq a b) s = [].
Proof.
  intro H. cbn [rmatch]. induction (rmatch a s) as [|x l IH]; [reflexivity|]. cbn [flat_map]. rewrite (H x (or_introl eq_refl)). apply IH. intros y I. apply H. right. exact I.
Qed.
Lemma digit_nospace c : is_digit c = true -> is_space c = false.
Proof.
  intro H. unfold is_digit in H. apply andb_true_iff in H. destruct H as [A B]. apply Z.leb_le in A. apply Z.leb_le in B. unfold is_space.
  repeat match goal with |- context [?a <=? ?b] => first [rewrite (proj2 (Z.leb_le a b)) by lia | rewrite (proj2 (Z.leb_gt a b)) by lia] end.
  repeat match goal with |- context [?a =? ?b] => rewrite (proj2 (Z.eqb_neq a b)) by lia end. reflexivity.
Qed.
Lemma year_rx_within : within (fun c => is_space c = false) (RGrp 89 (seqs [opt (one 45); upto 4])).
Proof.
  cbn [within seqs opt upto one dg]. repeat split; try exact digit_nospace. intros c H. apply Z.eqb_eq in H. change (lower 45) with 45 in H.
  assert (E : c = 45); [|subst c; reflexivity]. unfold lower in H.
  repeat match type of H with (if ?b then _ else _) = _ => destruct b eqn:?B; [exfalso; repeat (apply andb_true_iff in B; destruct B as [B ?]); lia|] end. exact H.
Qed.
Lemma signed_year_nospace y : -1843 <= y <= 1161 -> Forall (fun c => is_space c = false) (signed_year y).
Proof.
  intro Y. apply Forall_forall. intros c I. pose (P := fun y => forallb (fun c => negb (is_space c)) (signed_year y)).
  assert (A : P y = true) by (apply (zforall P (-1843) 3005); [vm_compute; reflexivity|lia]). unfold P in A. rewrite forallb_forall in A. specialize (A c I). destruct (is_space c); [discriminate|reflexivity].
Qed.
Lemma split_space q t c rest r : Forall (fun c => is_space c = false) q -> Forall (fun c => is_space c = false) t -> is_space c = true ->
  q ++ c :: rest = t ++ 32 :: r -> q = t /\ c = 32 /\ rest = r.
Proof.
  revert t. induction q as [|x q IH]; intros [|y t] FQ FT S E; cbn in E.
  - injection E as -> ->. tauto.
  - injection E as -> _. apply Forall_inv in FT. congruence.
  - injection E as -> _. apply Forall_inv in FQ. discriminate.
  - injection E as -> E. apply Forall_inv_tail in FQ. apply Forall_inv_tail in FT. destruct (IH t FQ FT S E) as (-> & A). tauto.
Qed.
(** Refuted: week 53, which %U prints for the last days of some years, is not accepted. *)
Theorem C68_week_53_refuted : forall rnd m lo sl zid a zi y mo d, Nearest rnd -> evening rnd m -> naw_ruz_order rnd m -> printable rnd m a zi y mo d -> std sl ->
  dt_strftime rnd m lo a zi (str "%U") = Ok (str "53") ->
  exists t, dt_strftime rnd m lo a zi (str "%Y %U %A") = Ok t /\ strptime rnd m sl zid t (str "%Y %U %A") = Err ValueError.
Proof.
  intros rnd m lo sl zid a zi y mo d N E O P SL U. destruct (print_week rnd m lo a zi y mo d N E O P) as (PU & PR & PT).
  set (wk' := (zord y mo d - w1 (yord y)) / 7 + 1) in *. assert (WE : wk' = 53).
  { rewrite PU in U. assert (Q : pyint (columns 2 wk') = pyint (str "53")) by congruence. rewrite !pyint_columns in Q by (try lia; change (10 ^ Z.of_nat 2) with 100; lia). change (pyint (str "53")) with (@Ok Z 53) in Q. congruence. }
  destruct P as (SU & _). destruct (sup_ok rnd m (dt_d a) y mo d N E SU) as (DN & K & YL). pose proof K as (KY & KM & KD). clearbody wk'. subst wk'.
  exists (printed (wk_txt y 53 (zw y mo d)) fmt_week). split; [exact PT|]. change (str "%Y %U %A") with (format_text fmt_week).
  assert (RX : pattern (table sl) false (format_text fmt_week) = pattern (table sample_sloc) false (format_text fmt_week)).
  { assert (T1 : table sl 89 = table sample_sloc 89) by reflexivity. assert (T2 : table sl 85 = table sample_sloc 85) by reflexivity.
    assert (T3 : table sl 65 = table sample_sloc 65). { change (table sl 65) with (Some (seq_rx (sl_A sl) 65)). destruct SL as (A & _). rewrite A. reflexivity. }
    change (format_text fmt_week) with [37; 89; 32; 37; 85; 32; 37; 65]. cbn [pattern Z.eqb Pos.eqb]. rewrite T1, T2, T3. reflexivity. }
  unfold strptime, start, find_regex, compile. rewrite RX.
  assert (PA : pattern (table sample_sloc) false (format_text fmt_week) =
    Ok (RSeq (RGrp 89 (seqs [opt (one 45); upto 4])) (RSeq RWs (RSeq (RGrp 85 (alts [seqs [one 53; rng 48 50]; seqs [rng 48 52; dg]; dg]))
      (RSeq RWs (RSeq (seq_rx (sl_A sample_sloc) 65) REps)))))) by reflexivity.
  rewrite PA. unfold bind. match goal with |- context [no_dup (groups ?r)] => replace (no_dup (groups r)) with true by reflexivity end. cbv beta iota. unfold run.
  replace (rmatch _ (printed (wk_txt y 53 (zw y mo d)) fmt_week)) with (@nil (list (Z * text) * text)); [reflexivity|]. symmetry. apply rmatch_seq_nil. intros x IX.
  change (printed (wk_txt y 53 (zw y mo d)) fmt_week) with (signed_year y ++ 32 :: 53 :: 51 :: 32 :: (nth (Z.to_nat (zw y mo d)) DAYNAMES [] ++ [])) in IX.
  destruct (rmatch_within (fun c => is_space c = false) _ _ _ year_rx_within IX) as (q & E1 & FQ).
  apply rmatch_seq_nil. intros x2 IX2. destruct (snd x) as [|c rest] eqn:SX; [cbn in IX2; contradiction|].
  destruct (is_space c) eqn:SC; [|cbn in IX2; rewrite SC in IX2; contradiction].
  assert (NS : Forall (fun c => is_space c = false) (signed_year y)) by (apply signed_year_nospace; lia).
  destruct (split_space q (signed_year y) c rest _ FQ NS SC (eq_sym E1)) as (_ & EC & ER). subst c rest.
  cbn in IX2. destruct IX2 as [<-|[]]. cbn [snd]. apply rmatch_seq_nil. intros x3 IX3. cbn in IX3. destruct IX3 as [<-|[]]. reflexivity.
Qed.
Print Assumptions C68_week_53_refuted.
Example C68_case : forall rnd, Nearest rnd -> printable rnd sample_sun (mk_dt 183 15 4 0 0 0 0 None) None 183 15 4 /\ 
  weekday b64 sample_sun (DShort 183 1 1) = Ok 6 /\ dt_strftime b64 sample_sun sample_locale (mk_dt 183 15 4 0 0 0 0 None) None (str "%Y %U %A") = Ok (u "0183 39 Kamál") /\
  strptime b64 sample_sun sample_sloc 0 (u "0183 39 Kamál") (str "%Y %U %A") = Ok (mk_dt 183 15 4 0 0 0 0 None) /\
  weekday b64 sample_sun (DShort 181 1 1) = Ok 3 /\ dt_strftime b64 sample_sun sample_locale (mk_dt 181 1 1 0 0 0 0 None) None (str "%Y %U %A") = Ok (u "0181 01 Fiḍāl") /\
  strptime b64 sample_sun sample_sloc 0 (u "0181 01 Fiḍāl") (str "%Y %U %A") = Ok (mk_dt 181 1 8 0 0 0 0 None) /\
  dt_strftime b64 sample_sun sample_locale (mk_dt 181 19 19 0 0 0 0 None) None (str "%U") = Ok (str "53").
Proof.
  intros rnd N. split; [split; [sup|split; [split; [cbn; unfold valid_clock; lia|split; [left; reflexivity|intros o OO; discriminate]]|split; [reflexivity|left; reflexivity]]]|].
  repeat (split; [vm_compute; reflexivity|]). vm_compute. reflexivity.
Qed.

(** ** C69: year and week of the ISO calendar *)
Definition iso_txt (y wk c : Z) (tw : text) : text := if c =? 71 then signed_year y else if c =? 86 then columns 2 wk else tw.
Definition iso_fld (c : Z) : field := if c =? 71 then IsoYear else if c =? 86 then IsoWeek else Weekday.
Definition iso_val (y wk w : Z) (f : field) : Z := match f with IsoYear => y | IsoWeek => wk | _ => w end.
Definition fmt_iso (c : Z) : list piece := [D 71; L 45; D 86; L 45; D c].
Lemma read_iso rnd m sl zid c tw w y wk : c = 117 \/ c = 65 -> (forall txt, txt c = tw -> dir_ok sl txt c) -> (forall g st, found_step sl g st (c, tw) = Ok (put st Weekday w)) ->
  Nearest rnd -> evening rnd m -> naw_ruz_order rnd m -> -9999 <= y <= 9999 -> 1 <= wk <= 53 ->
  strptime rnd m sl zid (signed_year y ++ str "-" ++ columns 2 wk ++ str "-" ++ tw) (format_text (fmt_iso c)) =
  (let* a := fromisocalendar rnd m true y wk (w + 1) in
   let '(y', mo', d') := ymd a in
   let* b := date_new rnd m [y'; mo'; d'] in let* _ := toordinal rnd m b in let* b1 := date_new rnd m [y'; 1; 1] in let* _ := toordinal rnd m b1 in
   dt_new rnd m [y'; mo'; d'] 0 0 0 0 None 0).
Proof.
  intros C DC SC N E O Y WK. unfold strptime, start. set (txt := fun x => iso_txt y wk x tw).
  assert (C71 : c =? 71 = false) by lia. assert (C86 : c =? 86 = false) by lia.
  assert (TC : txt c = tw) by (unfold txt, iso_txt; rewrite C71, C86; reflexivity).
  assert (PT : signed_year y ++ str "-" ++ columns 2 wk ++ str "-" ++ tw = printed txt (fmt_iso c)) by (unfold printed, fmt_iso; cbn [flat_map ptext]; rewrite TC, app_nil_r; reflexivity).
  rewrite PT. assert (LT : letters (fmt_iso c) = [71; 86; c]) by reflexivity.
  rewrite (find_ok sl txt (fmt_iso c)).
  - cbn [bind]. destruct (found_values sl txt iso_fld (iso_val y wk w) (found txt (fmt_iso c)) [71; 86; c] dots0) as (st & PF & ST).
    { intros x st [<-|[<-|[<-|[]]]].
      - unfold found_step. cbn [Z.eqb Pos.eqb orb]. change (txt 71) with (signed_year y). unfold signed_year.
        destruct (Z.ltb_spec y 0); [change (str "-" ++ columns 4 (- y)) with (45 :: columns 4 (- y)); rewrite pyint_minus|rewrite pyint_columns]; try lia; try (change (10 ^ Z.of_nat 4) with 10000; lia); cbn [bind]; [replace (- - y) with y by lia|]; reflexivity.
      - unfold found_step. cbn [Z.eqb Pos.eqb orb]. change (txt 86) with (columns 2 wk). rewrite pyint_columns by (try lia; change (10 ^ Z.of_nat 2) with 100; lia). reflexivity.
      - rewrite TC, SC. unfold iso_fld. rewrite C71, C86. reflexivity. }
    unfold parse_found. change (found txt (fmt_iso c)) with (map (fun x => (x, txt x)) [71; 86; c]) in PF |- *. rewrite PF. cbn [bind].
    assert (SF : forall f, st f = match f with IsoYear => Some y | IsoWeek => Some wk | Weekday => Some w | _ => dots0 f end).
    { intro f. rewrite ST. cbn [existsb]. replace (iso_fld c) with Weekday by (unfold iso_fld; rewrite C71, C86; reflexivity). destruct f; reflexivity. }
    unfold check_iso_week. rewrite !SF. cbn [dots0 bind]. unfold miscellaneous. rewrite !SF. cbn [dots0 dflt1 bind].
    destruct (fromisocalendar rnd m true y wk (w + 1)) as [a|]; [|reflexivity]. cbn [bind]. destruct (ymd a) as [[y' mo'] d']. cbn [bind].
    destruct (date_new rnd m [y'; mo'; d']) as [b|]; [|reflexivity]. cbn [bind]. destruct (toordinal rnd m b); [|reflexivity]. cbn [bind].
    destruct (date_new rnd m [y'; 1; 1]) as [b1|]; [|reflexivity]. cbn [bind]. destruct (toordinal rnd m b1); [|reflexivity]. cbn [bind]. rewrite !SF. cbn [dots0 dflt1 bind]. reflexivity.
  - repeat (constructor; [cbn; try lia; exact Logic.I|]); constructor.
  - rewrite LT. intros x [<-|[<-|[<-|[]]]]; [| |apply DC, TC].
    + unfold dir_ok. repeat (split; [reflexivity|]). split; [intro s; apply G_cols|]. change (txt 71) with (signed_year y). unfold signed_year. destruct (y <? 0); [exists 45; eexists; split; reflexivity|apply cols_head].
    + apply (dir_cols sl txt 86 1 wk); try reflexivity. intro s. apply V_cols. lia.
  - rewrite LT. repeat constructor; cbn; intuition lia.
Qed.
Lemma iso_result rnd m y wk wd b : Nearest rnd -> evening rnd m -> naw_ruz_order rnd m -> -1842 <= y <= 1161 -> 1 <= wk <= 53 -> fromisocalendar rnd m true y wk wd = Ok b ->
  exists y' mo' d', b = DShort y' mo' d' /\ okd y' mo' d'.
Proof.
  intros N E O Y WK F. 
  assert (X : exists n, -10000 <= n <= 1160000 /\ isoweek_to_badi rnd m true y wk wd = ord2ymd rnd m true n).
  { assert (K1 : okd y 1 1) by (split; [lia|]; split; [lia|]; unfold bmonth_len; cbn; lia).
    unfold fromisocalendar in F. unfold isoweek_to_badi in *. rewrite (week1_ok rnd N m E O y ltac:(lia)) in *. rewrite (dow_ok rnd N m E O y 1 1) in * by lia. cbn [bind] in *.
    pose proof (w1_spec (yord y)) as (_ & WR). assert (YR : -1000 <= yord y <= 1100000).
    { unfold yord. pose proof (fudge_01 y). pose proof (ystart_mono (-1842) y ltac:(lia) ltac:(lia)) as M1. pose proof (ystart_mono y 1161 ltac:(lia) ltac:(lia)) as M2. change (ystart (-1842)) with 78 in M1. change (ystart 1161) with 1096902 in M2. lia. }
    destruct ((0 <? wd) && (wd <? 8)) eqn:WD; [|destruct (negb _); [destruct (_ || _); [destruct (wk =? 52)|]|]; discriminate].
    destruct (negb ((0 <? wk) && (wk <? 52))).
    - destruct (((zord y 1 1 + 1) mod 7 + 1 =? 3) || ((zord y 1 1 + 1) mod 7 + 1 =? 4)).
      + destruct (wk =? 52); [|discriminate]. cbn [passert bind] in *. eexists. split; [|reflexivity]. lia.
      + cbn [passert bind] in *. eexists. split; [|reflexivity]. lia.
    - cbn [passert bind] in *. eexists. split; [|reflexivity]. lia. }
  destruct X as (n & R & X). rewrite (fromiso_ord rnd m true y wk wd n X) in F. destruct (fromord_inv rnd N m E true n b R F) as (y' & mo' & d' & K & _ & _ & _ & ->). exists y', mo', d'. split; [reflexivity|exact K].
Qed.
Lemma iso_accept rnd m b y' mo' d' : Nearest rnd -> evening rnd m -> naw_ruz_order rnd m -> b = DShort y' mo' d' -> okd y' mo' d' ->
  (let '(y', mo', d') := ymd b in
   let* b := date_new rnd m [y'; mo'; d'] in let* _ := toordinal rnd m b in let* b1 := date_new rnd m [y'; 1; 1] in let* _ := toordinal rnd m b1 in
   dt_new rnd m [y'; mo'; d'] 0 0 0 0 None 0) = Ok {| dt_d := b; dt_h := 0; dt_mi := 0; dt_s := 0; dt_us := 0; dt_tz := None; dt_fold := 0 |}.
Proof.
  intros N E O -> K. pose proof K as (KY & _). assert (K1 : okd y' 1 1) by (split; [exact KY|]; split; [lia|]; unfold bmonth_len; cbn; lia). cbn [ymd].
  rewrite (new_short rnd N m E y' mo' d' K). cbn [bind]. rewrite (toord_ok rnd N m E O (DShort y' mo' d') y' mo' d' ltac:(cbn; tauto) K). cbn [bind].
  rewrite (new_short rnd N m E y' 1 1 K1). cbn [bind]. rewrite (toord_ok rnd N m E O (DShort y' 1 1) y' 1 1 ltac:(cbn; tauto) K1). cbn [bind].
  rewrite dt_new_eq, (new_short rnd N m E y' mo' d' K). reflexivity.
Qed.
Lemma iso_name_ok sl k : std sl -> 0 <= k <= 6 ->
  (forall txt, txt 65 = nth (Z.to_nat k) DAYNAMES [] -> dir_ok sl txt 65) /\ (forall g st, found_step sl g st (65, nth (Z.to_nat k) DAYNAMES []) = Ok (put st Weekday k)).
Proof.
  intros SL K. assert (VC : valid_clock 0 0 0 0) by (unfold valid_clock; lia). split.
  - intros txt T. apply (dir_rt sl zero_dt 1 1 1 k 1); try assumption; try lia. apply in_mem. reflexivity.
  - intros g st. apply (step_ok sl zero_dt 1 1 1 k 1 SL); try assumption; try lia. apply in_mem. reflexivity.
Qed.

(** C69: an ISO year, week and weekday name give the date that fromisocalendar gives for them, or its error. *)
Theorem C69_iso_name : forall rnd m sl zid y wk k, Nearest rnd -> evening rnd m -> naw_ruz_order rnd m -> std sl -> -1842 <= y <= 1161 -> 1 <= wk <= 53 -> 0 <= k <= 6 ->
  strptime rnd m sl zid (signed_year y ++ str "-" ++ columns 2 wk ++ str "-" ++ nth (Z.to_nat k) DAYNAMES []) (str "%G-%V-%A") =
  match fromisocalendar rnd m true y wk (k + 1) with
  | Ok b => Ok {| dt_d := b; dt_h := 0; dt_mi := 0; dt_s := 0; dt_us := 0; dt_tz := None; dt_fold := 0 |}
  | Err e => Err e
  end.
Proof.
  intros rnd m sl zid y wk k N E O SL Y WK K. destruct (iso_name_ok sl k SL K) as (DO & SO). change (str "%G-%V-%A") with (format_text (fmt_iso 65)).
  rewrite (read_iso rnd m sl zid 65 _ k y wk (or_intror eq_refl) DO SO N E O ltac:(lia) WK). destruct (fromisocalendar rnd m true y wk (k + 1)) as [b|] eqn:F; [|reflexivity]. cbn [bind].
  destruct (iso_result rnd m y wk (k + 1) b N E O Y WK F) as (y' & mo' & d' & B & KB). apply (iso_accept rnd m b y' mo' d' N E O B KB).
Qed.
Print Assumptions C69_iso_name.
(** Refuted: %u, which prints weekdays as 1..7, is read as if it counted from 0: the date is the next day's, and day 7 is refused. *)
Theorem C69_iso_number_refuted : forall rnd m sl zid y wk k, Nearest rnd -> evening rnd m -> naw_ruz_order rnd m -> -1842 <= y <= 1161 -> 1 <= wk <= 51 -> 1 <= k <= 7 ->
  strptime rnd m sl zid (signed_year y ++ str "-" ++ columns 2 wk ++ str "-" ++ columns 1 k) (str "%G-%V-%u") =
  if k =? 7 then Err AssertionError else
  match fromisocalendar rnd m true y wk (k + 1) with
  | Ok b => Ok {| dt_d := b; dt_h := 0; dt_mi := 0; dt_s := 0; dt_us := 0; dt_tz := None; dt_fold := 0 |}
  | Err e => Err e
  end.
Proof.
  intros rnd m sl zid y wk k N E O Y WK K. change (str "%G-%V-%u") with (format_text (fmt_iso 117)).
  assert (DO : forall txt, txt 117 = columns 1 k -> dir_ok sl txt 117) by (intros txt T; apply (dir_cols sl txt 117 0 k); try reflexivity; [exact T|]; intro s; apply u_cols; lia).
  assert (SO : forall g st, found_step sl g st (117, columns 1 k) = Ok (put st Weekday k)).
  { intros g st. unfold found_step. cbn [Z.eqb Pos.eqb orb]. rewrite pyint_columns by (try lia; change (10 ^ Z.of_nat 1) with 10; lia). reflexivity. }
  rewrite (read_iso rnd m sl zid 117 _ k y wk (or_introl eq_refl) DO SO N E O ltac:(lia) ltac:(lia)). destruct (Z.eqb_spec k 7) as [->|NK].
  - assert (F : fromisocalendar rnd m true y wk (7 + 1) = Err AssertionError); [|rewrite F; reflexivity]. unfold fromisocalendar, isoweek_to_badi. replace (negb ((0 <? wk) && (wk <? 52))) with false by lia. reflexivity.
  - destruct (fromisocalendar rnd m true y wk (k + 1)) as [b|] eqn:F; [|reflexivity]. cbn [bind].
    destruct (iso_result rnd m y wk (k + 1) b N E O Y ltac:(lia) F) as (y' & mo' & d' & B & KB). apply (iso_accept rnd m b y' mo' d' N E O B KB).
Qed.
Print Assumptions C69_iso_number_refuted.
Example C69_case : strptime b64 sample_sun sample_sloc 0 (u "0183-12-Kamál") (str "%G-%V-%A") = Ok (mk_dt 183 5 5 0 0 0 0 None) /\ fromisocalendar b64 sample_sun true 183 12 3 = Ok (DShort 183 5 5) /\
  strptime b64 sample_sun sample_sloc 0 (str "0183-12-3") (str "%G-%V-%u") = Ok (mk_dt 183 5 6 0 0 0 0 None) /\ strptime b64 sample_sun sample_sloc 0 (str "0183-12-7") (str "%G-%V-%u") = Err AssertionError.
Proof. repeat (split; [vm_compute; reflexivity|]). vm_compute. reflexivity. Qed.
