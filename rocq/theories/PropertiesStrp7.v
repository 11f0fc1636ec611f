(** PropertiesStrp7.v -- C67: the tuple read from a text; C69: incomplete week dates are refused. *)
From Coq Require Import ZArith QArith Qround Qabs List Bool Lia Lqa String.
From Coq Require Import ZifyBool ZifyNat ZifyN.
From Verif Require Import Base Flt QUtil BaseModel MiscModel BadiModel BaseProofs SunProofs SpecBadi BadiProofs BadiProofs2 BadiProofs3 DecProofs BadiProofs4 LongYear LongProofs BadiProofs5 MeeusFloat
  ClockProofs3 ClockProofs4 TduModel DateModel SpecDate TduProofs TduProofs2 TduProofs3 DateProofs SampleSun PropertiesBadi PropertiesDate PropertiesDate2
  TimeModel SpecTime TimeProofs PropertiesTime PropertiesDt TextModel SpecText TextProofs PropertiesText StrfModel SpecStrf StrfProofs PropertiesStrf PropertiesStrf2 PropertiesStrf3 PropertiesStrf4 PropertiesStrf5
  SpecStrp StrpModel StrpProofs PropertiesStrp PropertiesStrp2 PropertiesStrp3 PropertiesStrp4.
Import ListNotations.
Local Open Scope Z_scope.
Ltac Zify.zify_post_hook ::= Z.div_mod_to_equations.

(** ** The groups of a match *)
Lemma no_groups a : groups a = [] -> forall s g r, In (g, r) (rmatch a s) -> g = [].
Proof.
  induction a as [|p| |a1 IH1 a2 IH2|a1 IH1 a2 IH2|n a IH]; cbn [groups rmatch]; intros G s g r I.
  - destruct I as [I|[]]. congruence.
  - destruct s as [|c s']; [destruct I|]. destruct (p c); [|destruct I]. destruct I as [I|[]]. congruence.
  - apply in_map_iff in I as (x & I & _). congruence.
  - apply app_eq_nil in G as [G1 G2]. apply in_flat_map in I as ((g1 & r1) & I1 & I2). apply in_map_iff in I2 as ((g2 & r2) & E & I2). cbn [fst snd] in *.
    pose proof (IH1 G1 _ _ _ I1). pose proof (IH2 G2 _ _ _ I2). subst. cbn in E. congruence.
  - apply app_eq_nil in G as [G1 G2]. apply in_app_or in I as [I|I]; [exact (IH1 G1 _ _ _ I)|exact (IH2 G2 _ _ _ I)].
  - discriminate.
Qed.
Lemma matched_letters sl l : Forall (known sl) l -> forall ws s g r, In (g, r) (rmatch (prx sl ws l) s) -> map fst g = letters l.
Proof.
  induction 1 as [|p l P K IH]; intros ws s g r I; [cbn in I; destruct I as [I|[]]; injection I as <- <-; reflexivity|].
  assert (SQ : forall a, groups a = [] -> forall w, In (g, r) (rmatch (RSeq a (prx sl w l)) s) -> map fst g = letters l).
  { intros a GA w J. cbn [rmatch] in J. apply in_flat_map in J as ((g1 & r1) & I1 & I2). apply in_map_iff in I2 as ((g2 & r2) & E & I2). cbn [fst snd] in *.
    pose proof (no_groups a GA _ _ _ I1). subst g1. cbn in E. injection E as <- <-. exact (IH w _ _ _ I2). }
  destruct p as [c|c|]; [| |destruct P].
  - cbn [prx] in I. change (letters (L c :: l)) with (letters l). destruct (is_space c); [destruct ws|].
    + exact (IH true _ _ _ I).
    + exact (SQ RWs eq_refl true I).
    + exact (SQ (one c) eq_refl false I).
  - destruct P as (_ & _ & a & T & G). cbn [prx] in I. rewrite T in I. cbn [rmatch] in I. apply in_flat_map in I as ((g1 & r1) & I1 & I2).
    apply in_map_iff in I1 as ((g0 & r0) & E1 & I1). apply in_map_iff in I2 as ((g2 & r2) & E & I2). cbn [fst snd] in *.
    pose proof (no_groups a G _ _ _ I1). subst g0. injection E1 as <- <-. cbn [app] in E. injection E as <- <-. cbn [map fst]. change (letters (D c :: l)) with (c :: letters l). f_equal. exact (IH false _ _ _ I2).
Qed.
Lemma found_letters sl l data : Forall (known sl) l -> NoDup (letters l) ->
  find_regex sl (format_text l) data = Err ValueError \/ exists g, find_regex sl (format_text l) data = Ok g /\ map fst g = letters l.
Proof.
  intros K ND. unfold find_regex, compile. rewrite (pattern_pieces sl l K false). cbn [bind]. rewrite (prx_groups sl l K), (no_dup_ok _ ND). unfold run.
  destruct (rmatch (prx sl false l) data) as [|(g & r) tl] eqn:M; [left; reflexivity|]. destruct r; [|left; reflexivity].
  right. exists g. split; [reflexivity|]. apply (matched_letters sl l K false data g []). rewrite M. left. reflexivity.
Qed.

(** ** Which values are set *)
Lemma digits_value s e : digits_int s = Err e -> e = ValueError.
Proof. unfold digits_int. repeat match goal with |- context [match ?x with _ => _ end] => destruct x end; congruence. Qed.
Lemma pyint_value s e : pyint s = Err e -> e = ValueError.
Proof.
  unfold pyint. destruct (strip s) as [|c r]; [congruence|]. destruct (c =? 45).
  - destruct (digits_int r) eqn:Q; cbn [bind]; [congruence|]. intro H. injection H as <-. exact (digits_value _ _ Q).
  - destruct (c =? 43); apply digits_value.
Qed.
Lemma index_value x l i e : index_from x l i = Err e -> e = ValueError.
Proof. revert i. induction l as [|y l IH]; intro i; cbn [index_from]; [congruence|]. destruct (list_eq_dec Z.eq_dec x y); [congruence|apply IH]. Qed.
Lemma parse_z_value t e : parse_z t = Err e -> e = ValueError.
Proof.
  unfold parse_z. destruct (list_eq_dec _ _ _); [congruence|].
  match goal with |- (let* z := ?b in _) = _ -> _ => assert (B : forall e, b = Err e -> e = ValueError); [intro e'|destruct b as [z'|e'] eqn:Q; cbn [bind]; [clear Q|intro H; injection H as <-; exact (B _ eq_refl)]] end.
  { destruct (_ =? 58); [|congruence]. destruct (_ <? _)%nat; [|congruence]. destruct (_ =? 58); congruence. }
  destruct (pyint (slice 1 3 z')) eqn:Q1; cbn [bind]; [|intro H; injection H as <-; exact (pyint_value _ _ Q1)].
  destruct (pyint (slice 3 5 z')) eqn:Q2; cbn [bind]; [|intro H; injection H as <-; exact (pyint_value _ _ Q2)].
  match goal with |- (let* s := ?b in _) = _ -> _ => assert (B' : forall e, b = Err e -> e = ValueError); [intro e'; destruct (slice 5 7 z'); [congruence|apply pyint_value]|destruct b as [s'|e'] eqn:Q3; cbn [bind]; [clear Q3|intro H; injection H as <-; exact (B' _ eq_refl)]] end.
  destruct (pyint (skipn 8 z' ++ _)) eqn:Q4; cbn [bind]; [|intro H; injection H as <-; exact (pyint_value _ _ Q4)]. congruence.
Qed.
Definition some {A} (o : option A) : bool := match o with Some _ => true | None => false end.
(** the letters that set a field *)
Definition setters (f : field) : list Z :=
  match f with IsoYear => [71] | Julian => [106] | IsoWeek => [86] | Weekday => [65; 97; 117; 119] | _ => [] end.
Definition week_field (f : field) : Prop := In f [IsoYear; Julian; IsoWeek; Weekday].
Lemma step_sets sl g st x f : week_field f ->
  match found_step sl g st x with
  | Ok st' => some (st' f) = existsb (Z.eqb (fst x)) (setters f) || some (st f)
  | Err e => e = ValueError
  end.
Proof.
  intro W. destruct x as [c t]. cbn [fst]. unfold found_step.
  assert (PI : forall t e, pyint t = Err e -> e = ValueError) by apply pyint_value.
  assert (XI : forall t l e, index t l = Err e -> e = ValueError) by (intros; eapply index_value; eassumption).
  assert (ZI : forall t e, parse_z t = Err e -> e = ValueError) by apply parse_z_value.
  unfold week_field in W. cbn [In] in W.
  repeat match goal with |- context [if ?b then _ else _] => let H := fresh "B" in destruct b eqn:H end;
  try (match goal with |- context [pyint ?t] => destruct (pyint t) eqn:Q; cbn [bind]; [|exact (PI _ _ Q)] end);
  try (match goal with |- context [index ?t ?l] => destruct (index t l) eqn:Q; cbn [bind]; [|exact (XI _ _ _ Q)] end);
  try (match goal with |- context [parse_z ?t] => destruct (parse_z t) as [[? ?]|] eqn:Q; cbn [bind]; [|exact (ZI _ _ Q)] end);
  destruct W as [<-|[<-|[<-|[<-|[]]]]]; unfold put; cbn [field_eqb some setters existsb]; try (match goal with |- context [some (st ?f)] => destruct (some (st f)) end); lia.
Qed.
Lemma loop_sets sl g l : forall st f, week_field f ->
  match found_loop sl g l st with
  | Ok st' => some (st' f) = existsb (fun c => existsb (Z.eqb c) (setters f)) (map fst l) || some (st f)
  | Err e => e = ValueError
  end.
Proof.
  induction l as [|x l IH]; intros st f W; cbn [found_loop map existsb]; [reflexivity|].
  pose proof (step_sets sl g st x f W) as S. destruct (found_step sl g st x) as [st'|e]; cbn [bind]; [|exact S].
  specialize (IH st' f W). destruct (found_loop sl g l st'); [|exact IH]. rewrite IH, S. destruct (existsb _ (setters f)), (existsb _ (map fst l)), (some (st f)); reflexivity.
Qed.
Lemma week_fields sl l data : Forall (known sl) l -> NoDup (letters l) ->
  (let* g := find_regex sl (format_text l) data in parse_found sl g) = Err ValueError \/
  exists g st, find_regex sl (format_text l) data = Ok g /\ parse_found sl g = Ok st /\
    some (st IsoYear) = has l "G" /\ some (st Julian) = has l "j" /\ some (st IsoWeek) = has l "V" /\ some (st Weekday) = has l "Aauw".
Proof.
  intros K ND. destruct (found_letters sl l data K ND) as [F|(g & F & M)]; rewrite F; cbn [bind]; [left; reflexivity|].
  pose proof (loop_sets sl g g dots0) as S. unfold parse_found. destruct (found_loop sl g g dots0) as [st|e] eqn:FL; [|left; f_equal; apply (S IsoYear); left; reflexivity].
  right. exists g, st. split; [reflexivity|]. split; [exact FL|]. rewrite M in S.
  assert (Q : forall f, week_field f -> dots0 f = None -> some (st f) = existsb (fun c => existsb (Z.eqb c) (setters f)) (letters l)) by (intros f W D; rewrite (S f W), D; apply orb_false_r).
  rewrite !Q; try reflexivity; [|unfold week_field; cbn; tauto ..]. repeat split.
Qed.

(** C69: an ISO year with a day of the year, or without a week or a weekday, and an ISO week without an ISO year are refused with
    ValueError, whatever the text. *)
Theorem C69_incomplete : forall rnd m sl zid data l, std sl -> Forall grouped l -> NoDup (letters l) ->
  (has l "G" = true /\ (has l "j" = true \/ has l "V" = false \/ has l "Aauw" = false)) \/ (has l "G" = false /\ has l "V" = true) ->
  strptime rnd m sl zid data (format_text l) = Err ValueError /\ strptime_time rnd m sl data (format_text l) = Err ValueError.
Proof.
  intros rnd m sl zid data l SL G ND H.
  assert (K : Forall (known sl) l) by (apply (Forall_impl _ (fun p => grouped_known sl p SL)), G).
  enough (X : start rnd m sl data (format_text l) = Err ValueError) by (unfold strptime, strptime_time; rewrite X; split; reflexivity).
  unfold start. destruct (week_fields sl l data K ND) as [F|(g & st & F & P & S1 & S2 & S3 & S4)].
  - destruct (find_regex sl (format_text l) data) as [g|e]; cbn [bind] in F |- *; [rewrite F; reflexivity|congruence].
  - rewrite F. cbn [bind]. rewrite P. cbn [bind]. unfold check_iso_week. rewrite <- S1, <- S2, <- S3, <- S4 in H. clear - H.
    destruct (st IsoYear), (st Julian), (st IsoWeek), (st Weekday); cbn [some] in H; try reflexivity; intuition discriminate.
Qed.
Print Assumptions C69_incomplete.
Example C69_incomplete_case :
  Forall grouped [D 71; L 45; D 106] /\ NoDup (letters [D 71; L 45; D 106]) /\ has [D 71; L 45; D 106] "G" = true /\ has [D 71; L 45; D 106] "j" = true /\
  strptime b64 sample_sun sample_sloc 0 (str "0181-034") (str "%G-%j") = Err ValueError /\
  strptime b64 sample_sun sample_sloc 0 (str "0181-03") (str "%G-%V") = Err ValueError /\
  strptime b64 sample_sun sample_sloc 0 (str "0181 Idal") (str "%G %A") = Err ValueError /\
  strptime b64 sample_sun sample_sloc 0 (str "0181 03") (str "%Y %V") = Err ValueError.
Proof.
  split; [repeat constructor; try discriminate; apply in_mem; reflexivity|]. split; [apply nodup_check; reflexivity|]. repeat split; vm_compute; reflexivity.
Qed.
Print Assumptions C69_incomplete_case.

(** C67: the tuple read from a text has the date and the clock of the datetime read from it, the weekday and the day of the year of
    that date (whatever weekday the text gives), dst 0 and no zone. *)
Theorem C67_struct_time : forall rnd m sl zid data f r y mo d, Nearest rnd -> evening rnd m -> naw_ruz_order rnd m -> strptime rnd m sl zid data f = Ok r ->
  dt_d r = DShort y mo d -> -1842 <= y <= 1161 ->
  exists s w, strptime_time rnd m sl data f = Ok s /\ weekday rnd m (dt_d r) = Ok w /\
    st_items s = [y; mo; d; dt_h r; dt_mi r; dt_s r; w; bday_of_year (leap_of rnd m y) mo d; 0] /\ st_zone s = None /\ st_gmtoff s = None.
Proof.
  intros rnd m sl zid data f r y mo d N E O R DR Y. pose proof (C67_result rnd m sl zid data f r N E R) as (y' & mo' & d' & DR' & _ & _ & V & _ & (C & _) & _).
  rewrite DR in DR'. injection DR' as <- <- <-. specialize (V ltac:(lia)).
  assert (S : supported rnd m (DShort y mo d) y mo d) by (split; [repeat split|split; [lia|exact V]]).
  destruct (sup_ok rnd m _ y mo d N E S) as (DE & K & YY).
  unfold strptime in R. unfold strptime_time. destruct (start rnd m sl data f) as [[[st [[[[y1 mo1] d1] w1] j]] z]|]; [|discriminate]. cbn [bind] in R |- *.
  match type of R with (let* t := ?b in _) = _ => destruct b as [tzi|]; [|discriminate] end. cbn [bind] in R.
  apply C56_datetime_constructor in R as (dd & DN & C' & _ & ->). cbn [dt_d dt_h dt_mi dt_s dt_us] in *. subst dd.
  unfold date_new in DN. destruct (check_short _ _ _) as [[]|]; [|discriminate]. cbn [bind] in DN. injection DN as -> -> ->. clear C'. unfold valid_clock in C.
  rewrite (build_tuple rnd N m E O (DShort y mo d) y mo d _ _ _ 0 None DE K) by (try lia; left; reflexivity).
  destruct (tuple_accepted rnd N m E (DShort y mo d) y mo d (dflt1 (st Hour)) (dflt1 (st Minute)) (dflt1 (st Second)) (zw y mo d) (bday_of_year (leap_of rnd m y) mo d) 0 None DE K YY) as (x & X); try lia; [intros ? ?; discriminate|].
  exists x, (zw y mo d). split; [exact X|]. split; [apply (weekday_ok rnd N m E O _ y mo d DE K)|].
  destruct (C54_struct_time_items rnd m _ _ _ X) as (I1 & I2 & I3 & I4).
  split; [|split; [exact I3|exact I4]].
  change [y; mo; d; dflt1 (st Hour); dflt1 (st Minute); dflt1 (st Second); zw y mo d; bday_of_year (leap_of rnd m y) mo d; 0]
    with ([y; mo; d; dflt1 (st Hour); dflt1 (st Minute); dflt1 (st Second); zw y mo d; bday_of_year (leap_of rnd m y) mo d] ++ [0]).
  apply items_split; [exact I1|]. rewrite I2. reflexivity.
Qed.
Print Assumptions C67_struct_time.
Example C67_struct_time_case : exists s, strptime b64 sample_sun sample_sloc 0 (str "0181-02-03 04:05:06 5") (str "%Y-%m-%d %H:%M:%S %w") = Ok (mk_dt 181 2 3 4 5 6 0 None) /\
  strptime_time b64 sample_sun sample_sloc (str "0181-02-03 04:05:06 5") (str "%Y-%m-%d %H:%M:%S %w") = Ok s /\ st_items s = [181; 2; 3; 4; 5; 6; 3; 22; 0].
Proof. eexists. split; [vm_compute; reflexivity|]. split; [vm_compute; reflexivity|]. reflexivity. Qed.
Print Assumptions C67_struct_time_case.
