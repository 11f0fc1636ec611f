(** PropertiesLoc.v -- C102: the formats of the locale in strptime: %c, %x and %X. *)
From Coq Require Import ZArith QArith Qround Qabs List Bool Lia Lqa String Permutation.
From Coq Require Import ZifyBool ZifyNat ZifyN.
From Verif Require Import Base Flt QUtil BaseModel MiscModel BadiModel BaseProofs SunProofs SpecBadi BadiProofs BadiProofs2 BadiProofs3 DecProofs BadiProofs4 LongYear LongProofs BadiProofs5 MeeusFloat
  ClockProofs3 ClockProofs4 TduModel DateModel SpecDate TduProofs TduProofs2 TduProofs3 DateProofs SampleSun PropertiesBadi PropertiesDate PropertiesDate2
  TimeModel SpecTime TimeProofs PropertiesTime PropertiesDt TextModel SpecText TextProofs PropertiesText StrfModel SpecStrf StrfProofs PropertiesStrf PropertiesStrf2 PropertiesStrf3 PropertiesStrf4 PropertiesStrf5 PropertiesStrf6
  SpecStrp StrpModel StrpProofs PropertiesStrp PropertiesStrp2 PropertiesStrp3 PropertiesStrp4 LocModel SpecLoc LocProofs AstroModel SpecAstro PropertiesAstro PropertiesAstro2 PropertiesNoon.
Import ListNotations.
Local Open Scope Z_scope.
Ltac Zify.zify_post_hook ::= Z.div_mod_to_equations.

Section Magic.
Variable rnd : Q -> Q.
Hypothesis N : Nearest rnd.
Variable m : Q -> Q -> Q -> Q.
Hypothesis EV : evening rnd m.
Hypothesis O : naw_ruz_order rnd m.
Variable lo : locale.

Definition st0 (mo d h mi s w yd : Z) : stm :=
  {| st_kv := None; st_year := 199; st_mon := mo; st_mday := d; st_hour := h; st_min := mi; st_sec := s; st_wday := w; st_yday := yd; st_isdst := 0; st_zone := None; st_gmtoff := None |}.
Lemma magic_struct mo d h mi s w yd : 1 <= mo <= 18 -> 1 <= d <= 19 -> 0 <= h <= 24 -> 0 <= mi <= 59 -> 0 <= s <= 59 -> zw 199 mo d = w -> (forall b, bday_of_year b mo d = yd) ->
  build_struct_time rnd m (DShort 199 mo d) h mi s 0 None = Ok (st0 mo d h mi s w yd).
Proof.
  intros M D H MI S W YD. assert (K : okd 199 mo d) by (split; [lia|]; split; [lia|]; unfold bmonth_len; replace (mo =? 0) with false by lia; lia).
  rewrite (build_tuple rnd N m EV O (DShort 199 mo d) 199 mo d h mi s 0 None ltac:(cbn; tauto) K) by (try lia; left; reflexivity). rewrite W, YD.
  cbn [b_date app]. unfold struct_time. cbn [existsb option_map Z.eqb orb negb]. rewrite dt_new_eq.
  assert (C : clock_ok h mi s 0 = true) by (apply clock_ok_spec; unfold valid_clock; lia). rewrite C, (new_short rnd N m EV 199 mo d K). reflexivity.
Qed.
Lemma magic_strftime mo d h mi s w yd l : 1 <= mo <= 18 -> 1 <= d <= 19 -> 0 <= h <= 24 -> 0 <= mi <= 59 -> 0 <= s <= 59 -> 0 <= w <= 6 -> 1 <= yd <= 366 -> pieces_ok l ->
  strftime rnd m lo (format_text l) (Named (st0 mo d h mi s w yd)) None = cat (map (pval rnd m lo (st0 mo d h mi s w yd)) l).
Proof.
  intros M D H MI S W YD (NE & WF & F). unfold strftime. rewrite check_ok by assumption. cbn [bind]. unfold st_items, st0. cbn [st_kv st_year st_mon st_mday st_hour st_min st_sec st_wday st_yday st_isdst app].
  unfold checktm, checktm_tail. change ((MINYEAR <=? 199) && (199 <=? MAXYEAR)) with true. cbn [passert bind].
  replace ((0 <=? mo) && (mo <? 20)) with true by lia. replace (mo =? 0) with false by lia. cbn [passert bind]. replace ((1 <=? d) && (d <=? 19)) with true by lia.
  replace ((0 <=? h) && (h <=? 24)) with true by lia. replace ((0 <=? mi) && (mi <? 60)) with true by lia. replace ((0 <=? s) && (s <=? 61)) with true by lia. replace ((0 <=? w) && (w <=? 6)) with true by lia.
  replace ((1 <=? yd) && (yd <=? 366)) with true by lia. cbn [passert bind]. change ((-1 <=? 0) && (0 <=? 1)) with true. cbn [passert bind]. apply loop_ok; assumption.
Qed.
Definition the_day : stm := st0 3 17 22 4 30 2 55.
Hypothesis AM : after_noon rnd m (st0 1 1 1 44 55 4 1) = Ok false.
Hypothesis PM : after_noon rnd m (st0 1 1 22 44 55 4 1) = Ok true.
Hypothesis PM3 : after_noon rnd m the_day = Ok true.

Lemma zw_3_17 : zw 199 3 17 = 2. Proof. vm_compute. reflexivity. Qed.
Lemma zw_1_1 : zw 199 1 1 = 4. Proof. vm_compute. reflexivity. Qed.
Lemma am_pm : calc_am_pm rnd m lo = Ok [lower_text (lo_am lo); lower_text (lo_pm lo)].
Proof.
  unfold calc_am_pm, magic.
  rewrite (magic_struct 1 1 1 44 55 4 1) by (try lia; try exact zw_1_1; intros []; reflexivity). rewrite (magic_struct 1 1 22 44 55 4 1) by (try lia; try exact zw_1_1; intros []; reflexivity). cbn [bind].
  change (TextModel.lit "%p") with (format_text [D 112]). rewrite !magic_strftime by (try lia; pok). cbn [map]. rewrite !cat_one.
  change (pval rnd m lo (st0 1 1 1 44 55 4 1) (D 112)) with (f_p rnd m lo (st0 1 1 1 44 55 4 1)). change (pval rnd m lo (st0 1 1 22 44 55 4 1) (D 112)) with (f_p rnd m lo (st0 1 1 22 44 55 4 1)).
  unfold f_p. rewrite AM, PM. reflexivity.
Qed.
Lemma magic_3_17 l : pieces_ok l -> magic rnd m lo 3 17 22 4 30 (format_text l) = let* t := cat (map (pval rnd m lo the_day) l) in Ok (lower_text t).
Proof.
  intro P. unfold magic. rewrite (magic_struct 3 17 22 4 30 2 55) by (try lia; try exact zw_3_17; intros []; reflexivity). cbn [bind]. rewrite magic_strftime by (try lia; exact P). reflexivity.
Qed.
Lemma field_value c : In c fields -> exists t, pval rnd m lo the_day (D c) = Ok t /\ lower_text t = part c.
Proof.
  intro I. change fields with [100; 109; 121; 89; 98; 66; 97; 65; 72; 73; 77; 83] in I. cbn [In] in I.
  repeat (destruct I as [<-|I]); [..|destruct I]; try (eexists; split; [reflexivity|vm_compute; reflexivity]).
  - change (pval rnd m lo the_day (D 121)) with (@Ok text (f_y rnd the_day 0)). eexists. split; [reflexivity|]. unfold f_y, century. change (get_year the_day) with 199.
    assert (Q : Qtrunc (fdiv rnd (inject_Z 199) 100) = 1).
    { change 100%Q with (inject_Z 100). pose proof (floor_div_int rnd N 199 100 ltac:(lia) ltac:(lia)) as F. change (199 / 100) with 1 in F. rewrite Qtrunc_nonneg; [exact F|].
      pose proof (Qfloor_le (fdiv rnd (inject_Z 199) (inject_Z 100))) as FL. rewrite F in FL. change (inject_Z 1) with 1%Q in FL. lra. }
    rewrite Q. vm_compute. reflexivity.
  - change (pval rnd m lo the_day (D 73)) with (f_I rnd m the_day false 0). unfold f_I. rewrite PM3. eexists. split; [reflexivity|]. vm_compute. reflexivity.
Qed.

Lemma three a b c s : In a fields -> In b fields -> In c fields -> Forall (fun c => In c usable) [a; b; c] -> s <> 37 -> lower s = s ->
  magic rnd m lo 3 17 22 4 30 (format_text (two_delims a s b c)) = Ok (part a ++ s :: part b ++ s :: part c).
Proof.
  intros A B C U S LS. rewrite magic_3_17 by (apply delims_ok; assumption). destruct (field_value a A) as (ta & A1 & A2). destruct (field_value b B) as (tb & B1 & B2). destruct (field_value c C) as (tc & C1 & C2).
  unfold two_delims. cbn [map]. rewrite A1, B1, C1. change (pval rnd m lo the_day (L s)) with (@Ok text [s]). cbn [cat bind]. rewrite <- A2, <- B2, <- C2. unfold lower_text. rewrite !app_nil_r, !map_app. cbn [map]. rewrite LS. reflexivity.
Qed.
End Magic.

Lemma fields_usable c : In c (str "dmyYbBaA") -> In c usable /\ In c fields.
Proof.
  intro I. assert (Q : forallb (fun c => mem c usable && mem c fields) (str "dmyYbBaA") = true) by (vm_compute; reflexivity). rewrite forallb_forall in Q. specialize (Q c I). apply andb_true_iff in Q as [Q1 Q2]. split; apply in_mem; assumption.
Qed.
Lemma zone_lower n : zone_name n -> lower_text n = [] \/ (3 <= List.length (lower_text n))%nat /\ ~ In 37 (lower_text n).
Proof. intros [->|[L NI]]; [left; reflexivity|]. right. split; [unfold lower_text; rewrite map_length; exact L|exact NI]. Qed.
Lemma noon_ext rnd m s t : st_kv s = st_kv t -> st_year s = st_year t -> st_mon s = st_mon t -> st_mday s = st_mday t -> st_hour s = st_hour t -> st_min s = st_min t -> st_sec s = st_sec t ->
  after_noon rnd m s = after_noon rnd m t.
Proof. intros K Y M D H MI S. unfold after_noon, find_midday. rewrite K, Y, M, D, H, MI, S. reflexivity. Qed.
Lemma noon_astro rnd lm : Nearest rnd -> accurate lm -> let m := astro_set rnd lm in forall mo d h mi s w yd, 1 <= mo <= 18 -> 1 <= d <= 19 -> 0 <= h <= 24 -> 0 <= mi <= 59 -> 0 <= s <= 59 ->
  (h * 3600 + mi * 60 + s <= 43000 -> after_noon rnd m (st0 mo d h mi s w yd) = Ok false) /\ (43400 <= h * 3600 + mi * 60 + s -> after_noon rnd m (st0 mo d h mi s w yd) = Ok true).
Proof.
  intros N A m mo d h mi s w yd M D H MI S. pose proof (C86_evening rnd lm N A) as E. pose proof (C87_naw_ruz_order rnd lm N A) as O. fold m in E, O.
  pose (a := mk_dt 199 mo d h mi s 0 None). pose (lo := {| lo_am := [97]; lo_pm := [112]; lo_dsep := []; lo_d := []; lo_tsep := []; lo_t := [] |}).
  assert (P : printable rnd m a None 199 mo d).
  { split; [|split; [|split; [reflexivity|left; reflexivity]]].
    - split; [cbn; tauto|]. split; [lia|]. split; [lia|]. unfold bmonth_len. replace (mo =? 0) with false by lia. lia.
    - split; [cbn; unfold valid_clock; lia|]. split; [left; reflexivity|intros o OO; discriminate]. }
  destruct (C62_am_pm rnd lm lo a None 199 mo d N A P ltac:(lia) ltac:(cbn; lia)) as [H1 H2]. fold m in H1, H2.
  destruct (printable_struct rnd m a None 199 mo d N E O P) as (st & w' & _ & _ & _ & GY & MO & MDD & HH & MM & SS & _ & _ & _ & _ & KV & X).
  pose proof (one_directive rnd m lo a None st X 112 ltac:(discriminate) ltac:(apply in_mem; reflexivity)) as Rp.
  change (dt_strftime rnd m lo a None (str "%p") = f_p rnd m lo st) in Rp. rewrite Rp in H1, H2. change (st_kv st = None) in KV.
  assert (Y : st_year st = 199) by (unfold get_year in GY; rewrite KV in GY; exact GY).
  change (st_hour st = h) in HH. change (st_min st = mi) in MM. change (st_sec st = s) in SS.
  rewrite (noon_ext rnd m (st0 mo d h mi s w yd) st) by (cbn [st0 st_kv st_year st_mon st_mday st_hour st_min st_sec]; congruence). unfold f_p in H1, H2. cbn [dt_h dt_mi dt_s a mk_dt lo_am lo_pm lo] in H1, H2.
  destruct (after_noon rnd m st) as [[]|]; cbn [bind] in H1, H2; split; intro C; try reflexivity.
  - specialize (H1 ltac:(lia)). discriminate.
  - specialize (H2 ltac:(lia)). discriminate.
  - specialize (H1 ltac:(lia)). discriminate.
  - specialize (H2 ltac:(lia)). discriminate.
Qed.

(** C102 (inference of the formats): strptime finds out the formats of the locale by printing one date, 199-03-17 22:04:30, and
    replacing what it knows of it by directives.  It finds the ones strftime uses: for %c always the same, for %x the date
    format of the locale (three fields with a delimiter), for %X hour, minute and second with the delimiter of the clock. *)
Theorem C102_formats : forall rnd lm am pm a s b c x p lo e ts, Nearest rnd -> accurate lm -> let m := astro_set rnd lm in
  plain_locale am pm a s b c x p ts lo e ->
  exists sl, locale_time rnd m lo e = Ok sl /\ std sl /\ sl_p sl = [lower_text am; lower_text pm] /\
    (forall n, In n (fst (sl_Z sl)) <-> n = str "utc" \/ n = str "gmt" \/ n = lower_text (te_std e)) /\ snd (sl_Z sl) = (if te_daylight e then [lower_text (te_dst e)] else []) /\
    sl_c sl = str "%a %b %d %H:%M:%S %Y" /\ sl_x sl = format_text [D a; L s; D b; L s; D c] /\
    sl_X sl = format_text [D (match p with [] => 72 | _ => 73 end); L ts; D 77; L ts; D 83].
Proof.
  intros rnd lm am pm a s b c x p lo e ts N A m (LD & X & FA & FB & FC & DS & DT & PW & Z1 & Z2 & PE). pose proof (C86_evening rnd lm N A) as E. pose proof (C87_naw_ruz_order rnd lm N A) as O. fold m in E, O.
  destruct (fields_usable a FA) as [UA A']. destruct (fields_usable b FB) as [UB B']. destruct (fields_usable c FC) as [UC C'].
  assert (S37 : s <> 37 /\ ts <> 37) by (split; intros ->; [destruct DS as (_ & Q & _)|destruct DT as (_ & Q & _)]; apply Q; left; reflexivity). destruct S37 as [S37 T37].
  pose proof (proj1 (noon_astro rnd lm N A 1 1 1 44 55 4 1 ltac:(lia) ltac:(lia) ltac:(lia) ltac:(lia) ltac:(lia)) ltac:(lia)) as N1.
  pose proof (proj2 (noon_astro rnd lm N A 1 1 22 44 55 4 1 ltac:(lia) ltac:(lia) ltac:(lia) ltac:(lia) ltac:(lia)) ltac:(lia)) as N2.
  pose proof (proj2 (noon_astro rnd lm N A 3 17 22 4 30 2 55 ltac:(lia) ltac:(lia) ltac:(lia) ltac:(lia) ltac:(lia)) ltac:(lia)) as N3. fold m in N1, N2, N3.
  assert (LO : lo_am lo = am /\ lo_pm lo = pm).
  { unfold locale_data in LD. destruct (find_time_order x p) as [tf|]; [|discriminate]. cbn [bind] in LD. destruct (order_format _ _). destruct (order_format tf _). injection LD as <-. split; reflexivity. }
  destruct LO as [LA LP]. set (h := match p with [] => 72 | _ => 73 end).
  assert (MX : magic rnd m lo 3 17 22 4 30 (TextModel.lit "%x") = Ok (part a ++ s :: part b ++ s :: part c)).
  { rewrite <- (three rnd N m E O lo N3 a b c s A' B' C' ltac:(repeat (constructor; [assumption|]); constructor) S37 (proj1 DS)). unfold magic. destruct (build_struct_time _ _ _ _ _ _ _ _) as [st|]; [|reflexivity]. cbn [bind].
    unfold two_delims. rewrite <- (C88_locale_date rnd m am pm a s b c x p lo (Named st) None ltac:(repeat (constructor; [assumption|]); constructor) S37 LD). reflexivity. }
  assert (HF : In h fields /\ In 77 fields /\ In 83 fields /\ Forall (fun c => In c usable) [h; 77; 83]).
  { unfold h. repeat split; [destruct p| | |repeat (constructor; [destruct p|]); try constructor]; apply in_mem; reflexivity. }
  destruct HF as (H1 & H2 & H3 & H4).
  assert (MT : magic rnd m lo 3 17 22 4 30 (TextModel.lit "%X") = Ok (part h ++ ts :: part 77 ++ ts :: part 83)).
  { rewrite <- (three rnd N m E O lo N3 h 77 83 ts H1 H2 H3 H4 T37 (proj1 DT)). unfold magic. destruct (build_struct_time _ _ _ _ _ _ _ _) as [st|]; [|reflexivity]. cbn [bind].
    pose proof (C88_locale_time rnd m am pm _ x p lo (Named st) None ts X T37 LD) as C8. fold h in C8. change (TextModel.lit "%X") with (str "%X"). rewrite C8. reflexivity. }
  assert (MC : magic rnd m lo 3 17 22 4 30 (TextModel.lit "%c") = Ok (str "kam jam 17 22:04:30 0199")).
  { change (TextModel.lit "%c") with (format_text [D 99]). rewrite (magic_3_17 rnd N m E O) by pok. cbn [map]. rewrite cat_one. vm_compute. reflexivity. }
  set (z := calc_timezone e). assert (ZN : Forall (fun n => n = [] \/ (3 <= List.length n)%nat /\ ~ In 37 n) (fst z ++ snd z)).
  { apply Forall_app. split.
    - unfold z, calc_timezone. cbn [fst]. apply Forall_forall. intros n I. apply (Permutation_in _ (PE _)) in I. apply nodup_In in I. cbn [In] in I. destruct I as [<-|[<-|[<-|I]]]; [| |apply zone_lower, Z1|destruct I]; (right; split; [cbn; lia|vm_compute; intuition discriminate]).
    - unfold z, calc_timezone. cbn [snd]. destruct (te_daylight e); [|constructor]. constructor; [apply zone_lower, Z2|constructor]. }
  assert (P3 : forall d, d = s \/ d = ts -> lower_text pm = [] \/ exists x, In x (lower_text pm) /\ ~ In x (str "%aAbB: 0123456789") /\ x <> d).
  { intros d DD. destruct PW as [->|(k & K1 & K2 & K3 & K4)]; [left; reflexivity|]. right. exists k. repeat split; [exact K1|exact K2|]. destruct DD as [-> | ->]; assumption. }
  unfold locale_time. rewrite (am_pm rnd N m E O lo N1 N2). cbn [bind]. rewrite MC, MX, MT. cbn [bind]. fold z. cbn [nth]. rewrite LA, LP.
  eexists. split; [reflexivity|]. cbn [sl_A sl_a sl_B sl_b sl_p sl_c sl_x sl_X fst snd]. split; [repeat split|]. split; [reflexivity|].
  split; [intro n; unfold z, calc_timezone; cbn [sl_Z fst]; split; intro I; [apply (Permutation_in _ (PE _)), nodup_In in I|apply (Permutation_in _ (Permutation_sym (PE _))), nodup_In]; cbn [In] in *; [destruct I as [I|[I|[I|I]]]; [left|right; left|right; right|destruct I]; symmetry; exact I|destruct I as [I|[I|I]]; rewrite I; tauto]|].
  split; [reflexivity|]. split; [|split].
  - apply whole; [|exact ZN]. destruct (P3 s (or_introl eq_refl)) as [Q|(k & K1 & K2 & _)]; [left; exact Q|right; exists k; split; assumption].
  - exact (three_fields a b c s (lower_text pm) z DS A' B' C' (P3 s (or_introl eq_refl)) ZN).
  - exact (three_fields h 77 83 ts (lower_text pm) z DT H1 H2 H3 (P3 ts (or_intror eq_refl)) ZN).
Qed.
Print Assumptions C102_formats.

(** ** Reading with %c, %x, %X *)
Lemma pattern_same (T T' : Z -> option rx) l : Forall (fun p => match p with L c => c <> 37 | D c => T c = T' c | DM _ _ => False end) l ->
  forall ws, pattern T ws (format_text l) = pattern T' ws (format_text l).
Proof.
  induction 1 as [|p l P F IH]; intro ws; [reflexivity|]. destruct p as [k|k|]; [| |destruct P].
  - change (format_text (L k :: l)) with (k :: format_text l). cbn [pattern]. replace (k =? 37) with false by lia. rewrite !IH. reflexivity.
  - change (format_text (D k :: l)) with (37 :: k :: format_text l). cbn [pattern]. rewrite P, IH. reflexivity.
Qed.
Lemma pattern_known T l : Forall (fun p => match p with L c => c <> 37 | D c => special c = false /\ is_space c = false /\ T c <> None | DM _ _ => False end) l ->
  forall ws, exists r, pattern T ws (format_text l) = Ok r.
Proof.
  induction 1 as [|p l P F IH]; intro ws; [eexists; reflexivity|]. destruct p as [k|k|]; [| |destruct P].
  - change (format_text (L k :: l)) with (k :: format_text l). cbn [pattern]. replace (k =? 37) with false by lia. destruct (IH false) as (r & ->). destruct (IH true) as (r' & ->). destruct (is_space k); eexists; reflexivity.
  - destruct P as (P1 & P2 & P3). change (format_text (D k :: l)) with (37 :: k :: format_text l). cbn [pattern]. change (37 =? 37) with true. cbn [negb]. rewrite P1, P2. cbn [orb]. destruct (T k) as [rk|]; [|congruence]. destruct (IH false) as (r & ->). eexists; reflexivity.
Qed.
Lemma letter_table sl c : In c fields -> table sl c = table0 sl c /\ special c = false /\ is_space c = false /\ table0 sl c <> None.
Proof.
  intro I. unfold fields in I. change (str "dmyYbBaAHIMS") with [100; 109; 121; 89; 98; 66; 97; 65; 72; 73; 77; 83] in I.
  repeat destruct I as [<- | I]; try (split; [reflexivity|]; split; [reflexivity|]; split; [reflexivity|]; cbn; discriminate). destruct I.
Qed.
Lemma run_eps r t : run (RSeq r REps) t = run r t.
Proof.
  unfold run. cbn [rmatch]. assert (X : forall l : list (list (Z * text) * text), flat_map (fun x => map (fun y => (fst x ++ fst y, snd y)) [([], snd x)]) l = l).
  { induction l as [|[g q] l IH]; [reflexivity|]. cbn [flat_map]. rewrite IH. cbn [map fst snd app]. rewrite app_nil_r. reflexivity. }
  rewrite X. reflexivity.
Qed.
Lemma one_letter sl k f l : (k = 99 /\ f = sl_c sl) \/ (k = 120 /\ f = sl_x sl) \/ (k = 88 /\ f = sl_X sl) -> f = format_text l ->
  Forall (fun p => match p with L c => c <> 37 | D c => In c fields | DM _ _ => False end) l ->
  forall t, find_regex sl [37; k] t = find_regex sl f t.
Proof.
  intros K FL F t. destruct (pattern_known (table0 sl) l) with (ws := false) as (r & R).
  { apply (Forall_impl _) with (2 := F). intros [q|q|]; [trivial| |trivial]. intro I. destruct (letter_table sl q I) as (_ & ? & ? & ?). tauto. }
  assert (R2 : pattern (table sl) false f = Ok r).
  { rewrite FL, <- R. apply pattern_same. apply (Forall_impl _) with (2 := F). intros [q|q|]; [trivial| |trivial]. intro I. apply (letter_table sl q I). }
  assert (TK : table sl k = Some r).
  { rewrite <- FL in R. unfold table. destruct K as [[-> K]|[[-> K]|[-> K]]]; cbn [Z.eqb Pos.eqb]; rewrite <- K, R; reflexivity. }
  assert (SK : special k || is_space k = false) by (destruct K as [[-> _]|[[-> _]|[-> _]]]; reflexivity).
  unfold find_regex, compile. rewrite R2. cbn [pattern]. change (37 =? 37) with true. cbv iota. rewrite SK, TK. cbn [bind groups]. rewrite app_nil_r. destruct (no_dup (groups r)); [apply run_eps|reflexivity].
Qed.
Lemma strptime_regex rnd m sl zid t f g : find_regex sl f t = find_regex sl g t -> strptime rnd m sl zid t f = strptime rnd m sl zid t g.
Proof. intro H. unfold strptime, start. rewrite H. reflexivity. Qed.

(** C102 (reading): with %c, %x and %X strptime reads every text as with the formats strftime prints them by. *)
Theorem C102_reading : forall rnd lm am pm a s b c x p lo e ts sl zid t, Nearest rnd -> accurate lm -> let m := astro_set rnd lm in
  plain_locale am pm a s b c x p ts lo e -> locale_time rnd m lo e = Ok sl ->
  strptime rnd m sl zid t (str "%c") = strptime rnd m sl zid t (str "%a %b %d %H:%M:%S %Y") /\
  strptime rnd m sl zid t (str "%x") = strptime rnd m sl zid t (format_text [D a; L s; D b; L s; D c]) /\
  strptime rnd m sl zid t (str "%X") = strptime rnd m sl zid t (format_text [D (match p with [] => 72 | _ => 73 end); L ts; D 77; L ts; D 83]).
Proof.
  intros rnd lm am pm a s b c x p lo e ts sl zid t N A m P LT. destruct (C102_formats rnd lm am pm a s b c x p lo e ts N A P) as (sl' & LT' & _ & _ & _ & _ & XC & XX & XT). fold m in LT'. assert (sl' = sl) by congruence. subst sl'.
  destruct P as (LD & X & FA & FB & FC & DS & DT & _). destruct (fields_usable a FA) as [_ A']. destruct (fields_usable b FB) as [_ B']. destruct (fields_usable c FC) as [_ C'].
  assert (S37 : s <> 37 /\ ts <> 37) by (split; intros ->; [destruct DS as (_ & Q & _)|destruct DT as (_ & Q & _)]; apply Q; left; reflexivity). destruct S37 as [S37 T37].
  split; [|split]; apply strptime_regex.
  - rewrite <- XC. apply (one_letter sl 99 _ [D 97; L 32; D 98; L 32; D 100; L 32; D 72; L 58; D 77; L 58; D 83; L 32; D 89]); [tauto|exact XC|].
    repeat (constructor; [first [discriminate|apply in_mem; reflexivity]|]); constructor.
  - rewrite <- XX. apply (one_letter sl 120 _ [D a; L s; D b; L s; D c]); [tauto|exact XX|]. repeat (constructor; [assumption|]); constructor.
  - rewrite <- XT. apply (one_letter sl 88 _ [D (match p with [] => 72 | _ => 73 end); L ts; D 77; L ts; D 83]); [tauto|exact XT|].
    constructor; [apply in_mem; destruct p; reflexivity|]. constructor; [exact T37|]. constructor; [apply in_mem; reflexivity|]. constructor; [exact T37|]. constructor; [apply in_mem; reflexivity|]. constructor.
Qed.
Print Assumptions C102_reading.

Definition c_start : list piece := [D 97; L 32; D 98; L 32; D 100; L 32; D 72; L 58; D 77; L 58; D 83; L 32].
(** the last field of %c *)
Lemma last_year sl txt t r : Forall (reads sl txt) c_start -> Forall (known sl) (c_start ++ [D 89]) -> table sl 89 = Some (RGrp 89 (inner sl 89)) -> first (inner sl 89) (t ++ r) = Some ([], r) -> nosp (t ++ r) ->
  find_regex sl (str "%a %b %d %H:%M:%S %Y") (printed txt c_start ++ t ++ r) = match r with [] => Ok (found txt c_start ++ [(89, t)]) | _ => Err ValueError end.
Proof.
  intros R K T F NS. change (str "%a %b %d %H:%M:%S %Y") with (format_text (c_start ++ [D 89])). unfold find_regex, compile. rewrite (pattern_pieces sl _ K false). cbn [bind]. rewrite (prx_groups sl _ K).
  change (no_dup (letters (c_start ++ [D 89]))) with true. unfold run.
  assert (FY : first (prx sl false [D 89]) (t ++ r) = Some ([(89, t)], r)).
  { cbn [prx]. rewrite T. change [(89, t)] with ([(89, t)] ++ []). apply (first_seq _ _ _ _ r); [apply first_grp, F|reflexivity]. }
  pose proof (proj1 (match_prefix sl txt c_start [D 89] (t ++ r) [(89, t)] r R NS FY Logic.I)) as M. unfold first in M. destruct (rmatch _ _) as [|[g r'] rest]; [discriminate|]. cbn [hd_error] in M. injection M as -> ->. destruct r; reflexivity.
Qed.
(** years from -999 to -1 as %c prints them *)
Lemma c_year sl y : -999 <= y <= -1 -> first (inner sl 89) (fmt0 4 y ++ []) = Some ([], []) /\ nosp (fmt0 4 y ++ []) /\ pyint (fmt0 4 y) = pyint (signed_year y).
Proof.
  intro Y. rewrite app_nil_r. pose (F := fun y => match hd_error (rmatch (seqs [opt (one 45); upto 4]) (fmt0 4 y)) with Some ([], []) => true | _ => false end && match fmt0 4 y with k :: _ => negb (is_space k) | [] => true end
    && match pyint (fmt0 4 y), pyint (signed_year y) with Ok u, Ok v => u =? v | _, _ => false end).
  assert (A : F y = true) by (apply (zforall F (-999) 999); [vm_compute; reflexivity|lia]). unfold F in A. rewrite !andb_true_iff in A. destruct A as [[A1 A2] A3]. split; [|split].
  - change (inner sl 89) with (seqs [opt (one 45); upto 4]). unfold first. destruct (hd_error _) as [[[] []]|]; try discriminate. reflexivity.
  - unfold nosp. destruct (fmt0 4 y); [exact Logic.I|]. apply negb_true_iff, A2.
  - destruct (pyint (fmt0 4 y)) as [v|]; [|discriminate]. destruct (pyint (signed_year y)) as [w|]; [|discriminate]. f_equal. lia.
Qed.
(** what %c prints before the year *)
Lemma c_printed rnd m lo sl a zi y mo d : Nearest rnd -> evening rnd m -> naw_ruz_order rnd m -> printable rnd m a zi y mo d -> std sl -> dt_h a <= 23 ->
  exists txt, Forall (reads sl txt) c_start /\ Forall (known sl) (c_start ++ [D 89]) /\ table sl 89 = Some (RGrp 89 (inner sl 89)) /\
  dt_strftime rnd m lo a zi (str "%a %b %d %H:%M:%S %Y") = Ok (printed txt c_start ++ signed_year y) /\
  dt_strftime rnd m lo a zi (str "%c") = Ok (printed txt c_start ++ match dt_d a with DShort _ _ _ => fmt0 4 y | DLong k v yy _ _ => plain k ++ [32] ++ fmt0 2 v ++ [32] ++ fmt0 2 yy end).
Proof.
  intros N E O P SL H. destruct (print_rt rnd m a zi y mo d N E O P) as (w & W & WR & PR). destruct (c_texts rnd m lo a zi y mo d N E O P) as (u & U1 & U2).
  destruct P as (SU & (C & _) & _). destruct (sup_ok rnd m (dt_d a) y mo d N E SU) as (DN & K & YL). pose proof K as (KY & KM & KD). pose proof (ok_small y mo d K) as (_ & DS).
  assert (RL : Forall readable (c_start ++ [D 89])) by (repeat (constructor; [first [apply in_mem; reflexivity|discriminate]|]); constructor).
  exists (rt_txt a y mo d w (bday_of_year (leap_of rnd m y) mo d)). split; [|split; [apply (Forall_impl _ (known_ok sl SL) RL)|split]].
  - apply reads_ok; try assumption; try lia; [|apply Forall_app in RL; tauto]. pose proof (doy_range (leap_of rnd m y) mo d KM) as Q. rewrite (leap_of_ok rnd N m E) in * by lia. specialize (Q KD). destruct (zleap y); lia.
  - apply (tab sl SL 89). left. reflexivity.
  - pose proof (PR lo (c_start ++ [D 89]) RL ltac:(discriminate) ltac:(cbn; tauto)) as Q. change (format_text (c_start ++ [D 89])) with (str "%a %b %d %H:%M:%S %Y") in Q.
    set (txt := rt_txt a y mo d w (bday_of_year (leap_of rnd m y) mo d)) in *.
    assert (PE : printed txt (c_start ++ [D 89]) = printed txt c_start ++ signed_year y) by (unfold printed; rewrite flat_map_app; f_equal; cbn [flat_map ptext]; rewrite app_nil_r; reflexivity).
    rewrite PE in Q. split; [exact Q|]. assert (U3 : printed txt c_start ++ signed_year y = u ++ signed_year y) by congruence. apply app_inv_tail in U3. rewrite U3. exact U2.
Qed.

(** C102 (%c): the date and time of a short datetime, printed and read with %c, come back.  The two known defects of the
    directives are excluded: hour 24 and month 15, whose abbreviation is that of month 11. *)
Theorem C102_date_and_time : forall rnd lm am pm a s b c x p lo e ts sl zid dt zi y mo d, Nearest rnd -> accurate lm -> let m := astro_set rnd lm in
  plain_locale am pm a s b c x p ts lo e -> locale_time rnd m lo e = Ok sl ->
  printable rnd m dt zi y mo d -> is_short (dt_d dt) = true -> dt_h dt <= 23 -> mo <> 15 ->
  exists t, dt_strftime rnd m lo dt zi (str "%c") = Ok t /\ strptime rnd m sl zid t (str "%c") = Ok (mk_dt y mo d (dt_h dt) (dt_mi dt) (dt_s dt) 0 None).
Proof.
  intros rnd lm am pm a s b c x p lo e ts sl zid dt zi y mo d N A m PL LT P SH H M15. pose proof (C86_evening rnd lm N A) as E. pose proof (C87_naw_ruz_order rnd lm N A) as O. fold m in E, O.
  destruct (C102_formats rnd lm am pm a s b c x p lo e ts N A PL) as (sl' & LT' & SL & _). fold m in LT'. assert (sl' = sl) by congruence. subst sl'.
  destruct (c_printed rnd m lo sl dt zi y mo d N E O P SL H) as (txt & RD & KN & TB & R1 & R2).
  destruct (C66_roundtrip rnd m lo sl zid dt zi y mo d (c_start ++ [D 89]) N E O P SL) as (t & T1 & T2); try reflexivity; try (intros; assumption); try (intros; discriminate).
  { repeat (constructor; [first [apply in_mem; reflexivity|discriminate]|]); constructor. }
  { apply nodup_check. reflexivity. }
  { cbn. tauto. }
  { right. split; reflexivity. }
  change (format_text (c_start ++ [D 89])) with (str "%a %b %d %H:%M:%S %Y") in T1, T2. assert (t = printed txt c_start ++ signed_year y) by congruence. subst t.
  pose proof (C88_date_and_time rnd m lo dt zi y mo d N E O P SH) as QC. destruct (dt_d dt) as [y' mo' d'|]; [|discriminate]. eexists. split; [exact R2|]. rewrite (proj1 (C102_reading rnd lm am pm a s b c x p lo e ts sl zid _ N A PL LT)). fold m. change (mk_dt y mo d (dt_h dt) (dt_mi dt) (dt_s dt) 0 None) with
    {| dt_d := DShort y mo d; dt_h := if has (c_start ++ [D 89]) "H" then dt_h dt else 0; dt_mi := if has (c_start ++ [D 89]) "M" then dt_mi dt else 0; dt_s := if has (c_start ++ [D 89]) "S" then dt_s dt else 0; dt_us := if has (c_start ++ [D 89]) "f" then dt_us dt else 0; dt_tz := None; dt_fold := 0 |}.
  rewrite <- T2. destruct (Z_le_dec y (-1)) as [Y1|Y1]; [destruct (Z_le_dec (-999) y) as [Y2|Y2]|].
  - destruct (c_year sl y ltac:(lia)) as (F1 & F2 & F3). pose proof (last_year sl txt (fmt0 4 y) [] RD KN TB F1 F2) as G1. rewrite app_nil_r in G1.
    assert (NS : nosp (signed_year y ++ [])) by (unfold signed_year; replace (y <? 0) with true by lia; reflexivity).
    pose proof (last_year sl txt (signed_year y) [] RD KN TB (Y_cols sl y []) NS) as G2. rewrite app_nil_r in G2. unfold strptime, start. rewrite G1, G2. cbn [bind].
    cbv iota in G1, G2. match type of G1 with _ = Ok ?g1 => match type of G2 with _ = Ok ?g2 => assert (PF : parse_found sl g1 = parse_found sl g2) end end.
    { unfold parse_found. unfold found. cbn [letters c_start flat_map map app found_loop]. unfold found_step. cbn [Z.eqb Pos.eqb orb]. rewrite F3. reflexivity. }
    rewrite PF. destruct (parse_found _ _) as [st|]; [|reflexivity]. cbn [bind]. destruct (check_iso_week st); [|reflexivity]. cbn [bind]. destruct (miscellaneous rnd m st); reflexivity.
  - f_equal. f_equal. pose proof (QC ltac:(lia)) as Q. assert (Q2 : printed txt c_start ++ fmt0 4 y = printed txt c_start ++ signed_year y) by congruence. apply app_inv_head in Q2. exact Q2.
  - f_equal. f_equal. pose proof (QC ltac:(lia)) as Q. assert (Q2 : printed txt c_start ++ fmt0 4 y = printed txt c_start ++ signed_year y) by congruence. apply app_inv_head in Q2. exact Q2.
Qed.
Print Assumptions C102_date_and_time.

Lemma kull_first sl k s : -10 <= k < 10 -> first (inner sl 89) (plain k ++ [32] ++ s) = Some ([], [32] ++ s).
Proof. intro K. apply (zmap (fun k => first (inner sl 89) (plain k ++ [32] ++ s)) _ (-10) 20); [vm_compute; reflexivity|lia]. Qed.
(** Refuted for the long form: %c prints three numbers where strptime expects the year, and strptime refuses the text. *)
Theorem C102_long_refuted : forall rnd lm am pm a s b c x p lo e ts sl zid dt zi y mo d, Nearest rnd -> accurate lm -> let m := astro_set rnd lm in
  plain_locale am pm a s b c x p ts lo e -> locale_time rnd m lo e = Ok sl ->
  printable rnd m dt zi y mo d -> is_short (dt_d dt) = false -> dt_h dt <= 23 ->
  exists t, dt_strftime rnd m lo dt zi (str "%c") = Ok t /\ strptime rnd m sl zid t (str "%c") = Err ValueError.
Proof.
  intros rnd lm am pm a s b c x p lo e ts sl zid dt zi y mo d N A m PL LT P SH H. pose proof (C86_evening rnd lm N A) as E. pose proof (C87_naw_ruz_order rnd lm N A) as O. fold m in E, O.
  destruct (C102_formats rnd lm am pm a s b c x p lo e ts N A PL) as (sl' & LT' & SL & _). fold m in LT'. assert (sl' = sl) by congruence. subst sl'.
  destruct (c_printed rnd m lo sl dt zi y mo d N E O P SL H) as (txt & RD & KN & TB & R1 & R2).
  destruct P as (SU & (C & _) & _). destruct (sup_ok rnd m (dt_d dt) y mo d N E SU) as (DN & K & YL). destruct K as (KY & _).
  destruct (dt_d dt) as [|k v yy mo' d']; [discriminate|]. destruct DN as (VV & YY & LY & _). assert (KR : -10 <= k < 10) by lia. clear - N A PL LT RD KN TB R2 KR.
  eexists. split; [exact R2|]. rewrite (proj1 (C102_reading rnd lm am pm a s b c x p lo e ts sl zid _ N A PL LT)). fold m. set (rest := fmt0 2 v ++ [32] ++ fmt0 2 yy). unfold strptime, start.
  rewrite (last_year sl txt (plain k) ([32] ++ rest) RD KN TB); [reflexivity| |].
  - apply (kull_first sl k rest), KR.
  - assert (Q : match plain k with z :: _ => is_space z | [] => true end = false) by (apply (zmap (fun k => match plain k with z :: _ => is_space z | [] => true end) _ (-10) 20); [vm_compute; reflexivity|lia]).
    unfold nosp. destruct (plain k); [discriminate|exact Q].
Qed.
Print Assumptions C102_long_refuted.

Lemma replace_delims us a s b c : a <> 102 -> b <> 102 -> c <> 102 -> s <> 37 -> replace_f us (format_text [D a; L s; D b; L s; D c]) = format_text [D a; L s; D b; L s; D c].
Proof.
  intros A B C S. change (format_text [D a; L s; D b; L s; D c]) with [37; a; s; 37; b; s; 37; c]. cbn [replace_f Z.eqb Pos.eqb app]. replace (a =? 102) with false by lia. replace (b =? 102) with false by lia. replace (c =? 102) with false by lia. replace (s =? 37) with false by lia. reflexivity.
Qed.
Lemma dt_x rnd m am pm a s b c x p ts lo e dt zi : plain_locale am pm a s b c x p ts lo e ->
  dt_strftime rnd m lo dt zi (str "%x") = dt_strftime rnd m lo dt zi (format_text [D a; L s; D b; L s; D c]) /\
  dt_strftime rnd m lo dt zi (str "%X") = dt_strftime rnd m lo dt zi (format_text [D (match p with [] => 72 | _ => 73 end); L ts; D 77; L ts; D 83]).
Proof.
  intros (LD & X & FA & FB & FC & DS & DT & _). assert (S37 : s <> 37 /\ ts <> 37) by (split; intros ->; [destruct DS as (_ & Q & _)|destruct DT as (_ & Q & _)]; apply Q; left; reflexivity). destruct S37 as [S37 T37].
  assert (NF : forall k, date_field k -> k <> 102 /\ In k usable) by (intros k I; split; [intros ->; revert I; unfold date_field; cbn; intuition discriminate|apply fields_usable, I]).
  unfold dt_strftime. split; (destruct (dt_timetuple rnd m dt zi) as [st|]; [|reflexivity]); cbn [bind].
  - rewrite replace_delims by (try apply NF; assumption). change (replace_f (dt_us dt) (str "%x")) with (str "%x"). apply (C88_locale_date rnd m am pm a s b c x p lo); [repeat (constructor; [apply NF; assumption|]); constructor|exact S37|exact LD].
  - rewrite replace_delims by (try (destruct p; discriminate); try discriminate; exact T37). change (replace_f (dt_us dt) (str "%X")) with (str "%X"). apply (C88_locale_time rnd m am pm _ x p lo _ _ ts X T37 LD).
Qed.

(** C102 (%x): if the date format has the year with all digits, the day, and the month by number or name, every date
    printed and read with %x comes back, at midnight. *)
Theorem C102_date : forall rnd lm am pm a s b c x p lo e ts sl zid dt zi y mo d k, Nearest rnd -> accurate lm -> let m := astro_set rnd lm in
  plain_locale am pm a s b c x p ts lo e -> locale_time rnd m lo e = Ok sl -> In k (str "mBb") -> Permutation [a; b; c] (str "Yd" ++ [k]) ->
  printable rnd m dt zi y mo d -> (In k (str "b") -> mo <> 15) ->
  exists t, dt_strftime rnd m lo dt zi (str "%x") = Ok t /\ strptime rnd m sl zid t (str "%x") = Ok (mk_dt y mo d 0 0 0 0 None).
Proof.
  intros rnd lm am pm a s b c x p lo e ts sl zid dt zi y mo d k N A m PL LT KM PE P M15. pose proof (C86_evening rnd lm N A) as E. pose proof (C87_naw_ruz_order rnd lm N A) as O. fold m in E, O.
  destruct (C102_formats rnd lm am pm a s b c x p lo e ts N A PL) as (sl' & LT' & SL & _). fold m in LT'. assert (sl' = sl) by congruence. subst sl'.
  rewrite (proj1 (dt_x rnd m am pm a s b c x p ts lo e dt zi PL)). pose proof (fun t => proj1 (proj2 (C102_reading rnd lm am pm a s b c x p lo e ts sl zid t N A PL LT))) as RD. fold m in RD.
  set (l := [D a; L s; D b; L s; D c]) in *. assert (S37 : s <> 37) by (destruct PL as (_ & _ & _ & _ & _ & (_ & Q & _) & _); intros ->; apply Q; left; reflexivity).
  assert (KK : k = 109 \/ k = 66 \/ k = 98) by (revert KM; cbn; intuition lia).
  assert (IN : forall q, In q [a; b; c] <-> q = 89 \/ q = 100 \/ q = k) by (intro q; split; intro I; [apply (Permutation_in _ PE) in I; revert I; cbn; intuition lia|apply (Permutation_in _ (Permutation_sym PE)); cbn; intuition lia]).
  assert (HAS : forall cs, has l cs = true <-> exists q, In q [a; b; c] /\ In q (str cs)) by (intro cs; apply has_in).
  assert (NO : forall cs, (~ In 89 (str cs)) -> ~ In 100 (str cs) -> ~ In k (str cs) -> has l cs = false).
  { intros cs H1 H2 H3. apply not_true_iff_false. intro H. apply HAS in H as (q & Q1 & Q2). apply IN in Q1 as [-> |[-> | ->]]; tauto. }
  destruct (C66_roundtrip rnd m lo sl zid dt zi y mo d l N E O P SL) as (t & T1 & T2).
  - assert (R1 : forall q, In q [a; b; c] -> In q (str "YmBbdHMSfAaj")) by (intros q I; apply IN in I as [-> |[-> | ->]]; [| |destruct KK as [-> |[-> | ->]]]; apply in_mem; reflexivity).
    unfold l. repeat (apply Forall_cons; [cbn [readable]; first [exact S37|apply R1; cbn; tauto]|]). apply Forall_nil.
  - change (letters l) with [a; b; c]. apply (Permutation_NoDup (Permutation_sym PE)). destruct KK as [-> |[-> | ->]]; apply nodup_check; reflexivity.
  - assert (R1 : forall q, In q [a; b; c] -> q <> 102 /\ is_mark q = false) by (intros q I; apply IN in I as [-> |[-> | ->]]; [| |destruct KK as [-> |[-> | ->]]]; (split; [discriminate|reflexivity])).
    destruct (R1 a ltac:(cbn; tauto)) as [A1 A2]. destruct (R1 b ltac:(cbn; tauto)) as [B1 B2]. destruct (R1 c ltac:(cbn; tauto)) as [C1 C2].
    unfold l. rewrite fl_D by exact A1. change (f_as_literal (L s :: ?x)) with (L s :: f_as_literal x). rewrite fl_D by exact B1. change (f_as_literal (L s :: ?x)) with (L s :: f_as_literal x). rewrite fl_D by exact C1. cbn. tauto.
  - apply HAS. exists 89. split; [apply IN; tauto|left; reflexivity].
  - right. split; apply HAS; [exists k; split; [apply IN; tauto|exact KM]|exists 100; split; [apply IN; tauto|left; reflexivity]].
  - rewrite NO; [discriminate| | |]; destruct KK as [-> |[-> | ->]]; cbn; intuition discriminate.
  - intro H. apply M15. apply HAS in H as (q & Q1 & Q2). apply IN in Q1. cbn in Q2 |- *. intuition lia.
  - rewrite NO; [discriminate| | |]; destruct KK as [-> |[-> | ->]]; cbn; intuition discriminate.
  - rewrite (NO "H"%string), (NO "M"%string), (NO "S"%string), (NO "f"%string) in T2 by (destruct KK as [-> |[-> | ->]]; cbn; intuition discriminate).
    exists t. split; [exact T1|]. rewrite RD. exact T2.
Qed.
Print Assumptions C102_date.

(** Refuted for a date format with two digits of the year (such as the default %m/%d/%y): dates a hundred years apart have
    one text, so it cannot be read back. *)
Theorem C102_two_digits_refuted : forall rnd lm am pm a s b c x p lo e ts dt zi y dt' zi' y' mo d, Nearest rnd -> accurate lm -> let m := astro_set rnd lm in
  plain_locale am pm a s b c x p ts lo e -> Permutation [a; b; c] (str "ymd") -> printable rnd m dt zi y mo d -> printable rnd m dt' zi' y' mo d -> 0 <= y -> y' = y + 100 ->
  dt_strftime rnd m lo dt zi (str "%x") = dt_strftime rnd m lo dt' zi' (str "%x").
Proof.
  intros rnd lm am pm a s b c x p lo e ts dt zi y dt' zi' y' mo d N A m PL PE P P' Y0 Y1. pose proof (C86_evening rnd lm N A) as E. pose proof (C87_naw_ruz_order rnd lm N A) as O. fold m in E, O.
  rewrite (proj1 (dt_x rnd m am pm a s b c x p ts lo e dt zi PL)), (proj1 (dt_x rnd m am pm a s b c x p ts lo e dt' zi' PL)).
  assert (S37 : s <> 37) by (destruct PL as (_ & _ & _ & _ & _ & (_ & Q & _) & _); intros ->; apply Q; left; reflexivity).
  assert (IN : forall q, In q [a; b; c] -> q = 121 \/ q = 109 \/ q = 100) by (intros q I; apply (Permutation_in _ PE) in I; revert I; cbn; intuition lia).
  pose proof (IN a ltac:(cbn; tauto)) as IA. pose proof (IN b ltac:(cbn; tauto)) as IB. pose proof (IN c ltac:(cbn; tauto)) as IC.
  assert (OK : pieces_ok (two_delims a s b c)).
  { apply delims_ok; [|exact S37]. repeat (apply Forall_cons); try apply Forall_nil; match goal with |- In ?q _ => assert (Q : q = 121 \/ q = 109 \/ q = 100) by assumption; destruct Q as [-> |[-> | ->]]; apply in_mem; reflexivity end. }
  assert (NF : ~ In (D 102) (two_delims a s b c)) by (unfold two_delims; cbn; intuition (try discriminate); match goal with H : D _ = D 102 |- _ => injection H as H; lia end).
  assert (NP : ~ In (L 37) (two_delims a s b c)) by (unfold two_delims; cbn; intuition (try discriminate); match goal with H : L _ = L 37 |- _ => injection H as H; lia end).
  destruct (dt_pieces rnd m lo dt zi y mo d (two_delims a s b c) N E O P OK NF NP) as (st & TT & R). destruct (dt_pieces rnd m lo dt' zi' y' mo d (two_delims a s b c) N E O P' OK NF NP) as (st' & TT' & R').
  change (format_text (two_delims a s b c)) with (format_text [D a; L s; D b; L s; D c]) in R, R'. rewrite R, R'.
  destruct (printable_struct rnd m dt zi y mo d N E O P) as (s1 & w1 & T1 & _ & _ & _ & MO & MD & _ & _ & _ & _ & _ & _ & _ & _ & X). assert (s1 = st) by congruence. subst s1.
  destruct (printable_struct rnd m dt' zi' y' mo d N E O P') as (s1 & w2 & T2 & _ & _ & _ & MO' & MD' & _ & _ & _ & _ & _ & _ & _ & _ & X'). assert (s1 = st') by congruence. subst s1.
  assert (SAME : forall q, q = 121 \/ q = 109 \/ q = 100 -> pval rnd m lo st (D q) = pval rnd m lo st' (D q)).
  { intros q [-> |[-> | ->]].
    - pose proof (proj1 (proj2 (C34_century rnd m lo dt zi y mo d N E O P Y0))) as C1. pose proof (proj1 (proj2 (C34_century rnd m lo dt' zi' y' mo d N E O P' ltac:(lia)))) as C2.
      change (str "%y") with [37; 121] in C1, C2. rewrite (one_directive rnd m lo dt zi st X 121) in C1 by (try discriminate; apply in_mem; reflexivity). rewrite (one_directive rnd m lo dt' zi' st' X' 121) in C2 by (try discriminate; apply in_mem; reflexivity).
      unfold pval. rewrite C1, C2. do 2 f_equal. lia.
    - change (pval rnd m lo st (D 109)) with (@Ok text (f_m st 0)). change (pval rnd m lo st' (D 109)) with (@Ok text (f_m st' 0)). unfold f_m. rewrite MO, MO'. reflexivity.
    - change (pval rnd m lo st (D 100)) with (@Ok text (f_d st false 0)). change (pval rnd m lo st' (D 100)) with (@Ok text (f_d st' false 0)). unfold f_d. rewrite MD, MD'. reflexivity. }
  unfold two_delims. cbn [map]. rewrite (SAME a IA), (SAME b IB), (SAME c IC). reflexivity.
Qed.
Print Assumptions C102_two_digits_refuted.

(** C102 (%X): in a locale with a 24 hour clock the time printed with %X is read back with %X, on the first day of year 2. *)
Theorem C102_time : forall rnd lm am pm a s b c x lo e ts sl zid dt zi y mo d, Nearest rnd -> accurate lm -> let m := astro_set rnd lm in
  plain_locale am pm a s b c x [] ts lo e -> locale_time rnd m lo e = Ok sl -> printable rnd m dt zi y mo d -> dt_h dt <= 23 ->
  exists t, dt_strftime rnd m lo dt zi (str "%X") = Ok t /\ strptime rnd m sl zid t (str "%X") = Ok (mk_dt 2 1 1 (dt_h dt) (dt_mi dt) (dt_s dt) 0 None).
Proof.
  intros rnd lm am pm a s b c x lo e ts sl zid dt zi y mo d N A m PL LT P H. pose proof (C86_evening rnd lm N A) as E. pose proof (C87_naw_ruz_order rnd lm N A) as O. fold m in E, O.
  destruct (C102_formats rnd lm am pm a s b c x [] lo e ts N A PL) as (sl' & LT' & SL & _). fold m in LT'. assert (sl' = sl) by congruence. subst sl'.
  rewrite (proj2 (dt_x rnd m am pm a s b c x [] ts lo e dt zi PL)). pose proof (fun t => proj2 (proj2 (C102_reading rnd lm am pm a s b c x [] lo e ts sl zid t N A PL LT))) as RD. fold m in RD. cbv iota in RD |- *.
  assert (T37 : ts <> 37) by (destruct PL as (_ & _ & _ & _ & _ & _ & (_ & Q & _) & _); intros ->; apply Q; left; reflexivity).
  destruct (C71_defaults rnd m lo sl zid dt zi y mo d [D 72; L ts; D 77; L ts; D 83] N E O P SL) as (t & T1 & T2 & _); try reflexivity; try (intros; assumption); try discriminate.
  { repeat (constructor; [first [exact T37|apply in_mem; reflexivity]|]); constructor. }
  { apply nodup_check. reflexivity. }
  { cbn. tauto. }
  exists t. split; [exact T1|]. rewrite RD. exact T2.
Qed.
Print Assumptions C102_time.

(** A German locale with its zones, and the formats strptime infers in it. *)
Definition german_locale : res locale := locale_data [] [] (str "%d.%m.%Y") (str "14:05:09") [].
Definition german : tzenv := {| te_std := str "CET"; te_dst := str "CEST"; te_daylight := true; te_order := fun l => l |}.
Example C102_case : forall rnd lm, Nearest rnd -> accurate lm -> let m := astro_set rnd lm in
  exists lo sl, german_locale = Ok lo /\ plain_locale [] [] 100 46 109 89 (str "14:05:09") [] 58 lo german /\ locale_time rnd m lo german = Ok sl /\
    sl_x sl = str "%d.%m.%Y" /\ sl_X sl = str "%H:%M:%S" /\ In 109 (str "mBb") /\ Permutation [100; 109; 89] (str "Yd" ++ [109]) /\
    printable rnd m (mk_dt 181 9 17 14 5 9 0 None) None 181 9 17 /\
    dt_strftime rnd m lo (mk_dt 181 9 17 14 5 9 0 None) None (str "%x") = Ok (str "17.09.0181").
Proof.
  intros rnd lm N A m. pose proof (C86_evening rnd lm N A) as E. pose proof (C87_naw_ruz_order rnd lm N A) as O. fold m in E, O.
  assert (DF : forall k, mem k (str "dmyYbBaA") = true -> date_field k) by (intros k K; apply in_mem, K).
  assert (DL : forall k, (lower k =? k) = true -> mem k (str "%0123456789kamjl") = false -> mem k (u "á") = false -> delimiter k).
  { intros k K1 K2 K3. split; [apply Z.eqb_eq, K1|]. split; intro I; apply in_mem in I; congruence. }
  destruct german_locale as [lo|] eqn:G; [|discriminate]. assert (PL : plain_locale [] [] 100 46 109 89 (str "14:05:09") [] 58 lo german).
  { split; [exact G|]. split; [reflexivity|]. split; [apply DF; reflexivity|]. split; [apply DF; reflexivity|]. split; [apply DF; reflexivity|]. split; [apply DL; reflexivity|]. split; [apply DL; reflexivity|]. split; [left; reflexivity|].
    split; [right; split; [cbn; lia|vm_compute; intuition discriminate]|]. split; [right; split; [cbn; lia|vm_compute; intuition discriminate]|]. intro l. apply Permutation_refl. }
  destruct (C102_formats rnd lm _ _ _ _ _ _ _ _ lo german 58 N A PL) as (sl & LT & SL & _ & _ & _ & _ & XX & XT). fold m in LT. exists lo, sl.
  assert (P : printable rnd m (mk_dt 181 9 17 14 5 9 0 None) None 181 9 17).
  { split; [|split; [|split; [reflexivity|left; reflexivity]]]; [split; [cbn; tauto|]; split; [lia|]; split; [lia|]; unfold bmonth_len; cbn [Z.eqb]; lia|].
    split; [cbn; unfold valid_clock; lia|]. split; [left; reflexivity|intros o OO; discriminate]. }
  split; [reflexivity|]. split; [exact PL|]. split; [exact LT|]. split; [exact XX|]. split; [exact XT|]. split; [apply in_mem; reflexivity|].
  split; [change (str "Yd" ++ [109]) with [89; 100; 109]; apply (Permutation_trans (perm_skip 100 (perm_swap 89 109 []))), perm_swap|]. split; [exact P|].
  rewrite (proj1 (dt_x rnd m _ _ _ _ _ _ _ _ _ lo german _ None PL)). destruct (print_rt rnd m _ None 181 9 17 N E O P) as (w & _ & _ & PR).
  rewrite (PR lo [D 100; L 46; D 109; L 46; D 89]); [reflexivity| |discriminate|cbn; tauto]. repeat (constructor; [first [discriminate|apply in_mem; reflexivity]|]); constructor.
Qed.
(** An American locale with its clock of twelve hours, and one with two digits for the year; a long datetime; two dates with one text. *)
Definition new_york : tzenv := {| te_std := str "EST"; te_dst := str "EDT"; te_daylight := true; te_order := @rev text |}.
Example C102_case_american : forall rnd lm, Nearest rnd -> accurate lm -> let m := astro_set rnd lm in
  (exists lo sl, plain_locale (str "AM") (str "PM") 109 47 100 89 (str "02:05:09 PM") (str "PM") 58 lo new_york /\ locale_time rnd m lo new_york = Ok sl /\ sl_X sl = str "%I:%M:%S") /\
  (exists lo, plain_locale (str "AM") (str "PM") 109 47 100 121 (str "02:05:09 PM") (str "PM") 58 lo new_york) /\ Permutation [109; 100; 121] (str "ymd") /\
  printable rnd m {| dt_d := DLong 1 10 10 9 17; dt_h := 14; dt_mi := 5; dt_s := 9; dt_us := 0; dt_tz := None; dt_fold := 0 |} None 181 9 17 /\ printable rnd m (mk_dt 81 9 17 14 5 9 0 None) None 81 9 17.
Proof.
  intros rnd lm N A m. assert (DF : forall k, mem k (str "dmyYbBaA") = true -> date_field k) by (intros k K; apply in_mem, K).
  assert (DL : forall k, (lower k =? k) = true -> mem k (str "%0123456789kamjl") = false -> mem k (u "á") = false -> delimiter k).
  { intros k K1 K2 K3. split; [apply Z.eqb_eq, K1|]. split; intro I; apply in_mem in I; congruence. }
  assert (PL : forall y, date_field y -> exists lo, plain_locale (str "AM") (str "PM") 109 47 100 y (str "02:05:09 PM") (str "PM") 58 lo new_york).
  { intros y Y. eexists. split; [reflexivity|]. split; [reflexivity|]. split; [apply DF; reflexivity|]. split; [apply DF; reflexivity|]. split; [exact Y|]. split; [apply DL; reflexivity|]. split; [apply DL; reflexivity|].
    split; [right; exists 112; repeat split; [left; reflexivity|vm_compute; intuition discriminate|discriminate|discriminate]|].
    split; [right; split; [cbn; lia|vm_compute; intuition discriminate]|]. split; [right; split; [cbn; lia|vm_compute; intuition discriminate]|]. intro l. apply Permutation_sym, Permutation_rev. }
  split; [|split; [|split; [|split]]].
  - destruct (PL 89 (DF 89 eq_refl)) as (lo & P). destruct (C102_formats rnd lm _ _ _ _ _ _ _ _ lo new_york 58 N A P) as (sl & LT & _ & _ & _ & _ & _ & _ & XT). exists lo, sl. split; [exact P|]. split; [exact LT|exact XT].
  - apply PL, DF. reflexivity.
  - change (str "ymd") with [121; 109; 100]. apply Permutation_sym, (Permutation_trans (perm_swap 109 121 [100])), perm_skip, perm_swap.
  - split; [|split; [|split; [reflexivity|right; cbn; lia]]]; [|split; [cbn; unfold valid_clock; lia|]; split; [left; reflexivity|intros o OO; discriminate]].
    split; [cbn; lia|]. split; [lia|]. split; [lia|]. unfold bmonth_len; cbn [Z.eqb]; lia.
  - split; [|split; [|split; [reflexivity|left; reflexivity]]]; [|split; [cbn; unfold valid_clock; lia|]; split; [left; reflexivity|intros o OO; discriminate]].
    split; [cbn; tauto|]. split; [lia|]. split; [lia|]. unfold bmonth_len; cbn [Z.eqb]; lia.
Qed.
