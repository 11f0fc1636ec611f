(** PropertiesStrf4.v -- C34: numeric directives of strftime, for datetimes. *)
From Coq Require Import ZArith QArith Qround Qabs List Bool Lia Lqa String.
From Coq Require Import ZifyBool ZifyNat ZifyN.
From Verif Require Import Base Flt QUtil BaseModel MiscModel BadiModel BaseProofs SunProofs SpecBadi BadiProofs BadiProofs2 BadiProofs3 DecProofs BadiProofs4 LongYear LongProofs BadiProofs5 MeeusFloat
  ClockProofs3 ClockProofs4 TduModel DateModel SpecDate TduProofs TduProofs2 TduProofs3 DateProofs SampleSun PropertiesBadi PropertiesDate PropertiesDate2
  TimeModel SpecTime TimeProofs PropertiesTime PropertiesDt TextModel SpecText TextProofs PropertiesText StrfModel SpecStrf StrfProofs PropertiesStrf PropertiesStrf2 PropertiesStrf3.
Import ListNotations.
Local Open Scope Z_scope.
Ltac Zify.zify_post_hook ::= Z.div_mod_to_equations.

(** The datetimes the statements below are about: a supported day, a valid clock, the answers of the zone for it; a long
    form with a clock below 24 hours and 60 seconds. *)
Definition printable (rnd : Q -> Q) (m : Q -> Q -> Q -> Q) (a : pdt) (zi : option zinfo) (y mo d : Z) : Prop :=
  supported rnd m (dt_d a) y mo d /\ valid_dt_clock a /\ option_map zi_tz zi = dt_tz a /\ (is_short (dt_d a) = true \/ (dt_h a <= 23 /\ dt_s a <= 59)).

(** The struct of such a datetime. *)
Lemma printable_struct rnd m a zi y mo d : Nearest rnd -> evening rnd m -> naw_ruz_order rnd m -> printable rnd m a zi y mo d ->
  exists s w, dt_timetuple rnd m a zi = Ok s /\ weekday rnd m (dt_d a) = Ok w /\ 0 <= w <= 6 /\ get_year s = y /\ st_mon s = mo /\ st_mday s = d /\
    st_hour s = dt_h a /\ st_min s = dt_mi a /\ st_sec s = dt_s a /\ st_wday s = w /\ st_yday s = bday_of_year (leap_of rnd m y) mo d /\
    st_zone s = match zi with Some z => zi_name z | None => None end /\
    st_gmtoff s = (match offset (dt_tz a) with Some o => if o =? 0 then None else Some (rnd (o # 1000000)) | None => None end) /\
    (st_kv s = match dt_d a with DShort _ _ _ => None | DLong k v _ _ _ => Some (k, v) end) /\ 
    (forall lo fmt, dt_strftime rnd m lo a zi fmt = let f := replace_f (dt_us a) fmt in let* _ := check_format f in strftime_loop rnd m lo s (last f 0) f).
Proof.
  intros N E O (S & V & Z & F). destruct (C61_timetuple rnd m a zi y mo d N E O S V Z F) as (s & w & R & W & I & ZN & G).
  destruct (sup_ok rnd m (dt_d a) y mo d N E S) as (D & K & Y). pose proof K as (KY & KM & KD).
  assert (WR : 0 <= w <= 6). { pose proof (proj1 (weekday_ok rnd N m E O (dt_d a) y mo d D K)) as W2. assert (w = (zord y mo d + 1) mod 7) by congruence. lia. }
  assert (V' : valid_tuple (leap_of rnd m) (st_items s)).
  { rewrite I. destruct V as (C & _). unfold valid_clock in C. pose proof (doy_range (leap_of rnd m y) mo d KM) as DR. rewrite (leap_of_ok rnd N m E) in * by lia. specialize (DR KD).
    assert (DF : -1 <= dst_flag zi (-1) <= 1) by (unfold dst_flag; destruct zi as [[z n [t|]]|]; [destruct (t =? 0); lia|lia|lia]).
    unfold valid_tuple, fields_ok. destruct (dt_d a) as [y' mo' d'|k v yy mo' d'].
    - destruct D as (-> & -> & ->). left. exists y, mo, d, (dt_h a), (dt_mi a), (dt_s a), w, (bday_of_year (zleap y) mo d), (dst_flag zi (-1)). split; [reflexivity|].
      rewrite (leap_of_ok rnd N m E) by lia. lia.
    - destruct D as (VV & YY & L & -> & ->). right. exists k, v, yy, mo, d, (dt_h a), (dt_mi a), (dt_s a), w, (bday_of_year (zleap y) mo d), (dst_flag zi (-1)). split; [reflexivity|].
      replace (361 * (k - 1) + 19 * (v - 1) + yy) with y by lia. cbv zeta. rewrite (leap_of_ok rnd N m E) by lia. lia. }
  exists s, w. split; [exact R|]. split; [exact W|]. split; [exact WR|].
  assert (X : forall lo fmt, dt_strftime rnd m lo a zi fmt = let f := replace_f (dt_us a) fmt in let* _ := check_format f in strftime_loop rnd m lo s (last f 0) f).
  { intros lo fmt. unfold dt_strftime. rewrite R. cbn [bind]. unfold strftime. cbv zeta. destruct (check_format _) as [[]|]; [|reflexivity]. cbn [bind].
    rewrite (proj2 (checktm_iff rnd N m E (st_items s)) V'). reflexivity. }
  unfold st_items in I. destruct (dt_d a) as [y' mo' d'|k v yy mo' d'].
  - destruct D as (-> & -> & ->). destruct (st_kv s) as [[k0 v0]|] eqn:KV; [discriminate|]. cbn [b_date app] in I. unfold get_year. rewrite KV.
    repeat (split; [congruence|]). exact X.
  - destruct D as (VV & YY & L & -> & ->). destruct (st_kv s) as [[k0 v0]|] eqn:KV; [|discriminate]. cbn [b_date app] in I. unfold get_year. rewrite KV.
    assert (k0 = k) by congruence. assert (v0 = v) by congruence. assert (st_year s = yy) by congruence. subst k0 v0. split; [lia|].
    repeat (split; [congruence|]). exact X.
Qed.

Lemma two h : 0 <= h <= 99 -> fmt0 2 h = columns 2 h.
Proof. intro H. apply fmt0_columns; [lia|change (10 ^ Z.of_nat 2) with 100; lia]. Qed.
Lemma year_minus y : -9999 <= y <= 9999 -> minus y ++ fmt0 4 (Z.abs y) = signed_year y.
Proof.
  intro Y. unfold minus, signed_year. rewrite fmt0_columns by (try lia; change (10 ^ Z.of_nat 4) with 10000; lia).
  destruct (Z.ltb_spec y 0); [replace (Z.abs y) with (- y) by lia|replace (Z.abs y) with y by lia]; reflexivity.
Qed.
Lemma plain_short z : 0 <= z <= 999 -> plain z = short_decimal z.
Proof.
  intro H. pose (P := fun z => if list_eq_dec Z.eq_dec (plain z) (short_decimal z) then true else false).
  assert (A : P z = true) by (apply (zforall P 0 1000); [vm_compute; reflexivity|lia]). unfold P in A. destruct (list_eq_dec _ _ _); [assumption|discriminate].
Qed.

(** C34: each zero padded directive prints its field in its columns, exactly. *)
Theorem C34_fields : forall rnd m lo a zi y mo d, Nearest rnd -> evening rnd m -> naw_ruz_order rnd m -> printable rnd m a zi y mo d ->
  dt_strftime rnd m lo a zi (str "%Y") = Ok (signed_year y) /\
  dt_strftime rnd m lo a zi (str "%m") = Ok (columns 2 mo) /\
  dt_strftime rnd m lo a zi (str "%d") = Ok (columns 2 d) /\
  dt_strftime rnd m lo a zi (str "%H") = Ok (columns 2 (dt_h a)) /\
  dt_strftime rnd m lo a zi (str "%M") = Ok (columns 2 (dt_mi a)) /\
  dt_strftime rnd m lo a zi (str "%S") = Ok (columns 2 (dt_s a)) /\
  dt_strftime rnd m lo a zi (str "%f") = Ok (columns 6 (dt_us a)) /\
  dt_strftime rnd m lo a zi (str "%T") = Ok (hms_text (dt_h a) (dt_mi a) (dt_s a)) /\
  dt_strftime rnd m lo a zi (str "%j") = Ok (columns 3 (bday_of_year (leap_of rnd m y) mo d)) /\
  exists w, weekday rnd m (dt_d a) = Ok w /\ dt_strftime rnd m lo a zi (str "%u") = Ok (columns 1 (w + 1)).
Proof.
  intros rnd m lo a zi y mo d N E O P. destruct (printable_struct rnd m a zi y mo d N E O P) as (s & w & _ & W & WR & GY & MO & MD & HH & MI & SS & WD & YD & _ & _ & _ & X).
  destruct P as (S & (C & _) & _). destruct (sup_ok rnd m (dt_d a) y mo d N E S) as (D & K & Y). pose proof K as (KY & KM & KD). pose proof (ok_small y mo d K) as (_ & DS).
  unfold valid_clock in C.
  assert (R : forall c t, c <> 102 -> check_format [37; c] = Ok tt -> c <> 37 -> directive rnd m lo s c 0 = Ok t -> c <> 45 -> c <> 58 -> dt_strftime rnd m lo a zi [37; c] = Ok t).
  { intros c t C1 C2 C3 C4 C5 C6. rewrite X. cbn [replace_f]. replace (c =? 102) with false by lia. cbn [Z.eqb Pos.eqb app]. cbv zeta. rewrite C2. cbn [bind last strftime_loop].
    replace (mem c [45; 58]) with false by (symmetry; unfold mem; cbn [existsb]; lia). cbn [Z.eqb Pos.eqb]. rewrite C4. cbn [bind app]. change (mem 37 [37; 45; 58]) with true. cbn. rewrite app_nil_r. reflexivity. }
  split. { apply (R 89); try reflexivity; try discriminate. change (directive rnd m lo s 89 0) with (@Ok text (f_G s)). unfold f_G. rewrite GY, year_minus by lia. reflexivity. }
  split. { apply (R 109); try reflexivity; try discriminate. change (directive rnd m lo s 109 0) with (@Ok text (f_m s 0)). unfold f_m. cbn [Z.eqb]. rewrite MO, two by lia. reflexivity. }
  split. { apply (R 100); try reflexivity; try discriminate. change (directive rnd m lo s 100 0) with (@Ok text (f_d s false 0)). unfold f_d. cbn [Z.eqb]. rewrite MD, two by lia. reflexivity. }
  split. { apply (R 72); try reflexivity; try discriminate. change (directive rnd m lo s 72 0) with (@Ok text (f_H s 0)). unfold f_H. cbn [Z.eqb]. rewrite HH, two by lia. reflexivity. }
  split. { apply (R 77); try reflexivity; try discriminate. change (directive rnd m lo s 77 0) with (@Ok text (f_M s 0)). unfold f_M. cbn [Z.eqb]. rewrite MI, two by lia. reflexivity. }
  split. { apply (R 83); try reflexivity; try discriminate. change (directive rnd m lo s 83 0) with (@Ok text (f_S s 0)). unfold f_S. cbn [Z.eqb]. rewrite SS, two by lia. reflexivity. }
  split. { rewrite X. change (replace_f (dt_us a) (str "%f")) with (fmt0 6 (dt_us a) ++ []). rewrite app_nil_r. cbv zeta.
    assert (U : fmt0 6 (dt_us a) = columns 6 (dt_us a)) by (apply fmt0_columns; [lia|change (10 ^ Z.of_nat 6) with 1000000; lia]). rewrite U. clear U.
    set (t := columns 6 (dt_us a)). assert (DT : forallb is_digit t = true) by apply columns_digits. assert (NE : t <> []) by (intro Q0; apply (f_equal (@List.length Z)) in Q0; unfold t in Q0; rewrite columns_len in Q0; discriminate).
    clearbody t. clear - DT NE. unfold check_format. destruct t as [|c t]; [congruence|].
    assert (A : forall r p, forallb is_digit r = true -> check_format_loop p r = Ok tt).
    { induction r as [|x r IH]; intros p HR; [reflexivity|]. cbn [forallb] in HR. apply andb_true_iff in HR as [HX HR]. rewrite check_char by (unfold is_digit in HX; lia). apply IH, HR. }
    rewrite A by exact DT. cbn [bind].
    assert (B : forall r p, forallb is_digit r = true -> is_mark p = false -> strftime_loop rnd m lo s p r = Ok r).
    { induction r as [|x r IH]; intros p HR HP; [reflexivity|]. cbn [forallb] in HR. apply andb_true_iff in HR as [HX HR]. rewrite step_char by (unfold is_digit in HX; lia). rewrite HP, IH; [reflexivity|exact HR|unfold is_mark, is_digit in *; lia]. }
    apply B; [exact DT|]. assert (LI : In (last (c :: t) 0) (c :: t)) by (destruct (exists_last NE) as (l & x & ->); rewrite last_last; apply in_or_app; right; left; reflexivity).
    rewrite forallb_forall in DT. specialize (DT _ LI). unfold is_digit, is_mark in *. lia. }
  split. { apply (R 84); try reflexivity; try discriminate. change (directive rnd m lo s 84 0) with (f_r rnd m lo s true). cbn [f_r]. rewrite HH, MI, SS, !two by lia. reflexivity. }
  split. { apply (R 106); try reflexivity; try discriminate. change (directive rnd m lo s 106 0) with (@Ok text (f_j s 0)). unfold f_j. cbn [Z.eqb]. rewrite YD.
    rewrite fmt0_columns; [reflexivity|lia|]. change (10 ^ Z.of_nat 3) with 1000. pose proof (doy_range (leap_of rnd m y) mo d KM). rewrite (leap_of_ok rnd N m E) in * by lia. lia. }
  exists w. split; [exact W|].
  apply (R 117); try reflexivity; try discriminate. change (directive rnd m lo s 117 0) with (@Ok text (f_u s false)). unfold f_u. rewrite WD, plain_short by lia. unfold short_decimal. destruct (Z.ltb_spec (w + 1) 10); [reflexivity|lia].
Qed.
Print Assumptions C34_fields.

(** Refuted: the documented directive %w (weekday, 0 to 6) is never accepted. *)
Theorem C34_weekday_w_refuted : forall rnd m lo a zi y mo d, Nearest rnd -> evening rnd m -> naw_ruz_order rnd m -> printable rnd m a zi y mo d ->
  dt_strftime rnd m lo a zi (str "%w") = Err ValueError.
Proof.
  intros rnd m lo a zi y mo d N E O P. destruct (printable_struct rnd m a zi y mo d N E O P) as (s & w & _ & _ & _ & _ & _ & _ & _ & _ & _ & _ & _ & _ & _ & _ & X). rewrite X. reflexivity.
Qed.
Print Assumptions C34_weekday_w_refuted.

Lemma mod_directive rnd m lo a zi s : (forall lo fmt, dt_strftime rnd m lo a zi fmt = let f := replace_f (dt_us a) fmt in let* _ := check_format f in strftime_loop rnd m lo s (last f 0) f) ->
  forall c md, c <> 102 -> c <> 37 -> mem md [45; 58] = true -> check_format [37; md; c] = Ok tt -> dt_strftime rnd m lo a zi [37; md; c] = directive rnd m lo s c md.
Proof.
  intros X c md C1 C2 M C3. rewrite X. cbn [replace_f]. assert (MR : md = 45 \/ md = 58) by (unfold mem in M; cbn [existsb] in M; lia).
  replace (md =? 102) with false by lia. cbn [Z.eqb Pos.eqb app]. replace (c =? 37) with false by lia. cbv zeta. rewrite C3. cbn [bind last strftime_loop].
  rewrite M. replace (md =? 37) with false by lia. cbn [Z.eqb Pos.eqb]. change (mem 37 [37; 45; 58]) with true.
  replace (mem md [37; 45; 58]) with true by (symmetry; unfold mem; cbn [existsb]; lia). cbn [bind app]. destruct (directive rnd m lo s c md); cbn [bind]; [rewrite app_nil_r|]; reflexivity.
Qed.
Lemma one_directive rnd m lo a zi s : (forall lo fmt, dt_strftime rnd m lo a zi fmt = let f := replace_f (dt_us a) fmt in let* _ := check_format f in strftime_loop rnd m lo s (last f 0) f) ->
  forall c, c <> 102 -> well_formed (D c) -> dt_strftime rnd m lo a zi [37; c] = directive rnd m lo s c 0.
Proof.
  intros X c C1 W. destruct (letters_valid c W) as (V & N37 & N45 & N58). rewrite X. cbn [replace_f]. replace (c =? 102) with false by lia. cbn [Z.eqb Pos.eqb app]. cbv zeta.
  assert (C2 : check_format [37; c] = Ok tt).
  { unfold check_format. pose proof (check_pieces [D c] (Forall_cons _ W (Forall_nil _)) (last [37; c] 0) []) as CP. cbn in CP. cbn [last] in *. exact CP. }
  rewrite C2. cbn [bind last strftime_loop].
  replace (mem c [45; 58]) with false by (symmetry; unfold mem; cbn [existsb]; lia). cbn [Z.eqb Pos.eqb]. change (mem 37 [37; 45; 58]) with true. destruct (directive rnd m lo s c 0); cbn; [rewrite app_nil_r|]; reflexivity.
Qed.

(** C34 (no padding): with the modifier '-' the same fields without leading zeros. *)
Theorem C34_unpadded : forall rnd m lo a zi y mo d, Nearest rnd -> evening rnd m -> naw_ruz_order rnd m -> printable rnd m a zi y mo d ->
  dt_strftime rnd m lo a zi (str "%-m") = Ok (short_decimal mo) /\
  dt_strftime rnd m lo a zi (str "%-d") = Ok (short_decimal d) /\
  dt_strftime rnd m lo a zi (str "%-H") = Ok (short_decimal (dt_h a)) /\
  dt_strftime rnd m lo a zi (str "%-M") = Ok (short_decimal (dt_mi a)) /\
  dt_strftime rnd m lo a zi (str "%-S") = Ok (short_decimal (dt_s a)) /\
  dt_strftime rnd m lo a zi (str "%-j") = Ok (short_decimal (bday_of_year (leap_of rnd m y) mo d)).
Proof.
  intros rnd m lo a zi y mo d N E O P. destruct (printable_struct rnd m a zi y mo d N E O P) as (s & w & _ & W & WR & GY & MO & MD & HH & MI & SS & WD & YD & _ & _ & _ & X).
  destruct P as (S & (C & _) & _). destruct (sup_ok rnd m (dt_d a) y mo d N E S) as (D & K & Y). pose proof K as (KY & KM & KD). pose proof (ok_small y mo d K) as (_ & DS).
  unfold valid_clock in C. pose proof (mod_directive rnd m lo a zi s X) as R.
  repeat match goal with |- _ /\ _ => split end.
  - etransitivity; [apply (R 109 45); try reflexivity; discriminate|]. change (directive rnd m lo s 109 45) with (@Ok text (plain (st_mon s))). rewrite MO, plain_short by lia. reflexivity.
  - etransitivity; [apply (R 100 45); try reflexivity; discriminate|]. change (directive rnd m lo s 100 45) with (@Ok text (plain (st_mday s))). rewrite MD, plain_short by lia. reflexivity.
  - etransitivity; [apply (R 72 45); try reflexivity; discriminate|]. change (directive rnd m lo s 72 45) with (@Ok text (plain (st_hour s))). rewrite HH, plain_short by lia. reflexivity.
  - etransitivity; [apply (R 77 45); try reflexivity; discriminate|]. change (directive rnd m lo s 77 45) with (@Ok text (plain (st_min s))). rewrite MI, plain_short by lia. reflexivity.
  - etransitivity; [apply (R 83 45); try reflexivity; discriminate|]. change (directive rnd m lo s 83 45) with (@Ok text (plain (st_sec s))). rewrite SS, plain_short by lia. reflexivity.
  - etransitivity; [apply (R 106 45); try reflexivity; discriminate|]. change (directive rnd m lo s 106 45) with (@Ok text (plain (st_yday s))). rewrite YD, plain_short; [reflexivity|].
    pose proof (doy_range (leap_of rnd m y) mo d KM). rewrite (leap_of_ok rnd N m E) in * by lia. lia.
Qed.
Print Assumptions C34_unpadded.

(** C34 (weeks): %V is the week of isocalendar. *)
Theorem C34_week : forall rnd m lo a zi y mo d iy wk wd, Nearest rnd -> evening rnd m -> naw_ruz_order rnd m -> printable rnd m a zi y mo d -> calm_dt a ->
  isocalendar rnd m (dt_d a) = Ok (iy, wk, wd) -> dt_strftime rnd m lo a zi (str "%V") = Ok (columns 2 wk).
Proof.
  intros rnd m lo a zi y mo d iy wk wd N E O P CA I. destruct (printable_struct rnd m a zi y mo d N E O P) as (s & w & _ & W & WR & GY & MO & MD & HH & MI & SS & WD & YD & _ & _ & _ & X).
  destruct P as (S & (C & _) & _). destruct (sup_ok rnd m (dt_d a) y mo d N E S) as (D & K & Y). pose proof K as (KY & KM & KD).
  etransitivity; [apply (one_directive rnd m lo a zi s X 86); [discriminate|apply in_mem; reflexivity]|].
  change (directive rnd m lo s 86 0) with (f_V rnd m s 0). unfold f_V. cbn [Z.eqb]. rewrite GY, MO, MD.
  destruct (C19_isocalendar rnd m (dt_d a) y mo d (zrd y mo d) N E O S) as (iy' & wk' & wd' & f & w' & I' & WK & _); [apply (rata_die_zrd rnd N m E); [apply K|apply K|reflexivity]|intros y0 H0; exact (CA y mo d y0 D H0)|].
  unfold isocalendar in I, I'. rewrite (short_form_ok rnd N m E (dt_d a) y mo d D K) in I, I'. cbn [bind] in I, I'. rewrite I. cbn [bind].
  assert (wk' = wk) by congruence. subst. rewrite two by lia. reflexivity.
Qed.
Print Assumptions C34_week.

(** C34 (the long form): %:K and %:V print the kull-i-shay, when it is not negative, and the vahid of the year, whatever
    form the datetime has. *)
Theorem C34_kull_vahid : forall rnd m lo a zi y mo d k v yy, Nearest rnd -> evening rnd m -> naw_ruz_order rnd m -> printable rnd m a zi y mo d ->
  1 <= v <= 19 -> 1 <= yy <= 19 -> y = 361 * (k - 1) + 19 * (v - 1) + yy ->
  dt_strftime rnd m lo a zi (str "%:V") = Ok (columns 2 v) /\
  (0 <= k -> dt_strftime rnd m lo a zi (str "%:K") = Ok (columns 1 k)) /\
  (k < 0 -> dt_strftime rnd m lo a zi (str "%:K") = Ok (str "--" ++ columns 1 (- k))).
Proof.
  intros rnd m lo a zi y mo d k v yy N E O P V YY EY. destruct (printable_struct rnd m a zi y mo d N E O P) as (s & w & _ & W & WR & GY & MO & MD & HH & MI & SS & WD & YD & _ & _ & KV & X).
  destruct P as (S & (C & _) & _). destruct (sup_ok rnd m (dt_d a) y mo d N E S) as (D & K & Y). pose proof K as (KY & KM & KD).
  pose proof (mod_directive rnd m lo a zi s X) as R.
  assert (LY : long_year k v yy = y) by (unfold long_year; lia). assert (KR : -5 <= k <= 4) by lia.
  assert (KK : (match st_kv s with None => if st_year s =? 0 then 0 else Qceiling (fdiv rnd (inject_Z (st_year s)) 361) | Some (k, _) => k end) = k).
  { rewrite KV. unfold get_year in GY. rewrite KV in GY. destruct (dt_d a) as [y' mo' d'|k' v' yy' mo' d'].
    - rewrite GY. destruct (Z.eqb_spec y 0) as [->|NZ]; [lia|]. unfold fdiv.
      assert (A : (inject_Z k - 1 + (1 # 361) <= inject_Z y / 361 <= inject_Z k)%Q).
      { change 361%Q with (inject_Z 361). split.
        - apply Qle_shift_div_l; [reflexivity|]. assert (B : (361 * (k - 1) + 1 <= y)%Z) by lia. rewrite Zle_Qle in B. rewrite inject_Z_plus, inject_Z_mult in B. unfold Zminus in B. rewrite inject_Z_plus in B. change (inject_Z (- (1))) with (-1)%Q in B. change (inject_Z 361) with 361%Q in *. change (inject_Z 1) with 1%Q in B. lra.
        - apply Qle_shift_div_r; [reflexivity|]. rewrite <- inject_Z_mult, <- Zle_Qle. lia. }
      assert (KQ : (-5 <= inject_Z k <= 4)%Q) by (change (-5)%Q with (inject_Z (-5)); change 4%Q with (inject_Z 4); rewrite <- !Zle_Qle; exact KR).
      pose proof (near_k rnd N 3 (inject_Z y / 361) (1 # 1000000) ltac:(apply Qabs_le_iff; change (2 ^ 3)%Q with 8%Q; split; lra) ltac:(discriminate)) as B.
      pose proof (near_le_Z rnd _ k N ltac:(lia) (proj2 A)) as U. apply Qceiling_spec; lra.
    - destruct D as (V' & YY' & L' & _). lia. }
  split; [|split].
  - etransitivity; [apply (R 86 58); try reflexivity; discriminate|]. change (directive rnd m lo s 86 58) with (f_V rnd m s 58). unfold f_V. cbn [Z.eqb Pos.eqb]. rewrite KV.
    unfold get_year in GY. rewrite KV in GY. destruct (dt_d a) as [y' mo' d'|k' v' yy' mo' d'].
    + rewrite GY, MO, MD. destruct (long_of_short rnd N m false (sd y mo d) (ok_check rnd N m E y mo d K)) as (k1 & v1 & y1 & L & LY1 & B). rewrite L. cbn [bind l_v].
      cbn [sd s_y] in LY1. unfold long_year in LY1. rewrite two by lia. assert (v1 = v) by lia. subst. reflexivity.
    + destruct D as (V' & YY' & L' & _). assert (v' = v) by lia. subst. rewrite two by lia. reflexivity.
  - intro K0. etransitivity; [apply (R 75 58); try reflexivity; discriminate|]. change (directive rnd m lo s 75 58) with (@Ok text (f_K rnd s 58)). unfold f_K. cbn [Z.eqb Pos.eqb]. rewrite KK.
    unfold minus. destruct (Z.ltb_spec k 0); [lia|]. cbn [app]. rewrite plain_short by lia. unfold short_decimal. destruct (Z.ltb_spec k 10); [reflexivity|lia].
  - intro K0. etransitivity; [apply (R 75 58); try reflexivity; discriminate|]. change (directive rnd m lo s 75 58) with (@Ok text (f_K rnd s 58)). unfold f_K. cbn [Z.eqb Pos.eqb]. rewrite KK.
    unfold minus. destruct (Z.ltb_spec k 0); [|lia]. pose proof (plain_short (- k) ltac:(lia)) as PS. unfold plain in *. replace (- k <? 0) with false in PS by lia. replace (k <? 0) with true by lia. rewrite PS.
    unfold short_decimal. replace (- k <? 10) with true by lia. reflexivity.
Qed.
Print Assumptions C34_kull_vahid.

(** C34 (century): from year 0 on, century and year in the century are the four columns of the year. *)
Theorem C34_century : forall rnd m lo a zi y mo d, Nearest rnd -> evening rnd m -> naw_ruz_order rnd m -> printable rnd m a zi y mo d -> 0 <= y ->
  dt_strftime rnd m lo a zi (str "%C") = Ok (columns 2 (y / 100)) /\ dt_strftime rnd m lo a zi (str "%y") = Ok (columns 2 (y mod 100)) /\
  columns 2 (y / 100) ++ columns 2 (y mod 100) = columns 4 y.
Proof.
  intros rnd m lo a zi y mo d N E O P Y0. destruct (printable_struct rnd m a zi y mo d N E O P) as (s & w & _ & W & WR & GY & MO & MD & HH & MI & SS & WD & YD & _ & _ & KV & X).
  destruct P as (S & (C & _) & _). destruct (sup_ok rnd m (dt_d a) y mo d N E S) as (D & K & Y). pose proof K as (KY & KM & KD).
  pose proof (floor_div_int rnd N y 100 ltac:(tauto) ltac:(lia)) as FD. change (inject_Z 100) with 100%Q in FD.
  split; [|split].
  - etransitivity; [apply (one_directive rnd m lo a zi s X 67); [discriminate|apply in_mem; reflexivity]|]. change (directive rnd m lo s 67 0) with (@Ok text (f_C rnd s)). unfold f_C. cbv zeta. rewrite GY, FD.
    unfold minus. destruct (Z.ltb_spec y 0); [lia|]. cbn [app]. rewrite Z.abs_eq, two by lia. reflexivity.
  - etransitivity; [apply (one_directive rnd m lo a zi s X 121); [discriminate|apply in_mem; reflexivity]|]. change (directive rnd m lo s 121 0) with (@Ok text (f_y rnd s 0)). unfold f_y, century. cbn [Z.eqb]. rewrite GY.
    rewrite Qtrunc_nonneg, FD; [rewrite two by lia; do 2 f_equal; lia|]. unfold fdiv. apply (near_nonneg rnd N). apply Qle_shift_div_l; [reflexivity|]. change (0 * 100)%Q with (inject_Z 0). rewrite <- Zle_Qle. exact Y0.
  - unfold columns. cbn [rev seq app map Z.of_nat Pos.of_succ_nat]. change (10 ^ 3) with 1000. change (10 ^ 2) with 100. change (10 ^ 1) with 10. change (10 ^ 0) with 1. cbn [Pos.succ]. change (10 ^ 2) with 100. change (10 ^ 3) with 1000.
    repeat (apply f_equal2; [lia|]). reflexivity.
Qed.
Print Assumptions C34_century.

(** Refuted: before year 0 the century is rounded away from zero, so that century and year in the century do not give the
    year; the year in the century carries a second sign. *)
Theorem C34_century_refuted : forall rnd m lo a zi y mo d, Nearest rnd -> evening rnd m -> naw_ruz_order rnd m -> printable rnd m a zi y mo d -> y < 0 -> y mod 100 <> 0 ->
  dt_strftime rnd m lo a zi (str "%C") = Ok (str "-" ++ columns 2 (- y / 100 + 1)).
Proof.
  intros rnd m lo a zi y mo d N E O P Y0 NZ. destruct (printable_struct rnd m a zi y mo d N E O P) as (s & w & _ & W & WR & GY & MO & MD & HH & MI & SS & WD & YD & _ & _ & KV & X).
  destruct P as (S & (C & _) & _). destruct (sup_ok rnd m (dt_d a) y mo d N E S) as (D & K & Y). pose proof K as (KY & KM & KD).
  pose proof (floor_div_int rnd N y 100 ltac:(tauto) ltac:(lia)) as FD. change (inject_Z 100) with 100%Q in FD.
  etransitivity; [apply (one_directive rnd m lo a zi s X 67); [discriminate|apply in_mem; reflexivity]|]. change (directive rnd m lo s 67 0) with (@Ok text (f_C rnd s)). unfold f_C. cbv zeta. rewrite GY, FD.
  unfold minus. destruct (Z.ltb_spec y 0); [|lia]. rewrite two by lia. replace (Z.abs (y / 100)) with (- y / 100 + 1) by lia. reflexivity.
Qed.
Print Assumptions C34_century_refuted.

(** Refuted: %G, documented as the ISO 8601 year of the week, always prints the calendar year. *)
Theorem C34_iso_year_refuted : forall rnd m lo a zi y mo d iy wk wd, Nearest rnd -> evening rnd m -> naw_ruz_order rnd m -> printable rnd m a zi y mo d -> calm_dt a ->
  isocalendar rnd m (dt_d a) = Ok (iy, wk, wd) -> iy <> y ->
  dt_strftime rnd m lo a zi (str "%G") = Ok (signed_year y) /\ signed_year y <> signed_year iy.
Proof.
  intros rnd m lo a zi y mo d iy wk wd N E O P CA I NE. destruct (printable_struct rnd m a zi y mo d N E O P) as (s & w & _ & W & WR & GY & MO & MD & HH & MI & SS & WD & YD & _ & _ & KV & X).
  destruct P as (S & (C & _) & _). destruct (sup_ok rnd m (dt_d a) y mo d N E S) as (D & K & Y). pose proof K as (KY & KM & KD).
  destruct (C19_isocalendar rnd m (dt_d a) y mo d (zrd y mo d) N E O S) as (iy' & wk' & wd' & f & w' & I' & _ & _ & IB & _); [apply (rata_die_zrd rnd N m E); [apply K|apply K|reflexivity]|intros y0 H0; exact (CA y mo d y0 D H0)|].
  assert (iy' = iy) by congruence. subst iy'. split.
  - etransitivity; [apply (one_directive rnd m lo a zi s X 71); [discriminate|apply in_mem; reflexivity]|]. change (directive rnd m lo s 71 0) with (@Ok text (f_G s)). unfold f_G. rewrite GY, year_minus by lia. reflexivity.
  - intro Q0. apply NE. unfold signed_year in Q0. change (str "-") with [45] in Q0.
    assert (NM : forall z r, columns 4 z <> 45 :: r) by (intros z r H; pose proof (columns_digits 4 z) as DG; rewrite H in DG; discriminate).
    destruct (Z.ltb_spec y 0), (Z.ltb_spec iy 0); cbn [app] in Q0.
    + assert (QQ : columns 4 (- y) = columns 4 (- iy)) by congruence. apply columns_inj in QQ; [lia|..]; change (10 ^ Z.of_nat 4) with 10000; lia.
    + symmetry in Q0. destruct (NM _ _ Q0).
    + destruct (NM _ _ Q0).
    + apply columns_inj in Q0; [lia|..]; change (10 ^ Z.of_nat 4) with 10000; lia.
Qed.
Print Assumptions C34_iso_year_refuted.

(** Refuted: %e, a day in two columns padded with a space, takes three columns from day 10 on. *)
Theorem C34_space_padded_refuted : forall rnd m lo a zi y mo d, Nearest rnd -> evening rnd m -> naw_ruz_order rnd m -> printable rnd m a zi y mo d ->
  dt_strftime rnd m lo a zi (str "%e") = Ok (str " " ++ short_decimal d).
Proof.
  intros rnd m lo a zi y mo d N E O P. destruct (printable_struct rnd m a zi y mo d N E O P) as (s & w & _ & W & WR & GY & MO & MD & HH & MI & SS & WD & YD & _ & _ & KV & X).
  destruct P as (S & (C & _) & _). destruct (sup_ok rnd m (dt_d a) y mo d N E S) as (D & K & Y). pose proof K as (KY & KM & KD). pose proof (ok_small y mo d K) as (_ & DS).
  etransitivity; [apply (one_directive rnd m lo a zi s X 101); [discriminate|apply in_mem; reflexivity]|]. change (directive rnd m lo s 101 0) with (@Ok text (space2 (st_mday s))). rewrite MD.
  pose proof (plain_short d ltac:(lia)) as PS. unfold plain in PS. unfold space2. replace (d <? 0) with false in * by lia. rewrite PS. cbv zeta.
  replace (2 - List.length (32%Z :: short_decimal d))%nat with 0%nat; [reflexivity|]. unfold short_decimal. cbn [List.length]. rewrite columns_len. destruct (d <? 10), (d <? 100); reflexivity.
Qed.
Print Assumptions C34_space_padded_refuted.

Example C34_case : forall rnd (N : Nearest rnd),
  let a := {| dt_d := DShort 183 1 1; dt_h := 24; dt_mi := 5; dt_s := 60; dt_us := 42; dt_tz := None; dt_fold := 0 |} in
  let b := {| dt_d := DLong (-1) 10 10 3 17; dt_h := 13; dt_mi := 5; dt_s := 9; dt_us := 42; dt_tz := None; dt_fold := 0 |} in
  printable rnd sample_sun a None 183 1 1 /\ printable rnd sample_sun b None (-541) 3 17 /\ -541 = 361 * (-1 - 1) + 19 * (10 - 1) + 10 /\
  signed_year (-541) = str "-0541" /\ short_decimal 17 = str "17" /\ (-541) mod 100 <> 0.
Proof.
  intros rnd N a b.
  split; [split; [sup|split; [split; [cbn; unfold valid_clock; lia|split; [left; reflexivity|intros o OO; discriminate]]|split; [reflexivity|left; reflexivity]]]|].
  split; [split; [sup|split; [split; [cbn; unfold valid_clock; lia|split; [left; reflexivity|intros o OO; discriminate]]|split; [reflexivity|right; cbn; lia]]]|].
  split; [reflexivity|]. split; [reflexivity|]. split; [reflexivity|discriminate].
Qed.
Example C34_iso_year_case : isocalendar b64 sample_sun (DShort 183 1 1) = Ok (182, 52, 7).
Proof. vm_compute. reflexivity. Qed.
