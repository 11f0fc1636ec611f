(** PropertiesStrf2.v -- C54: which time tuples are accepted. *)
From Coq Require Import ZArith QArith Qround Qabs List Bool Lia Lqa String.
From Coq Require Import ZifyBool ZifyNat ZifyN.
From Verif Require Import Base Flt QUtil BaseModel MiscModel BadiModel BaseProofs SunProofs SpecBadi BadiProofs BadiProofs2 BadiProofs3 DecProofs BadiProofs4 LongYear LongProofs BadiProofs5
  ClockProofs3 ClockProofs4 TduModel DateModel SpecDate TduProofs TduProofs2 TduProofs3 DateProofs SampleSun PropertiesBadi
  TimeModel SpecTime TimeProofs TextModel SpecText TextProofs StrfModel SpecStrf StrfProofs PropertiesStrf.
Import ListNotations.
Local Open Scope Z_scope.
Ltac Zify.zify_post_hook ::= Z.div_mod_to_equations.

Lemma passert_bind {A} b (x : res A) : (let* _ := passert b in x) = if b then x else Err AssertionError.
Proof. destruct b; reflexivity. Qed.
Lemma offset_iff t : (exists o, utcoffset t = Ok o) <-> good_offset t.
Proof.
  split.
  - intros (o & H) x X. unfold utcoffset in H. destruct t as [z|]; [|discriminate]. cbn [offset] in X. unfold check_offset in H. rewrite X in H.
    destruct ((- DAY <? x) && (x <? DAY)) eqn:B; [unfold DAY in B; lia|discriminate].
  - intro G. exists (offset t). apply utcoffset_ok, G.
Qed.

Section Tuples.
Variable rnd : Q -> Q.
Hypothesis N : Nearest rnd.
Variable m : Q -> Q -> Q -> Q.
Hypothesis EV : evening rnd m.
Let T := year_table rnd m.
Let leap := leap_of rnd m.

Lemma tail_iff yr mo d h mi s wd yd dst :
  checktm_tail rnd m yr mo d h mi s wd yd dst = Ok tt <-> (mo = 0 -> -1843 <= yr <= 1161) /\ fields_ok leap yr mo d h mi s wd yd dst.
Proof.
  unfold checktm_tail, fields_ok. rewrite !passert_bind.
  destruct ((0 <=? mo) && (mo <? 20)) eqn:M; [|split; [discriminate|lia]].
  assert (C : (if mo =? 0 then let* b := is_leap_badi T yr in Ok (4 + b2z b) else Ok 19) =
              if (mo =? 0) && ((yr <? -1843) || (1161 <? yr)) then Err KeyError else Ok (bmonth_len (leap yr) mo)).
  { unfold bmonth_len. destruct (Z.eqb_spec mo 0); [|reflexivity]. destruct ((yr <? -1843) || (1161 <? yr)) eqn:Y; cbn [andb].
    - unfold T. rewrite (is_leap_err rnd N m EV) by lia. reflexivity.
    - unfold T, leap. rewrite (is_leap_ok rnd N m EV), (leap_of_ok rnd N m EV) by lia. cbn [bind]. destruct (zleap yr); reflexivity. }
  unfold T in C. rewrite C. destruct ((mo =? 0) && _) eqn:Y; [split; [discriminate|lia]|]. cbn [bind]. rewrite !passert_bind.
  generalize (bmonth_len (leap yr) mo). intro len.
  repeat match goal with |- context [if ?b then _ else Err AssertionError] => destruct b eqn:?; [|split; [discriminate|lia]] end.
  unfold passert. destruct ((-1 <=? dst) && (dst <=? 1)) eqn:?; [|split; [discriminate|lia]]. split; [intros _; lia|reflexivity].
Qed.
Lemma checktm_iff l : checktm rnd m l = Ok tt <-> valid_tuple leap l.
Proof.
  unfold valid_tuple. split.
  - destruct l as [|a1 [|a2 [|a3 [|a4 [|a5 [|a6 [|a7 [|a8 [|a9 [|a10 [|a11 [|a12 l]]]]]]]]]]]]; try discriminate.
    + cbn [checktm]. rewrite passert_bind. unfold MINYEAR, MAXYEAR. destruct (_ && _) eqn:Y; [|discriminate]. intro H. apply tail_iff in H.
      left. exists a1, a2, a3, a4, a5, a6, a7, a8, a9. split; [reflexivity|]. split; [lia|tauto].
    + cbn [checktm]. rewrite !passert_bind. unfold KULLISHAY_MIN, KULLISHAY_MAX.
      destruct (_ && _) eqn:K; [|discriminate]. destruct ((1 <=? a2) && _) eqn:V; [|discriminate]. destruct ((1 <=? a3) && _) eqn:Y; [|discriminate]. intro H. apply tail_iff in H.
      right. exists a1, a2, a3, a4, a5, a6, a7, a8, a9, a10, a11. split; [reflexivity|]. split; [lia|]. split; [lia|]. split; [lia|]. cbv zeta.
      replace (361 * (a1 - 1) + 19 * (a2 - 1) + a3) with ((a1 - 1) * 361 + (a2 - 1) * 19 + a3) by lia. exact H.
  - intros [(y & mo & d & h & mi & s & wd & yd & dst & -> & Y & F)|(k & v & y & mo & d & h & mi & s & wd & yd & dst & -> & K & V & Y & F)]; cbn [checktm]; rewrite !passert_bind.
    + unfold MINYEAR, MAXYEAR. replace ((-1842 <=? y) && (y <=? 1161)) with true by lia. apply tail_iff. split; [lia|exact F].
    + unfold KULLISHAY_MIN, KULLISHAY_MAX. replace ((-5 <=? k) && (k <=? 4)) with true by lia. replace ((1 <=? v) && (v <? 20)) with true by lia. replace ((1 <=? y) && (y <? 20)) with true by lia.
      apply tail_iff. cbv zeta in F. replace ((k - 1) * 361 + (v - 1) * 19 + y) with (361 * (k - 1) + 19 * (v - 1) + y) by lia. exact F.
Qed.
Lemma check_items_err l e : checktm rnd m l = Err e -> e = TypeError -> List.length l <> 9%nat /\ List.length l <> 11%nat.
Proof.
  intros H ->. assert (TL : forall yr mo d h mi s wd yd dst, checktm_tail rnd m yr mo d h mi s wd yd dst <> Err TypeError).
  { intros. unfold checktm_tail. rewrite !passert_bind. destruct (_ && _); [|discriminate].
    destruct (mo =? 0); [|cbn [bind]; rewrite !passert_bind; unfold passert; repeat (destruct (_ && _); [|discriminate]); discriminate].
    destruct (Z_le_gt_dec (-1843) yr) as [A|A]; [destruct (Z_le_gt_dec yr 1161) as [B|B]|].
    - rewrite (is_leap_ok rnd N m EV) by lia. cbn [bind]. rewrite !passert_bind. unfold passert; repeat (destruct (_ && _); [|discriminate]); discriminate.
    - rewrite (is_leap_err rnd N m EV) by lia. discriminate.
    - rewrite (is_leap_err rnd N m EV) by lia. discriminate. }
  destruct l as [|a1 [|a2 [|a3 [|a4 [|a5 [|a6 [|a7 [|a8 [|a9 [|a10 [|a11 [|a12 l]]]]]]]]]]]]; cbn [List.length]; try (split; discriminate); exfalso; cbn [checktm] in H; rewrite !passert_bind in H.
  - destruct (_ && _); [|discriminate]. exact (TL _ _ _ _ _ _ _ _ _ H).
  - destruct (_ && _); [|discriminate]. destruct (_ && _); [|discriminate]. destruct (_ && _); [|discriminate]. exact (TL _ _ _ _ _ _ _ _ _ H).
Qed.

(** the date part of struct_time *)
Lemma mdt_iff yr mo d : check_mdt rnd T yr mo (inject_Z d) [] = Ok tt <-> 0 <= mo <= 19 /\ 1 <= d <= bmonth_len (leap yr) mo /\ (mo = 0 -> -1843 <= yr <= 1161).
Proof.
  unfold check_mdt. cbn [get_hms nth]. rewrite !passert_bind. destruct ((0 <=? mo) && (mo <? 20)) eqn:M; [|split; [discriminate|lia]].
  assert (C : (if mo =? 0 then let* b := is_leap_badi T yr in Ok (5 + b2z b) else Ok 20) =
              if (mo =? 0) && ((yr <? -1843) || (1161 <? yr)) then Err KeyError else Ok (bmonth_len (leap yr) mo + 1)).
  { unfold bmonth_len. destruct (Z.eqb_spec mo 0); [|reflexivity]. destruct ((yr <? -1843) || (1161 <? yr)) eqn:Y; cbn [andb].
    - unfold T. rewrite (is_leap_err rnd N m EV) by lia. reflexivity.
    - unfold T, leap. rewrite (is_leap_ok rnd N m EV), (leap_of_ok rnd N m EV) by lia. cbn [bind]. destruct (zleap yr); reflexivity. }
  rewrite C. destruct ((mo =? 0) && _) eqn:Y; [split; [discriminate|lia]|]. cbn [bind]. rewrite !passert_bind.
  change (Qleb 1 (inject_Z d)) with (Qleb (inject_Z 1) (inject_Z d)). rewrite Qleb_Z, Qltb_Z.
  destruct ((1 <=? d) && _) eqn:D; [|split; [discriminate|lia]]. split; [intros _; lia|intros _].
  change (check_time 0 0 0 0 60) with (@Ok unit tt). reflexivity.
Qed.
End Tuples.

(** C54: strftime takes a named time tuple exactly when every item is in its documented range. *)
Theorem C54_strftime_takes : forall rnd m lo s zi, Nearest rnd -> evening rnd m ->
  (takes rnd m lo (Named s) zi <-> valid_tuple (leap_of rnd m) (st_items s)).
Proof.
  intros rnd m lo s zi N E. rewrite <- (checktm_iff rnd N m E). unfold takes, strftime. change (check_format (str "%n")) with (@Ok unit tt). cbn [bind].
  destruct (checktm rnd m (st_items s)) as [[]|e]; [split; reflexivity|split; discriminate].
Qed.
Print Assumptions C54_strftime_takes.

Lemma build_iff rnd m kv args y mo d h mi s wd yd dst zi : Nearest rnd -> evening rnd m -> (List.length args = 3 \/ List.length args = 5)%nat ->
  ((exists x, (if negb (existsb (Z.eqb dst) [-1; 0; 1]) then Err ValueError
    else
    let* dt := dt_new rnd m args h mi s 0 (option_map zi_tz zi) 0 in
    let dst := match zi with Some z => match zi_dst z with Some t => if t =? 0 then 0 else 1 | None => dst end | None => dst end in
    let* off := utcoffset (dt_tz dt) in
    let gmtoff := match off with Some o => if o =? 0 then None else Some (rnd (o # 1000000)) | None => None end in
    Ok {| st_kv := kv; st_year := y; st_mon := mo; st_mday := d; st_hour := h; st_min := mi; st_sec := s; st_wday := wd; st_yday := yd;
          st_isdst := dst; st_zone := match zi with Some z => zi_name z | None => None end; st_gmtoff := gmtoff |}) = Ok x) <->
   -1 <= dst <= 1 /\ valid_clock h mi s 0 /\ (exists a, date_new rnd m args = Ok a) /\ good_offset (option_map zi_tz zi)).
Proof.
  intros N E LA. rewrite dt_new_eq. destruct (existsb (Z.eqb dst) [-1; 0; 1]) eqn:DS.
  - assert (DR : -1 <= dst <= 1). { cbn [existsb] in DS. lia. }
    cbn [negb]. change ((0 =? 0) || (0 =? 1)) with true. rewrite andb_true_r. rewrite <- clock_ok_spec. destruct (clock_ok h mi s 0) eqn:C.
    + destruct (date_new rnd m args) as [a|]; [|split; [intros (? & H); discriminate|intros (_ & _ & (? & H) & _); discriminate]]. cbn [bind dt_tz].
      rewrite <- offset_iff. destruct (utcoffset (option_map zi_tz zi)) as [o|]; cbn [bind].
      * split; [intros _; repeat split; try lia; eexists; reflexivity|intros _; eexists; reflexivity].
      * split; [intros (? & H); discriminate|intros (_ & _ & _ & (? & H)); discriminate].
    + split; [intros (? & H); destruct (date_new rnd m args); discriminate|intros (_ & H & _); discriminate].
  - split; [intros (? & H); discriminate|]. intros (DR & _). exfalso. cbn [existsb] in DS. lia.
Qed.
Lemma date_new3 rnd m y mo d : Nearest rnd -> evening rnd m ->
  ((exists a, date_new rnd m [y; mo; d] = Ok a) <-> -1843 <= y <= 1162 /\ 0 <= mo <= 19 /\ 1 <= d <= bmonth_len (leap_of rnd m y) mo /\ (mo = 0 -> -1843 <= y <= 1161)).
Proof.
  intros N E. rewrite <- (mdt_iff rnd N m E). cbn [date_new]. unfold check_short, sd. cbn [s_y s_m s_d s_t]. rewrite passert_bind. unfold MINYEAR, MAXYEAR.
  destruct (_ && _) eqn:Y.
  - destruct (check_mdt _ _ _ _ _ _) as [[]|]; cbn [bind]; [split; [intros _; split; [lia|reflexivity]|intros _; eexists; reflexivity]|split; [intros (? & H)|intros (_ & H)]; discriminate].
  - split; [intros (? & H); discriminate|intros (H & _); lia].
Qed.
Lemma date_new5 rnd m k v y mo d : Nearest rnd -> evening rnd m ->
  ((exists a, date_new rnd m [k; v; y; mo; d] = Ok a) <-> (-6 <= k <= 5 /\ 1 <= v <= 19 /\ 1 <= y <= 19) /\ 0 <= mo <= 19 /\ 1 <= d <= bmonth_len (leap_of rnd m (long_year k v y)) mo /\ (mo = 0 -> -1843 <= long_year k v y <= 1161)).
Proof.
  intros N E. rewrite <- (mdt_iff rnd N m E). cbn [date_new]. unfold check_long, lgd. cbn [l_k l_v l_y l_m l_d l_t]. rewrite !passert_bind. unfold KULLISHAY_MIN, KULLISHAY_MAX.
  destruct (_ && _) eqn:K; [|split; [intros (? & H); discriminate|intros ((H & _) & _); lia]].
  destruct ((1 <=? v) && _) eqn:V; [|split; [intros (? & H); discriminate|intros ((_ & H & _) & _); lia]].
  destruct ((1 <=? y) && _) eqn:Y; [|split; [intros (? & H); discriminate|intros ((_ & _ & H) & _); lia]].
  destruct (check_mdt _ _ _ _ _ _) as [[]|]; cbn [bind]; [split; [intros _; split; [lia|reflexivity]|intros _; eexists; reflexivity]|split; [intros (? & H)|intros (_ & H)]; discriminate].
Qed.

(** C54 (struct_time): the class takes a tuple exactly when it has 9 or 11 items, the date and the clock are ones a
    datetime can have, the dst flag is -1, 0 or 1, and the offset of the zone is less than a day. *)
Theorem C54_struct_time_accepts : forall rnd m l zi, Nearest rnd -> evening rnd m ->
  ((exists s, struct_time rnd m l zi = Ok s) <-> struct_tuple (leap_of rnd m) l /\ good_offset (option_map zi_tz zi)).
Proof.
  intros rnd m l zi N E. unfold struct_tuple, struct_fields_ok. split.
  - destruct l as [|a1 [|a2 [|a3 [|a4 [|a5 [|a6 [|a7 [|a8 [|a9 [|a10 [|a11 [|a12 l]]]]]]]]]]]]; try (intros (? & H); discriminate).
    + intro H. cbn [struct_time] in H. apply build_iff in H; [|exact N|exact E|left; reflexivity]. destruct H as (DS & C & D & G). apply (date_new3 rnd m _ _ _ N E) in D.
      split; [|exact G]. left. exists a1, a2, a3, a4, a5, a6, a7, a8, a9. unfold valid_clock in C. split; [reflexivity|]. tauto.
    + intro H. cbn [struct_time] in H. apply build_iff in H; [|exact N|exact E|right; reflexivity]. destruct H as (DS & C & D & G). apply (date_new5 rnd m _ _ _ _ _ N E) in D.
      split; [|exact G]. right. exists a1, a2, a3, a4, a5, a6, a7, a8, a9, a10, a11. unfold valid_clock in C.
      replace (361 * (a1 - 1) + 19 * (a2 - 1) + a3) with (long_year a1 a2 a3) by (unfold long_year; lia). split; [reflexivity|]. tauto.
  - intros ([(y & mo & d & h & mi & s & wd & yd & dst & -> & Y & F)|(k & v & y & mo & d & h & mi & s & wd & yd & dst & -> & K & V & Y & F)] & G); cbn [struct_time].
    + apply build_iff; [exact N|exact E|left; reflexivity|]. rewrite (date_new3 rnd m _ _ _ N E). unfold valid_clock. intuition lia.
    + apply build_iff; [exact N|exact E|right; reflexivity|]. rewrite (date_new5 rnd m _ _ _ _ _ N E). unfold valid_clock.
      replace (361 * (k - 1) + 19 * (v - 1) + y) with (long_year k v y) in F by (unfold long_year; lia). intuition lia.
Qed.
Print Assumptions C54_struct_time_accepts.

(** C54 (what the struct holds): the items of the tuple, unchanged and in order; only the dst flag is taken from the zone
    when the zone knows it. *)
Theorem C54_struct_time_items : forall rnd m l zi s, struct_time rnd m l zi = Ok s ->
  removelast (st_items s) = removelast l /\
  last (st_items s) 0 = match zi with Some {| zi_dst := Some t |} => if t =? 0 then 0 else 1 | _ => last l 0 end /\
  st_zone s = match zi with Some z => zi_name z | None => None end /\
  (st_gmtoff s = match offset (option_map zi_tz zi) with Some o => if o =? 0 then None else Some (rnd (o # 1000000)) | None => None end).
Proof.
  intros rnd m l zi s H.
  destruct l as [|a1 [|a2 [|a3 [|a4 [|a5 [|a6 [|a7 [|a8 [|a9 [|a10 [|a11 [|a12 l]]]]]]]]]]]]; try discriminate; cbn [struct_time] in H;
  (destruct (negb _); [discriminate|]); rewrite dt_new_eq in H;
  (match type of H with context [if ?b then _ else _] => destruct b end; [|destruct (date_new rnd m _); discriminate]);
  (destruct (date_new rnd m _) as [a|]; [|discriminate]); cbn [bind dt_tz] in H;
  (assert (U : utcoffset (option_map zi_tz zi) = Ok (offset (option_map zi_tz zi)) \/ exists e, utcoffset (option_map zi_tz zi) = Err e)
    by (destruct zi as [z|]; [|left; reflexivity]; unfold utcoffset; cbn [option_map offset]; destruct (check_offset _) as [[]|e]; [left; reflexivity|right; exists e; reflexivity]));
  (destruct U as [U|(e & U)]; rewrite U in H; [|discriminate]); cbn [bind] in H;
  (match type of H with Ok ?x = Ok s => assert (SE : s = x) by congruence end); subst s; unfold st_items; cbn [st_kv st_year st_mon st_mday st_hour st_min st_sec st_wday st_yday st_isdst st_zone st_gmtoff app removelast last];
  destruct zi as [[z n [t|]]|]; repeat split; reflexivity.
Qed.
Print Assumptions C54_struct_time_items.

(** A plain tuple handed to strftime goes through both checks. *)
Theorem C54_plain_tuple : forall rnd m lo l zi, Nearest rnd -> evening rnd m ->
  (takes rnd m lo (Plain l) zi <-> valid_tuple (leap_of rnd m) l /\ nth (List.length l - 4) l 0 <= 60 /\ good_offset (option_map zi_tz zi)).
Proof.
  intros rnd m lo l zi N E. rewrite <- (checktm_iff rnd N m E). unfold takes, strftime. change (check_format (str "%n")) with (@Ok unit tt). cbn [bind].
  destruct (checktm rnd m l) as [[]|e] eqn:C; [|split; [discriminate|intros (H & _); discriminate]]. cbn [bind].
  assert (V : valid_tuple (leap_of rnd m) l) by (apply (checktm_iff rnd N m E), C).
  assert (S : struct_tuple (leap_of rnd m) l <-> nth (List.length l - 4) l 0 <= 60).
  { unfold struct_tuple, struct_fields_ok. destruct V as [(y & mo & d & h & mi & s & wd & yd & dst & -> & Y & F)|(k & v & y & mo & d & h & mi & s & wd & yd & dst & -> & K & VV & Y & F)]; cbn [List.length Nat.sub nth].
    - split; [intros [(y' & mo' & d' & h' & mi' & s' & wd' & yd' & dst' & EQ & _ & F')|(k' & v' & y' & mo' & d' & h' & mi' & s' & wd' & yd' & dst' & EQ & _)]; [inversion EQ; subst; tauto|discriminate]|].
      intro S. left. exists y, mo, d, h, mi, s, wd, yd, dst. split; [reflexivity|]. split; [lia|]. unfold fields_ok in F. intuition lia.
    - split; [intros [(y' & mo' & d' & h' & mi' & s' & wd' & yd' & dst' & EQ & _)|(k' & v' & y' & mo' & d' & h' & mi' & s' & wd' & yd' & dst' & EQ & _ & _ & _ & F')]; [discriminate|inversion EQ; subst; tauto]|].
      intro S. right. exists k, v, y, mo, d, h, mi, s, wd, yd, dst. split; [reflexivity|]. split; [lia|]. split; [lia|]. split; [lia|]. cbv zeta in F. unfold fields_ok in F. intuition lia. }
  rewrite <- S. pose proof (C54_struct_time_accepts rnd m l zi N E) as A. destruct (struct_time rnd m l zi) as [x|] eqn:X; cbn [bind].
  - split; [intros _; split; [reflexivity|]; apply A; eexists; reflexivity|]. intros _. reflexivity.
  - split; [discriminate|]. intros (_ & H1 & H2). destruct (proj2 A (conj H1 H2)) as (? & ?); discriminate.
Qed.
Print Assumptions C54_plain_tuple.

(** Refuted: second 61 is within the documented range, and a named tuple with it is printed, but struct_time refuses it. *)
Theorem C54_second_61_refuted : forall rnd m y mo d h mi wd yd dst zi, Nearest rnd -> evening rnd m ->
  valid_tuple (leap_of rnd m) [y; mo; d; h; mi; 61; wd; yd; dst] ->
  struct_time rnd m [y; mo; d; h; mi; 61; wd; yd; dst] zi = Err AssertionError.
Proof.
  intros rnd m y mo d h mi wd yd dst zi N E [V|V]; [|destruct V as (? & ? & ? & ? & ? & ? & ? & ? & ? & ? & ? & V & _); discriminate].
  destruct V as (y' & mo' & d' & h' & mi' & s' & wd' & yd' & dst' & EQ & Y & F). inversion EQ; subst. unfold fields_ok in F. cbn [struct_time]. rewrite dt_new_eq.
  replace (existsb (Z.eqb dst') [-1; 0; 1]) with true by (symmetry; cbn [existsb]; lia). cbn [negb].
  replace (clock_ok h' mi' 61 0) with false by (symmetry; unfold clock_ok; lia). cbn [andb].
  destruct (proj2 (date_new3 rnd m y' mo' d' N E)) as (a & A); [intuition lia|]. rewrite A. reflexivity.
Qed.
Print Assumptions C54_second_61_refuted.

(** Refuted: struct_time does not look at the weekday and the day of the year. *)
Theorem C54_weekday_unchecked_refuted : forall rnd m y mo d h mi s wd yd dst wd' yd', Nearest rnd -> evening rnd m ->
  struct_tuple (leap_of rnd m) [y; mo; d; h; mi; s; wd; yd; dst] ->
  exists x, struct_time rnd m [y; mo; d; h; mi; s; wd'; yd'; dst] None = Ok x /\ st_wday x = wd' /\ st_yday x = yd'.
Proof.
  intros rnd m y mo d h mi s wd yd dst wd' yd' N E [V|V]; [|destruct V as (? & ? & ? & ? & ? & ? & ? & ? & ? & ? & ? & V & _); discriminate].
  destruct (proj2 (C54_struct_time_accepts rnd m [y; mo; d; h; mi; s; wd'; yd'; dst] None N E)) as (x & X).
  { split; [|intros o O; discriminate]. destruct V as (y1 & mo1 & d1 & h1 & mi1 & s1 & wd1 & yd1 & dst1 & EQ & Y & F). inversion EQ; subst.
    left. exists y1, mo1, d1, h1, mi1, s1, wd', yd', dst1. split; [reflexivity|]. split; assumption. }
  exists x. split; [exact X|]. destruct (C54_struct_time_items rnd m _ _ _ X) as (I & _). unfold st_items in I. destruct (st_kv x) as [[k v]|]; [discriminate|].
  cbn [app removelast] in I. inversion I. split; congruence.
Qed.
Print Assumptions C54_weekday_unchecked_refuted.

(** Other lengths are a TypeError, and only they are. *)
Theorem C54_wrong_length : forall rnd m lo l zi, Nearest rnd -> evening rnd m ->
  (strftime rnd m lo (str "%n") (Plain l) zi = Err TypeError /\ struct_time rnd m l zi = Err TypeError) \/ List.length l = 9%nat \/ List.length l = 11%nat.
Proof.
  intros rnd m lo l zi N E. destruct l as [|a1 [|a2 [|a3 [|a4 [|a5 [|a6 [|a7 [|a8 [|a9 [|a10 [|a11 [|a12 l]]]]]]]]]]]]; cbn [List.length]; try (left; split; reflexivity); right; [left|right]; reflexivity.
Qed.
Print Assumptions C54_wrong_length.

Example C54_case : forall rnd (N : Nearest rnd),
  valid_tuple (leap_of rnd sample_sun) [181; 0; 4; 24; 59; 61; 6; 346; 1] /\ valid_tuple (leap_of rnd sample_sun) [1; 10; 10; 3; 7; 13; 5; 9; 5; 45; -1] /\
  ~ valid_tuple (leap_of rnd sample_sun) [181; 3; 20; 13; 5; 9; 5; 45; -1] /\ ~ valid_tuple (leap_of rnd sample_sun) [181; 3; 19; 13; 60; 9; 5; 45; -1] /\
  struct_tuple (leap_of rnd sample_sun) [1; 10; 10; 3; 7; 13; 5; 9; 77; 845; -1] /\
  good_offset (option_map zi_tz (Some {| zi_tz := {| tz_id := 1; tz_off := Some 12600000000 |}; zi_name := Some (str "IRST"); zi_dst := Some 0 |})).
Proof.
  intros rnd N. unfold valid_tuple, struct_tuple, fields_ok, struct_fields_ok. repeat match goal with |- _ /\ _ => split end.
  - left. exists 181, 0, 4, 24, 59, 61, 6, 346, 1. split; [reflexivity|]. unfold bmonth_len. cbn [Z.eqb]. destruct (leap_of _ _ _); lia.
  - right. exists 1, 10, 10, 3, 7, 13, 5, 9, 5, 45, (-1). split; [reflexivity|]. cbv zeta. unfold bmonth_len. cbn [Z.eqb]. lia.
  - intros [(y & mo & d & h & mi & s & wd & yd & dst & EQ & Y & F)|(? & ? & ? & ? & ? & ? & ? & ? & ? & ? & ? & V & _)]; [|discriminate]. inversion EQ; subst. unfold bmonth_len in F. cbn [Z.eqb] in F. lia.
  - intros [(y & mo & d & h & mi & s & wd & yd & dst & EQ & Y & F)|(? & ? & ? & ? & ? & ? & ? & ? & ? & ? & ? & V & _)]; [|discriminate]. inversion EQ; subst. lia.
  - right. exists 1, 10, 10, 3, 7, 13, 5, 9, 77, 845, (-1). split; [reflexivity|]. unfold bmonth_len. cbn [Z.eqb]. lia.
  - intros o O. inversion O. lia.
Qed.
