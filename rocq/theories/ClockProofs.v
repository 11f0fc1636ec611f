(** ClockProofs.v -- the full result of badi_date_from_jd: valid dates, clock fields and the hour 24 carry. *)
From Coq Require Import ZArith QArith Qround Qabs List Bool Lia Lqa Setoid Morphisms.
From Coq Require Import ZifyBool ZifyNat ZifyN.
From Verif Require Import Base Flt QUtil BaseModel MiscModel BadiModel BaseProofs BaseProofs2 MiscProofs SunProofs SpecMisc SpecBadi BadiProofs BadiProofs2 LongYear BadiProofs3 DecProofs BadiProofs4 LongProofs BadiProofs5.
Import ListNotations.
Local Open Scope Q_scope.
Ltac Zify.zify_post_hook ::= Z.div_mod_to_equations.

Lemma Qtrunc_Z z : Qtrunc (inject_Z z) = z.
Proof. unfold Qtrunc. rewrite Qfloor_Z, Qceiling_Z. destruct (Qleb _ _); reflexivity. Qed.
Lemma same_clock_sym a b : same_clock a b -> same_clock b a.
Proof. intros H i I. symmetry. apply H, I. Qed.

Section Clock.
Variable rnd : Q -> Q.
Hypothesis N : Nearest rnd.
#[local] Instance prop_rnd9 : Proper (Qeq ==> Qeq) rnd.
Proof. intros a b E. apply near_proper; [exact N|exact E]. Qed.
#[local] Instance fmod1_comp9 : Proper (Qeq ==> Qeq) (fmod1 rnd).
Proof. apply fmod1_comp; exact N. Qed.
#[local] Instance fround_comp9 n : Proper (Qeq ==> Qeq) (fround rnd n).
Proof.
  intros a b E. unfold fround. apply prop_rnd9. unfold qround. rewrite E. reflexivity.
Qed.
Variable m : Q -> Q -> Q -> Q.
Hypothesis EV : evening rnd m.
Notation LAT := (TEHRAN_LAT rnd).
Notation LON := (TEHRAN_LON rnd).
Notation T := (year_table rnd m).

(** ** every decoded date is valid *)
Lemma of_jd_valid jd y mo d fr : of_jd rnd m jd = Ok (y, mo, d, fr) ->
  (-1843 <= y <= 1161)%Z /\ valid_bday (leap_of rnd m) y mo d /\ (y = 1161 -> mo = 1 /\ d = 1)%Z.
Proof.
  unfold of_jd, badi_day_from_jd. destruct (utc_to_badi_time rnd m jd LAT LON) as [[astro f]|e]; [|discriminate]. cbn [bind].
  set (r := (_ - _ + 1)%Z). destruct (badi_year_from_rd rnd T r) as [yy|e] eqn:YR; [|discriminate]. cbn [bind].
  assert (R : (-287 <= r <= 1096902)%Z).
  { destruct (Z_lt_ge_dec r (-287)); [rewrite (year_from_rd_err rnd N m EV) in YR by lia; discriminate|].
    destruct (Z_lt_ge_dec 1096902 r); [rewrite (year_from_rd_err rnd N m EV) in YR by lia; discriminate|]. lia. }
  destruct (year_lookup rnd N m EV r R) as (y0 & a & b & K & A & B & AB & _). assert (y0 = yy) by congruence. subst y0.
  assert (Y : (-1843 <= yy <= 1161)%Z).
  { assert (Y1 : (-1843 <= yy <= 1162)%Z) by (apply (table_domain rnd N m EV); rewrite A; discriminate).
    assert (Y2 : (-1843 <= yy + 1 <= 1162)%Z) by (apply (table_domain rnd N m EV); rewrite B; discriminate). lia. }
  rewrite (year_table_ok rnd N m EV) in A, B by lia. 
  assert (ystart yy = a)%Z by congruence. assert (ystart (yy + 1) = b)%Z by congruence. subst a b.
  rewrite (lookup_ok rnd N m EV) by lia. cbn [bind]. rewrite (is_leap_ok rnd N m EV) by exact Y. cbn [bind].
  destruct (month_day_of_doy (r - ystart yy + 1) (4 + b2z (zleap yy))) as [mo' d'] eqn:MD. intro E.
  assert (E1 : (yy, mo', d') = (y, mo, d)) by congruence. apply pair_equal_spec in E1. destruct E1 as [E1 ->].
  apply pair_equal_spec in E1. destruct E1 as [-> ->].
  split; [exact Y|]. pose proof (year_len y Y) as YL.
  destruct (md_doy (zleap y) (r - ystart y + 1)%Z mo d ltac:(lia) MD) as (P1 & P2 & _). unfold valid_bday. rewrite (leap_of_ok rnd N m EV) by exact Y.
  split; [tauto|]. intros ->. rewrite ystart_1161 in *. replace (r - 1096902 + 1)%Z with 1%Z in MD by lia.
  vm_compute in MD. split; congruence.
Qed.

(** ** validity of an integer date with a clock *)
Lemma check_clock y mo d h mi s us : (-1843 <= y <= 1161)%Z -> valid_bday (leap_of rnd m) y mo d ->
  (0 <= h <= 24)%Z -> (0 <= mi <= 59)%Z -> 0 <= s < 60 -> (0 <= us < 1000000)%Z ->
  check_short rnd T {| s_y := y; s_m := mo; s_d := inject_Z d; s_t := [inject_Z h; inject_Z mi; s; inject_Z us] |} = Ok tt.
Proof.
  intros Y [M D] H MI S US. rewrite (leap_of_ok rnd N m EV) in D by exact Y.
  unfold check_short, MINYEAR, MAXYEAR. cbn [s_y s_m s_d s_t].
  assert (A : ((-1842 - 1 <=? y) && (y <=? 1161 + 1))%Z = true) by lia. rewrite A. cbn [passert bind].
  unfold check_mdt. cbn [get_hms nth].
  assert (B : ((0 <=? mo) && (mo <? 20))%Z = true) by lia. rewrite B. cbn [passert bind].
  assert (C : (if (mo =? 0)%Z then let* b := is_leap_badi T y in Ok (5 + b2z b)%Z else Ok 20%Z) = Ok (bmonth_len (zleap y) mo + 1)%Z).
  { unfold bmonth_len. destruct (mo =? 0)%Z; [|reflexivity]. rewrite (is_leap_ok rnd N m EV) by exact Y. cbn [bind]. destruct (zleap y); reflexivity. }
  rewrite C. cbn [bind]. change 1 with (inject_Z 1). rewrite Qleb_Z, Qltb_Z.
  assert (D1 : ((1 <=? d) && (d <? bmonth_len (zleap y) mo + 1))%Z = true) by lia. rewrite D1. cbn [passert bind].
  unfold check_time. change 0 with (inject_Z 0). change 25 with (inject_Z 25). change 60 with (inject_Z 60). change 1000000 with (inject_Z 1000000).
  rewrite !Qleb_Z, !Qltb_Z.
  assert (D2 : ((0 <=? h) && (h <? 25))%Z = true) by lia. rewrite D2.
  assert (D3 : ((0 <=? mi) && (mi <? 60))%Z = true) by lia. rewrite D3.
  assert (D4 : Qleb (inject_Z 0) s && Qltb s (inject_Z 60) = true).
  { apply andb_true_intro. split; [apply Qleb_le|apply Qltb_lt]; [change (inject_Z 0) with 0|change (inject_Z 60) with 60]; lra. }
  rewrite D4. assert (D5 : ((0 <=? us) && (us <? 1000000))%Z = true) by lia. rewrite D5. cbn [passert bind].
  change (inject_Z 0) with 0.
  assert (F : forall z, Qeqb (fmod1 rnd (inject_Z z)) 0 = true) by (intro z; apply Qeqb_eq, trunc_frac0; exact N).
  rewrite !F. destruct (_ || _ || _); cbn [passert bind]; destruct (_ || _); cbn [passert bind]; destruct (nonzero s); reflexivity.
Qed.

(** ** seconds and microseconds *)
Lemma psm_comp a b : a == b -> partial_second_to_microsecond rnd a = partial_second_to_microsecond rnd b.
Proof. intro E. unfold partial_second_to_microsecond, fmul. apply Qtrunc_comp. apply prop_rnd9. rewrite E. reflexivity. Qed.
Lemma sec_micro a s : a == s -> 0 <= s < 60 -> sec_microsec_from_seconds rnd a = (Qfloor s, partial_second_to_microsecond rnd s).
Proof.
  intros E R. unfold sec_microsec_from_seconds. cbv zeta. rewrite (psm_comp _ _ E). f_equal.
  assert (L : Qltb a 0 = false) by (apply Qltb_ge; lra). rewrite L.
  destruct (fmod1_nonneg rnd a ltac:(lra)) as [M1 _].
  assert (X : fsub rnd (Qabs a) (fmod1 rnd a) == inject_Z (Qfloor a)).
  { unfold fsub. rewrite M1, Qabs_pos by lra. setoid_replace (a - (a - inject_Z (Qfloor a))) with (inject_Z (Qfloor a)) by ring.
    apply near_int; [exact N|]. pose proof (Qfloor_le a). pose proof (Qlt_floor a) as Q1. rewrite inject_Z_plus in Q1. change (inject_Z 1) with 1 in Q1.
    assert (-1 < Qfloor a)%Z by byQ. assert (Qfloor a < 60)%Z by byQ. lia. }
  rewrite (Qfloor_comp _ _ X), Qfloor_Z. apply Qfloor_comp. exact E.
Qed.
Lemma zero_parts d : let hd := partial_day_to_hours rnd (inject_Z d) in let md := partial_hour_to_minute rnd hd in
  inject_Z (Qfloor hd) == 0 /\ inject_Z (Qfloor md) == 0 /\ fround rnd 6 (partial_minute_to_second rnd md) == 0.
Proof.
  cbv zeta. assert (Z0 : rnd 0 == 0) by (change 0 with (inject_Z 0); apply near_int; [exact N|lia]).
  assert (F0 : fround rnd 6 0 == 0) by (unfold fround; setoid_replace (qround 6 0) with 0 by reflexivity; exact Z0).
  assert (G : forall k x, x == 0 -> fround rnd 6 (fmul rnd (fmod1 rnd x) k) == 0).
  { intros k x X. unfold fmul. rewrite X. assert (M0 : fmod1 rnd 0 = 0) by reflexivity. rewrite M0.
    setoid_replace (0 * k) with 0 by ring. rewrite Z0. exact F0. }
  assert (H : partial_day_to_hours rnd (inject_Z d) == 0).
  { unfold partial_day_to_hours, fmul. rewrite trunc_frac0 by exact N. setoid_replace (0 * 24) with 0 by ring. rewrite Z0. exact F0. }
  assert (M : partial_hour_to_minute rnd (partial_day_to_hours rnd (inject_Z d)) == 0) by (apply G; exact H).
  rewrite (Qfloor_comp _ _ H), (Qfloor_comp _ _ M). split; [reflexivity|]. split; [reflexivity|].
  unfold partial_minute_to_second. assert (S : partial_hour_to_minute rnd (partial_hour_to_minute rnd (partial_day_to_hours rnd (inject_Z d))) == 0) by (apply G; exact M).
  rewrite S. exact F0.
Qed.

(** the long date handed to the last step *)
Definition final_clock (us trim : bool) (h mi s : Q) : list Q :=
  let l := if us then let '(a, b) := sec_microsec_from_seconds rnd s in [h; mi; inject_Z a; inject_Z b] else [h; mi; s] in
  if trim then trim_hms l else l.

Lemma decode_long (us short trim : bool) jd y mo d fr h mi s : of_jd rnd m jd = Ok (y, mo, d, fr) -> hms_from_decimal_day rnd fr = (h, mi, s) ->
  exists (k v yy : Z) (l : list Q), long_year k v yy = y /\ (-5 <= k <= 4 /\ 1 <= v <= 19 /\ 1 <= yy <= 19)%Z /\
    same_clock l (if us then [inject_Z h; inject_Z mi; inject_Z (Qfloor s); inject_Z (partial_second_to_microsecond rnd s)] else [inject_Z h; inject_Z mi; s]) /\
    (let ld : ldate := {| l_k := k; l_v := v; l_y := yy; l_m := mo; l_d := inject_Z d; l_t := l |} in
     badi_date_from_jd rnd m T us short false trim false jd LAT LON =
     if short then bind (short_date_from_long_date rnd T (if us then trim else true) ld) (fun s => Ok (Short s)) else Ok (Long ld)).
Proof.
  intros O HM. destruct (of_jd_valid _ _ _ _ _ O) as (Y & V & V1).
  destruct (hms_ok rnd N _ _ _ _ HM) as (Hh & Hm & Hs & _ & _).
  unfold badi_date_from_jd. assert (X : xor_boolean [false; us; false] = true) by (destruct us; reflexivity). rewrite X. cbn [passert bind].
  unfold of_jd in O. rewrite O. cbn [bind]. rewrite HM.
  set (date := {| s_y := y; s_m := mo; s_d := inject_Z d; s_t := [inject_Z h; inject_Z mi; s] |}).
  assert (C : check_short rnd T date = Ok tt).
  { unfold date. rewrite (check_short_clock rnd N m y mo (inject_Z d) _ [inject_Z h; inject_Z mi; s; inject_Z 0]).
    - apply check_clock; try assumption; lia.
    - intros i I. do 4 (destruct i as [|i]; [reflexivity|]). lia. }
  destruct (long_of_short rnd N m true date C) as (k & v & yy & E & L & R). rewrite E. cbn [bind].
  cbn [date s_y s_m s_d s_t] in *. 
  unfold kvymdhms_from_b_date. cbn [l_k l_v l_y l_m l_d l_t].
  set (hms := trim_hms (clock_of true [inject_Z h; inject_Z mi; s])).
  assert (SC : same_clock hms [inject_Z h; inject_Z mi; s]).
  { eapply same_clock_trans; [apply same_clock_trim|apply clock_of_same]. }
  assert (CL : check_long rnd T {| l_k := k; l_v := v; l_y := yy; l_m := mo; l_d := inject_Z d; l_t := hms |} = Ok tt).
  { rewrite check_long_short by (try exact N; try exact EV; rewrite ?L; lia). rewrite L. rewrite (check_short_clock rnd N m _ _ _ _ _ SC). exact C. }
  rewrite CL. cbn [bind].
  assert (TR : exists a b c, match hms with
    | [] => let hd := partial_day_to_hours rnd (inject_Z d) in
            let md := partial_hour_to_minute rnd hd in
            (inject_Z (Qfloor hd), inject_Z (Qfloor md), fround rnd 6 (partial_minute_to_second rnd md))
    | _ :: _ => (nth 0 hms 0, nth 1 hms 0, nth 2 hms 0)
    end = (a, b, c) /\ a == inject_Z h /\ b == inject_Z mi /\ c == s).
  { destruct hms as [|x0 hms'].
    - do 3 eexists. split; [reflexivity|]. destruct (zero_parts d) as (Z1 & Z2 & Z3).
      pose proof (SC 0%nat ltac:(lia)) as Q0. pose proof (SC 1%nat ltac:(lia)) as Q1. pose proof (SC 2%nat ltac:(lia)) as Q2. cbn [nth] in Q0, Q1, Q2.
      rewrite <- Q0, <- Q1, <- Q2. tauto.
    - do 3 eexists. split; [reflexivity|]. split; [apply (SC 0%nat); lia|]. split; [apply (SC 1%nat); lia|apply (SC 2%nat); lia]. }
  destruct TR as (a & b & c & TR & Ea & Eb & Ec). cbv zeta in TR. rewrite TR. rewrite Qfloor_Z.
  exists k, v, yy, (final_clock us (if us then trim else true) a b c). split; [exact L|]. split; [exact R|]. split.
  { unfold final_clock. rewrite (sec_micro c s Ec Hs).
    assert (G : forall q w, same_clock q w -> same_clock (if (if us then trim else true) then trim_hms q else q) w).
    { intros q w Q. destruct (if us then trim else true); [eapply same_clock_trans; [apply same_clock_trim|exact Q]|exact Q]. }
    apply G. destruct us; intros i I; do 4 (destruct i as [|i]; [cbn [nth]; assumption || reflexivity|]); lia. }
  cbv zeta. unfold final_clock. destruct us; destruct short; try reflexivity.
Qed.

Lemma clock4_check (us : bool) y mo d h mi s l : (-1843 <= y <= 1161)%Z -> valid_bday (leap_of rnd m) y mo d ->
  (0 <= h <= 24)%Z -> (0 <= mi <= 59)%Z -> 0 <= s < 60 -> (0 <= partial_second_to_microsecond rnd s < 1000000)%Z ->
  same_clock l (if us then [inject_Z h; inject_Z mi; inject_Z (Qfloor s); inject_Z (partial_second_to_microsecond rnd s)] else [inject_Z h; inject_Z mi; s]) ->
  check_short rnd T {| s_y := y; s_m := mo; s_d := inject_Z d; s_t := l |} = Ok tt.
Proof.
  intros Y V H MI S U SC. rewrite (check_short_clock rnd N m _ _ _ _ _ SC). destruct us.
  - apply check_clock; try assumption. split.
    + change 0 with (inject_Z 0). rewrite <- Zle_Qle. apply (Qfloor_resp_le 0 s). lra.
    + pose proof (Qfloor_le s). lra.
  - rewrite (check_short_clock rnd N m _ _ _ _ [inject_Z h; inject_Z mi; s; inject_Z 0]).
    + apply check_clock; try assumption. lia.
    + intros i I. do 4 (destruct i as [|i]; [reflexivity|]). lia.
Qed.
Lemma micro_range fr h mi s : hms_from_decimal_day rnd fr = (h, mi, s) -> (0 <= partial_second_to_microsecond rnd s <= 999999)%Z.
Proof.
  intro E. assert (H : hmsu_from_decimal_day rnd fr = (h, mi, Qfloor s, partial_second_to_microsecond rnd s)) by (unfold hmsu_from_decimal_day; rewrite E; reflexivity).
  apply (hmsu_ok rnd N) in H. tauto.
Qed.

(** the ordinary case: hour below 24 *)
Lemma decode_clock (us trim : bool) jd y mo d fr h mi s : of_jd rnd m jd = Ok (y, mo, d, fr) -> hms_from_decimal_day rnd fr = (h, mi, s) -> (h < 24)%Z ->
  exists sd, badi_date_from_jd rnd m T us true false trim false jd LAT LON = Ok (Short sd) /\
    s_y sd = y /\ s_m sd = mo /\ s_d sd = inject_Z d /\
    same_clock (s_t sd) (if us then [inject_Z h; inject_Z mi; inject_Z (Qfloor s); inject_Z (partial_second_to_microsecond rnd s)] else [inject_Z h; inject_Z mi; s]).
Proof.
  intros O HM H. destruct (of_jd_valid _ _ _ _ _ O) as (Y & V & V1). pose proof (micro_range _ _ _ _ HM) as MR.
  destruct (hms_ok rnd N _ _ _ _ HM) as (Hh & Hm & Hs & _ & _).
  destruct (decode_long us true trim jd y mo d fr h mi s O HM) as (k & v & yy & l & L & R & SC & E). cbv zeta in E. rewrite E.
  assert (CK : check_short rnd T {| s_y := long_year k v yy; s_m := mo; s_d := inject_Z d; s_t := l |} = Ok tt).
  { rewrite L. apply (clock4_check us y mo d h mi s l); try assumption; lia. }
  rewrite (short_of_long rnd N m EV (if us then trim else true) k v yy mo (inject_Z d) l); try lia; try assumption.
  - cbn [bind]. eexists. split; [reflexivity|]. cbn [s_y s_m s_d s_t]. rewrite L. repeat (split; [reflexivity|]).
    eapply same_clock_trans; [apply clock_of_same|exact SC].
  - rewrite (SC 0%nat) by lia. destruct us; cbn [nth]; change 24 with (inject_Z 24); rewrite <- Zlt_Qlt; lia.
  - rewrite (SC 1%nat) by lia. destruct us; cbn [nth]; change 60 with (inject_Z 60); rewrite <- Zlt_Qlt; lia.
  - rewrite (SC 2%nat) by lia. destruct us; cbn [nth]; [|lra]. pose proof (Qfloor_le s). lra.
  - rewrite <- Zle_Qle. rewrite L. apply V.
Qed.

(** hour 24: the date reported instead of the next day at 00:00 *)
Definition carried (leap : bool) (y mo d : Z) : Z * Z * Z :=
  (if d <? bmonth_len leap mo then (y, mo, d + 1)
   else if mo =? 0 then (y, 19, 1) else if mo =? 19 then (y + 1, 1, 19) else (y, mo + 1, 19))%Z.
Lemma long_24 tr k v yy mo d l : (-1843 <= long_year k v yy <= 1161)%Z -> (long_year k v yy <= 1160 \/ d < 19)%Z ->
  valid_bday (leap_of rnd m) (long_year k v yy) mo d -> same_clock l [24] ->
  let '(y', mo', d') := carried (leap_of rnd m (long_year k v yy)) (long_year k v yy) mo d in
  exists sd, short_date_from_long_date rnd T tr {| l_k := k; l_v := v; l_y := yy; l_m := mo; l_d := inject_Z d; l_t := l |} = Ok sd /\
    s_y sd = y' /\ s_m sd = mo' /\ s_d sd == inject_Z d' /\ same_clock (s_t sd) [23].
Proof.
  intros Y Y60 V SC'. remember (long_year k v yy) as y eqn:L0. assert (L : long_year k v yy = y) by (symmetry; exact L0). clear L0.
  unfold short_date_from_long_date. cbn [get_hms l_k l_v l_y l_m l_d l_t]. rewrite L.
  pose proof (SC' 0%nat ltac:(lia)) as Q0. pose proof (SC' 1%nat ltac:(lia)) as Q1. pose proof (SC' 2%nat ltac:(lia)) as Q2. pose proof (SC' 3%nat ltac:(lia)) as Q3.
  cbn [nth] in Q0, Q1, Q2, Q3. set (c0 := nth 0 l 0) in *. set (c1 := nth 1 l 0) in *. set (c2 := nth 2 l 0) in *. set (c3 := nth 3 l 0) in *.
  destruct V as [M D]. rewrite (leap_of_ok rnd N m EV) in * by exact Y.
  assert (DM : (if ((1 <=? mo) && (mo <? 20))%Z%bool then Ok 19%Z else let* b := is_leap_badi T y in Ok (4 + b2z b)%Z) = Ok (bmonth_len (zleap y) mo)).
  { unfold bmonth_len. destruct (Z.eqb_spec mo 0) as [->|NE].
    - change ((1 <=? 0) && (0 <? 20))%Z with false. cbv iota. rewrite (is_leap_ok rnd N m EV) by lia. cbn [bind]. destruct (zleap _); reflexivity.
    - assert (B : ((1 <=? mo) && (mo <? 20))%Z = true) by lia. rewrite B. reflexivity. }
  rewrite DM. cbn [bind].
  assert (L2 : Qleb 60 c2 = false) by (apply Qleb_gt; lra). rewrite L2.
  assert (L1 : Qleb 60 c1 = false) by (apply Qleb_gt; lra). rewrite L1.
  assert (L0 : Qleb 24 c0 = true) by (apply Qleb_le; lra). rewrite L0.
  assert (BR : (1 <= bmonth_len (zleap y) mo <= 19)%Z) by (unfold bmonth_len; destruct (mo =? 0)%Z; destruct (zleap y); lia).
  assert (D1 : fadd rnd (inject_Z d) 1 == inject_Z (d + 1)).
  { unfold fadd. setoid_replace (inject_Z d + 1) with (inject_Z (d + 1)) by (rewrite inject_Z_plus; reflexivity). apply near_int; [exact N|lia]. }
  assert (H23 : fsub rnd c0 1 == 23).
  { unfold fsub. rewrite Q0. setoid_replace (24 - 1) with (inject_Z 23) by reflexivity. apply near_int; [exact N|lia]. }
  set (nd := fadd rnd (inject_Z d) 1) in *. set (nh := fsub rnd c0 1) in *.
  assert (CF : forall y' mo' d' q t, (-1843 <= y' <= 1161)%Z -> (0 <= mo' <= 19)%Z -> (1 <= d' <= bmonth_len (zleap y') mo')%Z -> q == inject_Z d' -> same_clock t [23] ->
     check_short rnd T {| s_y := y'; s_m := mo'; s_d := q; s_t := t |} = Ok tt).
  { intros y' mo' d' q t Y' M' D' Q T'. rewrite (check_short_clock rnd N m _ _ _ _ [inject_Z 23; inject_Z 0; 0; inject_Z 0]).
    - assert (K : check_short rnd T {| s_y := y'; s_m := mo'; s_d := inject_Z d'; s_t := [inject_Z 23; inject_Z 0; 0; inject_Z 0] |} = Ok tt).
      { apply check_clock; try lia; try lra. split; [exact M'|]. rewrite (leap_of_ok rnd N m EV) by exact Y'. exact D'. }
      rewrite <- K. unfold check_short, check_mdt. cbn [s_y s_m s_d s_t get_hms nth].
      assert (F1 : forall c, Qleb 1 q && Qltb q c = Qleb 1 (inject_Z d') && Qltb (inject_Z d') c) by (intro c; rewrite Q; reflexivity).
      assert (F2 : Qeqb (fmod1 rnd q) 0 = Qeqb (fmod1 rnd (inject_Z d')) 0) by (rewrite Q; reflexivity).
      destruct (if (mo' =? 0)%Z then _ else _); cbn [bind]; [rewrite F1, F2; reflexivity|reflexivity].
    - eapply same_clock_trans; [exact T'|]. intros i I. do 4 (destruct i as [|i]; [reflexivity|]). lia. }
  assert (TC : forall b, same_clock (if b : bool then trim_hms [nh; c1; c2; c3] else [nh; c1; c2; c3]) [23]).
  { intro b. assert (K : same_clock [nh; c1; c2; c3] [23]) by (intros i I; do 4 (destruct i as [|i]; [cbn [nth]; assumption|]); lia).
    destruct b; [eapply same_clock_trans; [apply same_clock_trim|exact K]|exact K]. }
  specialize (TC tr). set (tt' := if tr then trim_hms [nh; c1; c2; c3] else [nh; c1; c2; c3]) in *.
  unfold carried. destruct (Z.ltb_spec d (bmonth_len (zleap y) mo)) as [LT|GE].
  - assert (QL : Qltb (inject_Z (bmonth_len (zleap y) mo)) nd = false) by (apply Qltb_ge; rewrite D1, <- Zle_Qle; lia). rewrite QL.
    assert (M19 : (19 <? mo)%Z = false) by lia. rewrite M19. rewrite (CF y mo (d + 1)%Z) by (assumption || lia). cbn [bind].
    eexists. split; [reflexivity|]. cbn [s_y s_m s_d s_t]. tauto.
  - assert (QL : Qltb (inject_Z (bmonth_len (zleap y) mo)) nd = true) by (apply Qltb_lt; rewrite D1, <- Zlt_Qlt; lia). rewrite QL.
    assert (DB : d = bmonth_len (zleap y) mo) by lia. 
    assert (NDD : fsub rnd nd 1 == inject_Z d).
    { unfold fsub. rewrite D1. setoid_replace (inject_Z (d + 1) - 1) with (inject_Z d) by (rewrite inject_Z_plus; change (inject_Z 1) with 1; ring). apply near_int; [exact N|lia]. }
    destruct (Z.eqb_spec mo 0) as [->|NE].
    + assert (B45 : ((bmonth_len (zleap y) 0 =? 4) || (bmonth_len (zleap y) 0 =? 5))%Z = true) by (destruct (zleap y); reflexivity). rewrite B45.
      change (19 <? 19)%Z with false. cbv iota. rewrite (CF y 19%Z 1%Z) by (try assumption; try lia; try reflexivity; unfold bmonth_len; cbn [Z.eqb]; lia).
      cbn [bind]. eexists. split; [reflexivity|]. cbn [s_y s_m s_d s_t]. repeat (split; [reflexivity|]). exact TC.
    + assert (B19 : bmonth_len (zleap y) mo = 19%Z) by (unfold bmonth_len; destruct (Z.eqb_spec mo 0); [contradiction|reflexivity]).
      rewrite B19 in *. change ((19 =? 4) || (19 =? 5))%Z with false. cbv iota. rewrite DB in NDD.
      destruct (Z.eqb_spec mo 19) as [->|N19].
      * change (19 <? 19 + 1)%Z with true. cbv iota.
        rewrite (CF (y + 1)%Z 1%Z 19%Z) by (try assumption; try lia; unfold bmonth_len; cbn [Z.eqb]; lia).
        cbn [bind]. eexists. split; [reflexivity|]. cbn [s_y s_m s_d s_t]. repeat (split; [reflexivity || exact NDD|]). exact TC.
      * assert (M19 : (19 <? mo + 1)%Z = false) by lia. rewrite M19.
        rewrite (CF y (mo + 1)%Z 19%Z); [|lia|lia| |exact NDD|exact TC].
        2:{ unfold bmonth_len. destruct (Z.eqb_spec (mo + 1) 0); lia. }
        cbn [bind]. eexists. split; [reflexivity|]. cbn [s_y s_m s_d s_t]. repeat (split; [reflexivity || exact NDD|]). exact TC.
Qed.
Lemma decode_24 (us trim : bool) jd y mo d fr mi s : of_jd rnd m jd = Ok (y, mo, d, fr) -> hms_from_decimal_day rnd fr = (24%Z, mi, s) -> 
  let '(y', mo', d') := carried (leap_of rnd m y) y mo d in
  exists sd, badi_date_from_jd rnd m T us true false trim false jd LAT LON = Ok (Short sd) /\
    s_y sd = y' /\ s_m sd = mo' /\ s_d sd == inject_Z d' /\ same_clock (s_t sd) [23].
Proof.
  intros O HM. destruct (of_jd_valid _ _ _ _ _ O) as (Y & V & V1). pose proof (micro_range _ _ _ _ HM) as MR.
  destruct (hms_ok rnd N _ _ _ _ HM) as (_ & Hm & Hs & Z24 & _). destruct (Z24 eq_refl) as [-> S0].
  assert (MU : partial_second_to_microsecond rnd s = 0%Z).
  { assert (H : hmsu_from_decimal_day rnd fr = (24%Z, 0%Z, Qfloor s, partial_second_to_microsecond rnd s)) by (unfold hmsu_from_decimal_day; rewrite HM; reflexivity).
    apply (hmsu_ok rnd N) in H. destruct H as (_ & _ & _ & _ & H & _). apply H. reflexivity. }
  destruct (decode_long us true trim jd y mo d fr 24 0 s O HM) as (k & v & yy & l & L & R & SC & E). cbv zeta in E. rewrite E.
  assert (SC' : same_clock l [24]).
  { eapply same_clock_trans; [exact SC|]. rewrite MU, (Qfloor_comp _ _ S0). destruct us; intros i I; do 4 (destruct i as [|i]; [cbn [nth]; assumption || reflexivity|]); lia. }
  clear SC.
  pose proof (long_24 (if us then trim else true) k v yy mo d l ltac:(lia)) as H. rewrite L in H.
  assert (A : (y <= 1160 \/ d < 19)%Z) by (destruct (Z.eq_dec y 1161) as [E1|]; [destruct (V1 E1); lia|lia]).
  specialize (H A V SC'). destruct (carried (leap_of rnd m y) y mo d) as [[y' mo'] d'].
  destruct H as (sd & S & H). exists sd. split; [|exact H]. rewrite S. reflexivity.
Qed.
(** hour 24 needs a fraction within 0.024 millionths of a day of the next sunset *)
Lemma hour24_late fr mi s : hms_from_decimal_day rnd fr = (24%Z, mi, s) -> 1 - (1 # 40000000) < fmod1 rnd fr.
Proof.
  intro H. apply (hms_ok rnd N) in H. destruct H as (_ & _ & _ & Z & E). destruct (Z eq_refl) as [-> S0].
  apply Qabs_Qlt_condition in E. rewrite S0 in E. change (inject_Z 24) with 24 in E. change (inject_Z 0) with 0 in E. lra.
Qed.
End Clock.
