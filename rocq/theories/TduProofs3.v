(** TduProofs3.v -- decoding any ordinal, weekdays and ISO weeks. *)
From Coq Require Import ZArith QArith Qround Qabs List Bool Lia Lqa Setoid Morphisms.
From Coq Require Import ZifyBool ZifyNat ZifyN.
From Verif Require Import Base Flt QUtil BaseModel MiscModel BadiModel BaseProofs BaseProofs2 MiscProofs SunProofs SpecMisc SpecBadi BadiProofs BadiProofs2 LongYear BadiProofs3 DecProofs BadiProofs4 LongProofs BadiProofs5 ClockProofs ClockProofs2 TduModel TduProofs SpecDate TduProofs2.
Import ListNotations.
Local Open Scope Z_scope.
Ltac Zify.zify_post_hook ::= Z.div_mod_to_equations.

Lemma rd_exists n : -287 <= n < 1097268 -> exists y mo d, -1843 <= y <= 1161 /\ 0 <= mo <= 19 /\ 1 <= d <= bmonth_len (zleap y) mo /\ zrd y mo d = n.
Proof.
  intro R. destruct (year_exists n R) as (y & Y & Q). pose proof (year_len y Y) as L.
  destruct (month_day_of_doy (n - ystart y + 1) (4 + b2z (zleap y))) as [mo d] eqn:E.
  destruct (md_doy (zleap y) (n - ystart y + 1) mo d ltac:(lia) E) as (A & B & C). exists y, mo, d. repeat split; try tauto; try lia. unfold zrd. lia.
Qed.

Section Weeks.
Variable rnd : Q -> Q.
Hypothesis N : Nearest rnd.
Variable m : Q -> Q -> Q -> Q.
Hypothesis EV : evening rnd m.
Notation LAT := (TEHRAN_LAT rnd).
Notation LON := (TEHRAN_LON rnd).
Notation T := (year_table rnd m).

Lemma rata_die_zrd y mo d r : -1843 <= y <= 1161 -> 0 <= mo <= 19 -> rata_die rnd m y mo d r <-> r = zrd y mo d.
Proof.
  intros Y M. unfold rata_die. rewrite (year_table_ok rnd N m EV) by lia. rewrite (leap_of_ok rnd N m EV) by lia.
  assert (K : zdbm (zleap y) mo + d = bday_of_year (zleap y) mo d).
  { unfold zdbm, bday_of_year, bmonth_len. change (0 =? 0) with true. cbv iota. destruct (zleap y); cbn [b2z]; destruct (Z.eqb_spec mo 0), (Z.eqb_spec mo 19), (Z.ltb_spec mo 19); lia. }
  split.
  - intros (z & Z0 & ->). assert (z = ystart y) by congruence. subst. unfold zrd. lia.
  - intros ->. eexists. split; [reflexivity|]. unfold zrd. lia.
Qed.

Lemma calm_out n : (-20000 <= n < -287 \/ 1096902 < n <= 1168000) -> calm (1721423 + n).
Proof.
  intro R. split; [|unfold GAP0; lia]. intros b I. unfold break_days in I. cbn [In map] in I. lia.
Qed.
Lemma ord_out n short : (-10000 <= n < -287 \/ 1096902 < n <= 1160000) -> ord2ymd rnd m short n = Err AssertionError.
Proof.
  intro R. unfold ord2ymd. fold (ord_jd rnd n). pose proof (ord_jd_ok rnd N m EV n ltac:(lia)) as J. set (jd := ord_jd rnd n) in *.
  destruct (mid_good rnd N m EV (1721423 + n) jd ltac:(lia) J (calm_good _ (calm_out n ltac:(lia)))) as (fr & U & C & F).
  unfold badi_date_from_jd. change (xor_boolean [false; false; true]) with true. cbn [passert bind].
  unfold badi_day_from_jd. rewrite U. cbn [bind]. unfold cday in C.
  change (Qfloor (fadd rnd (fadd rnd (AE rnd m (hk (1721423 + n))) (fdiv rnd LON 360)) (1 # 2))) with (cday rnd (AE rnd m (hk (1721423 + n)))).
  unfold cday at 1. rewrite C, (civil_epoch rnd N m EV). rewrite (year_from_rd_err rnd N m EV) by lia. reflexivity.
Qed.

Lemma ord_any n : -287 <= n <= 1096902 -> exists y mo d, -1843 <= y <= 1161 /\ 0 <= mo <= 19 /\ 1 <= d <= bmonth_len (zleap y) mo /\ zrd y mo d = n /\
  ord2ymd rnd m true n = if inb (y, mo, d) (skipped_bdates ++ reform_bdates) then Err ValueError else Ok (Short (bd y mo d)).
Proof.
  intro R. destruct (rd_exists n ltac:(lia)) as (y & mo & d & Y & M & D & Q). exists y, mo, d. repeat split; try lia. rewrite <- Q.
  apply (ord_date rnd N m EV); lia.
Qed.

(** long form *)
Lemma ord_long n : ord2ymd rnd m false n = let* b := ord2ymd rnd m true n in
  match b with Short s => let* l := long_date_from_short_date rnd T true s in Ok (Long l) | Long l => Ok (Long l) end.
Proof.
  unfold ord2ymd, badi_date_from_jd. change (xor_boolean [false; false; true]) with true. cbn [passert bind].
  destruct (badi_day_from_jd _ _ _ _ _ _) as [[[[y mo] d] fr]|e]; reflexivity.
Qed.
Definition ld (k v y mo d : Z) : ldate := {| l_k := k; l_v := v; l_y := y; l_m := mo; l_d := inject_Z d; l_t := [] |}.
Lemma long_bd y mo d : -1843 <= y <= 1161 -> 0 <= mo <= 19 -> 1 <= d <= bmonth_len (zleap y) mo ->
  exists k v yy, long_date_from_short_date rnd T true (bd y mo d) = Ok (ld k v yy mo d) /\ long_year k v yy = y /\
    -5 <= k <= 4 /\ 1 <= v <= 19 /\ 1 <= yy <= 19.
Proof.
  intros Y M D. assert (C : check_short rnd T (bd y mo d) = Ok tt) by (apply (valid_iff rnd N m EV); [exact Y|]; unfold valid_bday; rewrite (leap_of_ok rnd N m EV) by exact Y; tauto).
  destruct (long_of_short rnd N m true (bd y mo d) C) as (k & v & yy & E & L & R). exists k, v, yy.
  split; [exact E|]. split; [exact L|tauto].
Qed.

Hypothesis O : naw_ruz_order rnd m.
Lemma dow_ok y mo d : -1843 <= y <= 1162 -> 0 <= mo <= 19 -> (y <= 1161 \/ mo <> 19) -> day_of_week rnd m y mo d = Ok ((zord y mo d + 1) mod 7).
Proof. intros Y M H. unfold day_of_week. rewrite (ymd2ord_ok rnd N m EV y mo d O Y M H). cbn [bind]. f_equal. lia. Qed.

Definition w1 (f : Z) : Z := let w := (f - 6) mod 7 in if 3 <? w then f - w + 7 else f - w.
Lemma w1_spec f : (w1 f) mod 7 = 6 /\ f - 3 <= w1 f < f + 4.
Proof. unfold w1. destruct (Z.ltb_spec 3 ((f - 6) mod 7)); lia. Qed.
Lemma w1_unique f w : w mod 7 = 6 -> f - 3 <= w < f + 4 -> w = w1 f.
Proof. intros A B. pose proof (w1_spec f). lia. Qed.
Lemma zrd_11 y : zrd y 1 1 = ystart y.
Proof. unfold zrd, zdbm. change (1 =? 0) with false. change (1 <? 19) with true. cbv iota. lia. Qed.
Definition yord (y : Z) : Z := ystart y + fudge y.
Lemma zord_11 y : zord y 1 1 = yord y.
Proof. unfold zord, yord. rewrite zrd_11. reflexivity. Qed.
Lemma yord_steady y : ~ In y stale_years -> yord y = ystart y.
Proof. intro H. unfold yord. rewrite (steady_fudge y H). lia. Qed.
Lemma week1_ok y : -1843 <= y <= 1162 -> isoweek1jalal rnd m y = Ok (w1 (yord y)).
Proof. intro Y. unfold isoweek1jalal. rewrite (ymd2ord_ok rnd N m EV y 1 1 O Y ltac:(lia) ltac:(lia)), zord_11. reflexivity. Qed.

(** isocalendar: the ISO year of ordinal t *)
Definition calm_year (y : Z) : Prop := forall y', y - 1 <= y' <= y + 1 -> ~ In y' stale_years.
Lemma ywd_ok y mo d : calm_year y -> -1843 <= y <= 1161 -> 0 <= mo <= 19 -> 1 <= d <= bmonth_len (zleap y) mo ->
  exists iy, (y - 1 <= iy <= y + 1 /\ -1843 <= iy) /\
    let t := zrd y mo d in let w := w1 (ystart iy) in
    year_week_day rnd m false y mo d = Ok (iy, (t - w) / 7 + 1, (t - w) mod 7 + 1) /\ w <= t /\ (iy <= 1161 -> t < w1 (ystart (iy + 1))).
Proof.
  intros CY Y M D. unfold year_week_day. pose proof (yord_steady _ (CY (y - 1) ltac:(lia))) as C1. pose proof (yord_steady _ (CY y ltac:(lia))) as C2. pose proof (yord_steady _ (CY (y + 1) ltac:(lia))) as C3.
  rewrite (week1_ok y) by lia. cbn [bind]. rewrite (ymd2ord_ok rnd N m EV y mo d O ltac:(lia) M ltac:(lia)). cbn [bind]. rewrite C2, (zord_steady y mo d (CY y ltac:(lia))).
  pose proof (rd_range y mo d Y M D) as RR. set (t := zrd y mo d) in *. pose proof (year_len y Y) as YL.
  assert (b2z (zleap y) <= 1) by (destruct (zleap y); cbn; lia). assert (0 <= b2z (zleap y)) by (destruct (zleap y); cbn; lia).
  pose proof (w1_spec (ystart y)) as W. pose proof (w1_spec (ystart (y + 1))) as W'.
  destruct (Z.ltb_spec ((t - w1 (ystart y)) / 7) 0) as [L|L].
  - assert (y <> -1843). { intros ->. assert (w1 (ystart (-1843)) = -288) by (vm_compute; reflexivity). pose proof ystart_min. lia. }
    rewrite (week1_ok (y - 1)), C1 by lia. cbn [bind]. exists (y - 1). replace (y - 1 + 1) with y by lia.
    pose proof (year_len (y - 1) ltac:(lia)) as YL'. replace (y - 1 + 1) with y in YL' by lia. pose proof (w1_spec (ystart (y - 1))).
    assert (0 <= b2z (zleap (y - 1))) by (destruct (zleap (y - 1)); cbn; lia).
    cbv zeta. split; [lia|]. split; [reflexivity|lia].
  - destruct (Z.leb_spec 52 ((t - w1 (ystart y)) / 7)) as [G|G].
    + rewrite (week1_ok (y + 1)), C3 by lia. cbn [bind]. destruct (Z.leb_spec (w1 (ystart (y + 1))) t) as [A|A].
      * exists (y + 1). cbv zeta. split; [lia|]. split.
        { do 2 f_equal; [f_equal|]; lia. }
        split; [lia|]. intro B. pose proof (year_len (y + 1) ltac:(lia)) as YL'. pose proof (w1_spec (ystart (y + 1 + 1))).
        assert (0 <= b2z (zleap (y + 1))) by (destruct (zleap (y + 1)); cbn; lia). lia.
      * exists y. cbv zeta. split; [lia|]. split; [reflexivity|lia].
    + exists y. cbv zeta. split; [lia|]. split; [reflexivity|]. lia.
Qed.

(** fromisocalendar *)
Definition starts34 (y : Z) : Prop := (yord y + 1) mod 7 = 2 \/ (yord y + 1) mod 7 = 3.
Lemma iso_regular short y wk wd : -1843 <= y <= 1162 -> 1 <= wd <= 7 -> (1 <= wk < 52 \/ ~ starts34 y) ->
  isoweek_to_badi rnd m short y wk wd = ord2ymd rnd m short (w1 (yord y) + 7 * (wk - 1) + (wd - 1)).
Proof.
  intros Y W H. unfold isoweek_to_badi, starts34 in *. rewrite (week1_ok y) by lia. rewrite dow_ok, zord_11 by lia. cbn [bind].
  assert (P : (if negb ((0 <? wk) && (wk <? 52)) then
     if ((yord y + 1) mod 7 + 1 =? 3) || ((yord y + 1) mod 7 + 1 =? 4) then let* _ := passert (wk =? 52) in Ok 7 else Ok 0 else Ok 0) = Ok 0).
  { destruct (Z.ltb_spec 0 wk), (Z.ltb_spec wk 52); cbn [andb negb]; try reflexivity;
      destruct (Z.eqb_spec ((yord y + 1) mod 7 + 1) 3), (Z.eqb_spec ((yord y + 1) mod 7 + 1) 4); cbn [orb]; try reflexivity; exfalso; lia. }
  rewrite P. cbn [bind]. assert (Q : (0 <? wd) && (wd <? 8) = true) by lia. rewrite Q. cbn [passert bind]. f_equal. lia.
Qed.
Lemma iso_52 short y wd : -1843 <= y <= 1162 -> 1 <= wd <= 7 -> starts34 y ->
  isoweek_to_badi rnd m short y 52 wd = ord2ymd rnd m short (w1 (yord y) + 7 * 52 + (wd - 1)).
Proof.
  intros Y W H. unfold isoweek_to_badi, starts34 in *. rewrite (week1_ok y) by lia. rewrite dow_ok, zord_11 by lia. cbn [bind].
  change (negb ((0 <? 52) && (52 <? 52))) with true. cbv iota. change (52 =? 52) with true.
  assert (P : ((yord y + 1) mod 7 + 1 =? 3) || ((yord y + 1) mod 7 + 1 =? 4) = true) by lia. rewrite P. cbn [passert bind].
  assert (Q : (0 <? wd) && (wd <? 8) = true) by lia. rewrite Q. cbn [passert bind]. f_equal. lia.
Qed.
Lemma iso_other short y wk wd : -1843 <= y <= 1162 -> starts34 y -> wk < 1 \/ 52 < wk ->
  isoweek_to_badi rnd m short y wk wd = Err AssertionError.
Proof.
  intros Y S W. unfold isoweek_to_badi, starts34 in *. rewrite dow_ok, zord_11 by lia. cbn [bind].
  assert (A : negb ((0 <? wk) && (wk <? 52)) = true) by lia. rewrite A.
  assert (P : ((yord y + 1) mod 7 + 1 =? 3) || ((yord y + 1) mod 7 + 1 =? 4) = true) by lia. rewrite P.
  assert (K : (wk =? 52) = false) by lia. rewrite K. reflexivity.
Qed.
Lemma iso_badday short y wk wd : -1843 <= y <= 1162 -> ~ 1 <= wd <= 7 -> isoweek_to_badi rnd m short y wk wd = Err AssertionError.
Proof.
  intros Y W. unfold isoweek_to_badi. rewrite dow_ok, zord_11 by lia. cbn [bind].
  assert (Q : (0 <? wd) && (wd <? 8) = false) by lia. rewrite Q.
  destruct (negb _); [|reflexivity]. destruct (_ || _); [|reflexivity]. destruct (wk =? 52); reflexivity.
Qed.
End Weeks.
