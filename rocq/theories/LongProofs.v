(** LongProofs.v -- short and long dates with clock fields; the clock part of decoding. *)
From Coq Require Import ZArith QArith Qround Qabs List Bool Lia Lqa Setoid Morphisms.
From Coq Require Import ZifyBool ZifyNat ZifyN.
From Verif Require Import Base Flt QUtil BaseModel MiscModel BadiModel BaseProofs BaseProofs2 MiscProofs SunProofs SpecMisc SpecBadi BadiProofs BadiProofs2 LongYear BadiProofs3 DecProofs.
Import ListNotations.
Local Open Scope Q_scope.
Ltac Zify.zify_post_hook ::= Z.div_mod_to_equations.

Global Instance nonzero_comp : Proper (Qeq ==> eq) nonzero.
Proof. intros a b E. unfold nonzero. rewrite E. reflexivity. Qed.

(** same clock: the first four fields are equal *)
Definition same_clock (l l' : list Q) : Prop := forall i, (i < 4)%nat -> nth i l 0 == nth i l' 0.
Lemma same_clock_refl l : same_clock l l. Proof. intros i H. reflexivity. Qed.
Lemma same_clock_trans a b c : same_clock a b -> same_clock b c -> same_clock a c.
Proof. intros H K i I. rewrite (H i I). apply K, I. Qed.
Lemma nth_trimmed l p i : trimmed l p -> nth i p 0 == nth i l 0.
Proof.
  intros H. destruct H as [(z & -> & Z) _].
  destruct (Nat.lt_ge_cases i (length p)) as [L|L].
  - rewrite app_nth1 by exact L. reflexivity.
  - rewrite (nth_overflow p) by exact L. rewrite app_nth2 by exact L.
    destruct (Nat.lt_ge_cases (i - length p) (length z)) as [L'|L']; [|rewrite nth_overflow by exact L'; reflexivity].
    rewrite Forall_forall in Z. symmetry. apply Z, nth_In, L'.
Qed.
Lemma same_clock_trim l : same_clock (trim_hms l) l.
Proof. intros i _. apply nth_trimmed, trim_ok. Qed.
Lemma same_clock_four l : same_clock [nth 0 l 0; nth 1 l 0; nth 2 l 0; nth 3 l 0] l.
Proof. intros i I. do 4 (destruct i as [|i]; [reflexivity|]). lia. Qed.

Section Long.
Variable rnd : Q -> Q.
Hypothesis N : Nearest rnd.
#[local] Instance prop_rnd7 : Proper (Qeq ==> Qeq) rnd.
Proof. intros a b E. apply near_proper; [exact N|exact E]. Qed.
#[local] Instance fmod1_comp : Proper (Qeq ==> Qeq) (fmod1 rnd).
Proof.
  intros a b E. unfold fmod1. rewrite (Qtrunc_comp _ _ E).
  assert (F : a - inject_Z (Qtrunc b) == b - inject_Z (Qtrunc b)) by (rewrite E; reflexivity).
  rewrite (Qltb_comp _ _ F 0 0 (Qeq_refl 0)). destruct (Qltb _ 0); [rewrite F; reflexivity|exact F].
Qed.
Variable m : Q -> Q -> Q -> Q.
Hypothesis EV : evening rnd m.
Notation T := (year_table rnd m).

Lemma check_mdt_clock y mo d l l' : same_clock l l' -> check_mdt rnd T y mo d l = check_mdt rnd T y mo d l'.
Proof.
  intro S. pose proof (S 0%nat ltac:(lia)) as E0. pose proof (S 1%nat ltac:(lia)) as E1. pose proof (S 2%nat ltac:(lia)) as E2. pose proof (S 3%nat ltac:(lia)) as E3.
  unfold check_mdt, get_hms, check_time. cbv beta iota zeta.
  set (a0 := nth 0 l 0) in *. set (a1 := nth 1 l 0) in *. set (a2 := nth 2 l 0) in *. set (a3 := nth 3 l 0) in *.
  repeat match goal with
  | |- context [nonzero ?a] => first [rewrite (nonzero_comp _ _ E0)|rewrite (nonzero_comp _ _ E1)|rewrite (nonzero_comp _ _ E2)|fail 1] end.
  rewrite (Qleb_comp' 0 0 (Qeq_refl 0) _ _ E0), (Qleb_comp' 0 0 (Qeq_refl 0) _ _ E1), (Qleb_comp' 0 0 (Qeq_refl 0) _ _ E2), (Qleb_comp' 0 0 (Qeq_refl 0) _ _ E3).
  rewrite (Qltb_comp _ _ E0 25 25 (Qeq_refl _)), (Qltb_comp _ _ E1 60 60 (Qeq_refl _)), (Qltb_comp _ _ E2 60 60 (Qeq_refl _)), (Qltb_comp _ _ E3 1000000 1000000 (Qeq_refl _)).
  rewrite (Qeqb_comp _ _ (fmod1_comp _ _ E0) 0 0 (Qeq_refl _)), (Qeqb_comp _ _ (fmod1_comp _ _ E1) 0 0 (Qeq_refl _)). reflexivity.
Qed.

(** validity does not depend on the form *)
Lemma check_long_short k v yy mo d l : (-1843 <= long_year k v yy <= 1162)%Z -> (1 <= v <= 19)%Z -> (1 <= yy <= 19)%Z ->
  check_long rnd T {| l_k := k; l_v := v; l_y := yy; l_m := mo; l_d := d; l_t := l |} =
  check_short rnd T {| s_y := long_year k v yy; s_m := mo; s_d := d; s_t := l |}.
Proof.
  intros L V Y. unfold check_long, check_short, KULLISHAY_MIN, KULLISHAY_MAX, MINYEAR, MAXYEAR. cbn [l_k l_v l_y l_m l_d l_t s_y s_m s_d s_t].
  assert (A : ((-1842 - 1 <=? long_year k v yy) && (long_year k v yy <=? 1161 + 1))%Z = true) by lia. rewrite A.
  assert (B : ((-5 - 1 <=? k) && (k <=? 4 + 1))%Z = true) by (unfold long_year in L; lia). rewrite B.
  assert (C : ((1 <=? v) && (v <? 20))%Z = true) by lia. rewrite C.
  assert (D : ((1 <=? yy) && (yy <? 20))%Z = true) by lia. rewrite D. reflexivity.
Qed.
Lemma check_short_clock y mo d l l' : same_clock l l' ->
  check_short rnd T {| s_y := y; s_m := mo; s_d := d; s_t := l |} = check_short rnd T {| s_y := y; s_m := mo; s_d := d; s_t := l' |}.
Proof. intro S. unfold check_short. cbn [s_y s_m s_d s_t]. rewrite (check_mdt_clock _ _ _ _ _ S). reflexivity. Qed.
Lemma check_short_range d : check_short rnd T d = Ok tt -> (-1843 <= s_y d <= 1162)%Z /\ (0 <= s_m d <= 19)%Z.
Proof.
  unfold check_short, MINYEAR, MAXYEAR. destruct ((_ && _)%Z) eqn:A; [|discriminate]. cbn [passert bind]. unfold check_mdt.
  destruct (get_hms _) as [[[a b] c] e]. destruct ((0 <=? s_m d)%Z && (s_m d <? 20)%Z) eqn:B; [|discriminate]. intros _. lia.
Qed.

Definition clock_of (trim : bool) (l : list Q) : list Q :=
  let l4 := [nth 0 l 0; nth 1 l 0; nth 2 l 0; nth 3 l 0] in if trim then trim_hms l4 else l4.
Lemma clock_of_same trim l : same_clock (clock_of trim l) l.
Proof. unfold clock_of. destruct trim; [eapply same_clock_trans; [apply same_clock_trim|]|]; apply same_clock_four. Qed.

(** C06, first direction *)
Lemma long_of_short trim d : check_short rnd T d = Ok tt ->
  exists k v yy, long_date_from_short_date rnd T trim d =
     Ok {| l_k := k; l_v := v; l_y := yy; l_m := s_m d; l_d := s_d d; l_t := clock_of trim (s_t d) |} /\
    long_year k v yy = s_y d /\ (-5 <= k <= 4 /\ 1 <= v <= 19 /\ 1 <= yy <= 19)%Z.
Proof.
  intro C. destruct (check_short_range d C) as [Y M]. unfold long_date_from_short_date. cbn [get_hms].
  destruct (long_year_parts rnd (s_y d)) as [[k v] yy] eqn:E.
  destruct (long_year_parts_ok rnd N _ _ _ _ Y E) as (L & K & V & YY). exists k, v, yy.
  change (if trim then trim_hms [nth 0 (s_t d) 0; nth 1 (s_t d) 0; nth 2 (s_t d) 0; nth 3 (s_t d) 0]
          else [nth 0 (s_t d) 0; nth 1 (s_t d) 0; nth 2 (s_t d) 0; nth 3 (s_t d) 0]) with (clock_of trim (s_t d)).
  rewrite check_long_short by (rewrite ?L; lia). rewrite L.
  rewrite (check_short_clock _ _ _ _ _ (clock_of_same trim (s_t d))).
  destruct d as [dy dm dd dt]. cbn [s_y s_m s_d s_t] in *. rewrite C. cbn [bind]. repeat split; try lia. 
Qed.
(** month length used when normalising *)
Lemma short_of_long trim k v yy mo d l : (1 <= v <= 19)%Z -> (1 <= yy <= 19)%Z ->
  check_short rnd T {| s_y := long_year k v yy; s_m := mo; s_d := d; s_t := l |} = Ok tt ->
  nth 0 l 0 < 24 -> nth 1 l 0 < 60 -> nth 2 l 0 < 60 -> d <= inject_Z (bmonth_len (leap_of rnd m (long_year k v yy)) mo) ->
  short_date_from_long_date rnd T trim {| l_k := k; l_v := v; l_y := yy; l_m := mo; l_d := d; l_t := l |} =
    Ok {| s_y := long_year k v yy; s_m := mo; s_d := d; s_t := clock_of trim l |}.
Proof.
  intros V Y C H0 H1 H2 D. destruct (check_short_range _ C) as [YR M]. cbn [s_y s_m] in YR, M.
  unfold short_date_from_long_date. cbn [get_hms l_k l_v l_y l_m l_d l_t].
  assert (NL : Qleb 60 (nth 2 l 0) = false) by (destruct (Qleb _ _) eqn:E; [apply Qleb_le in E; exfalso; lra|reflexivity]).
  assert (NL1 : Qleb 60 (nth 1 l 0) = false) by (destruct (Qleb 60 (nth 1 l 0)) eqn:E; [apply Qleb_le in E; exfalso; lra|reflexivity]).
  assert (NL0 : Qleb 24 (nth 0 l 0) = false) by (destruct (Qleb 24 (nth 0 l 0)) eqn:E; [apply Qleb_le in E; exfalso; lra|reflexivity]).
  set (dm := (if ((1 <=? mo) && (mo <? 20))%Z%bool then Ok 19%Z else let* b := is_leap_badi T (long_year k v yy) in Ok (4 + b2z b)%Z)).
  assert (DM : dm = Ok (bmonth_len (leap_of rnd m (long_year k v yy)) mo)).
  { unfold dm, bmonth_len. destruct (Z.eqb_spec mo 0) as [->|NE].
    - change ((1 <=? 0) && (0 <? 20))%Z with false. cbv iota.
      destruct (Z_le_gt_dec (long_year k v yy) 1161) as [G|G].
      + rewrite (leap_of_ok rnd N m EV) by lia. rewrite (is_leap_ok rnd N m EV) by lia. cbn [bind]. destruct (zleap _); reflexivity.
      + exfalso. assert (Y1 : long_year k v yy = 1162%Z) by lia. rewrite Y1 in C. unfold check_short, check_mdt in C. cbn [s_y s_m s_d s_t] in C.
        destruct (get_hms l) as [[[a b] c] e]. change ((MINYEAR - 1 <=? 1162) && (1162 <=? MAXYEAR + 1))%Z with true in C.
        change ((0 <=? 0) && (0 <? 20))%Z with true in C. change (0 =? 0)%Z with true in C. cbn [passert bind] in C.
        rewrite (is_leap_err rnd N m EV) in C by lia. discriminate.
    - assert (B : ((1 <=? mo) && (mo <? 20))%Z = true) by lia. rewrite B. reflexivity. }
  rewrite DM. cbn [bind]. rewrite NL, NL1, NL0.
  assert (DL : Qltb (inject_Z (bmonth_len (leap_of rnd m (long_year k v yy)) mo)) d = false) by (apply Qltb_ge; exact D). rewrite DL.
  assert (M19 : (19 <? mo)%Z = false) by lia. rewrite M19.
  change (if trim then trim_hms [nth 0 l 0; nth 1 l 0; nth 2 l 0; nth 3 l 0] else [nth 0 l 0; nth 1 l 0; nth 2 l 0; nth 3 l 0]) with (clock_of trim l).
  rewrite (check_short_clock _ _ _ _ _ (clock_of_same trim l)), C. reflexivity.
Qed.
Lemma check_short_times d : check_short rnd T d = Ok tt ->
  0 <= nth 0 (s_t d) 0 < 25 /\ 0 <= nth 1 (s_t d) 0 < 60 /\ 0 <= nth 2 (s_t d) 0 < 60 /\ 0 <= nth 3 (s_t d) 0 < 1000000 /\ 1 <= s_d d.
Proof.
  unfold check_short. destruct ((_ && _)%Z) eqn:A; [|discriminate]. cbn [passert bind]. unfold check_mdt, get_hms, check_time.
  destruct ((0 <=? s_m d)%Z && _) eqn:B; [|discriminate]. cbn [passert bind].
  destruct (if (s_m d =? 0)%Z then _ else _) as [cycle|]; [|discriminate]. cbn [bind].
  destruct (Qleb 1 (s_d d) && _) eqn:D1; [|discriminate]. cbn [passert bind].
  destruct (Qleb 0 (nth 0 (s_t d) 0) && _) eqn:D2; [|discriminate]. cbn [passert bind].
  destruct (Qleb 0 (nth 1 (s_t d) 0) && _) eqn:D3; [|discriminate]. cbn [passert bind].
  destruct (Qleb 0 (nth 2 (s_t d) 0) && _) eqn:D4; [|discriminate]. cbn [passert bind].
  destruct (Qleb 0 (nth 3 (s_t d) 0) && _) eqn:D5; [|discriminate]. intros _.
  apply andb_prop in D1, D2, D3, D4, D5. rewrite Qleb_le, Qltb_lt in *. tauto.
Qed.

Lemma short_long_short trim trim' d : check_short rnd T d = Ok tt -> nth 0 (s_t d) 0 < 24 ->
  s_d d <= inject_Z (bmonth_len (leap_of rnd m (s_y d)) (s_m d)) ->
  exists l s, long_date_from_short_date rnd T trim d = Ok l /\ short_date_from_long_date rnd T trim' l = Ok s /\
    (-5 <= l_k l <= 4 /\ 1 <= l_v l <= 19 /\ 1 <= l_y l <= 19)%Z /\ long_year (l_k l) (l_v l) (l_y l) = s_y d /\
    s_y s = s_y d /\ s_m s = s_m d /\ s_d s = s_d d /\ same_clock (s_t s) (s_t d).
Proof.
  intros C H D. destruct (long_of_short trim d C) as (k & v & yy & E & L & R). rewrite E. 
  set (l := {| l_k := k; l_v := v; l_y := yy; l_m := s_m d; l_d := s_d d; l_t := clock_of trim (s_t d) |}).
  destruct (check_short_times d C) as (_ & T1 & T2 & _).
  pose proof (clock_of_same trim (s_t d)) as S.
  exists l, {| s_y := long_year k v yy; s_m := s_m d; s_d := s_d d; s_t := clock_of trim' (clock_of trim (s_t d)) |}.
  split; [reflexivity|]. split.
  - apply short_of_long; try lia.
    + rewrite L, (check_short_clock _ _ _ _ _ S). destruct d as [dy dm dd dt]. exact C.
    + rewrite (S 0%nat) by lia. exact H.
    + rewrite (S 1%nat) by lia. apply T1.
    + rewrite (S 2%nat) by lia. apply T2.
    + rewrite L. exact D.
  - cbn [l l_k l_v l_y s_y s_m s_d s_t]. repeat (split; [tauto || lia|]).
    eapply same_clock_trans; [apply clock_of_same|exact S].
Qed.
Lemma long_short_long trim trim' l : (-1843 <= long_year (l_k l) (l_v l) (l_y l) <= 1162)%Z -> check_long rnd T l = Ok tt -> nth 0 (l_t l) 0 < 24 ->
  l_d l <= inject_Z (bmonth_len (leap_of rnd m (long_year (l_k l) (l_v l) (l_y l))) (l_m l)) ->
  exists s l', short_date_from_long_date rnd T trim l = Ok s /\ long_date_from_short_date rnd T trim' s = Ok l' /\
    s_y s = long_year (l_k l) (l_v l) (l_y l) /\
    l_k l' = l_k l /\ l_v l' = l_v l /\ l_y l' = l_y l /\ l_m l' = l_m l /\ l_d l' = l_d l /\ same_clock (l_t l') (l_t l).
Proof.
  destruct l as [k v yy mo d lt]. cbn [l_k l_v l_y l_m l_d l_t]. intros Y C H D.
  assert (VY : (1 <= v <= 19 /\ 1 <= yy <= 19)%Z).
  { unfold check_long in C. cbn [l_k l_v l_y l_m l_d l_t] in C. destruct (_ && _)%Z in C; [|discriminate]. cbn [passert bind] in C.
    destruct ((1 <=? v) && (v <? 20))%Z eqn:A in C; [|discriminate]. cbn [passert bind] in C.
    destruct ((1 <=? yy) && (yy <? 20))%Z eqn:B in C; [|discriminate]. lia. }
  destruct VY as [V YY]. rewrite check_long_short in C by lia.
  destruct (check_short_times _ C) as (_ & T1 & T2 & _). cbn [s_t] in T1, T2.
  pose proof (short_of_long trim k v yy mo d lt V YY C H (proj2 T1) (proj2 T2) D) as S1.
  set (s := {| s_y := long_year k v yy; s_m := mo; s_d := d; s_t := clock_of trim lt |}) in *.
  assert (CS : check_short rnd T s = Ok tt) by (unfold s; rewrite (check_short_clock _ _ _ _ _ (clock_of_same trim lt)); exact C).
  destruct (long_of_short trim' s CS) as (k' & v' & y' & E & L & R).
  exists s. eexists. split; [exact S1|]. split; [exact E|]. cbn [l_k l_v l_y l_m l_d l_t s s_y s_m s_d s_t] in *.
  assert (K : (k' = k /\ v' = v /\ y' = yy)%Z) by (unfold long_year in L; lia). destruct K as (-> & -> & ->).
  repeat (split; [reflexivity|]). eapply same_clock_trans; [apply clock_of_same|apply clock_of_same].
Qed.

(** ** the clock fields of a decoded date *)
Lemma trunc_frac0 x : fmod1 rnd (inject_Z x) == 0.
Proof.
  unfold fmod1. assert (TR : Qtrunc (inject_Z x) = x) by (unfold Qtrunc; rewrite Qfloor_Z, Qceiling_Z; destruct (Qleb _ _); reflexivity).
  rewrite TR. destruct (Qltb (inject_Z x - inject_Z x) 0) eqn:L; [apply Qltb_lt in L; exfalso; lra|]. ring.
Qed.
End Long.
