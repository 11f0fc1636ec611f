(** DateProofs.v -- lemmas about the date class: ordinals, order, arithmetic, weeks, pickling. *)
From Coq Require Import ZArith QArith Qround Qabs List Bool Lia Lqa Setoid Morphisms.
From Coq Require Import ZifyBool ZifyNat ZifyN.
From Verif Require Import Base Flt QUtil BaseModel MiscModel BadiModel BaseProofs BaseProofs2 MiscProofs SunProofs SpecMisc SpecBadi BadiProofs BadiProofs2 LongYear BadiProofs3 DecProofs BadiProofs4 LongProofs BadiProofs5 ClockProofs ClockProofs2 TduModel DateModel SpecDate TduProofs TduProofs2 TduProofs3.
Import ListNotations.
Local Open Scope Z_scope.
Ltac Zify.zify_post_hook ::= Z.div_mod_to_equations.

Section DateP.
Variable rnd : Q -> Q.
Hypothesis N : Nearest rnd.
Variable m : Q -> Q -> Q -> Q.
Hypothesis EV : evening rnd m.
Notation T := (year_table rnd m).

Definition okd (y mo d : Z) : Prop := -1843 <= y <= 1161 /\ 0 <= mo <= 19 /\ 1 <= d <= bmonth_len (zleap y) mo.
Lemma supported_ok a y mo d : supported rnd m a y mo d -> okd y mo d /\ -1842 <= y.
Proof. intros (_ & Y & V1 & V2). rewrite (leap_of_ok rnd N m EV) in V2 by lia. unfold okd. lia. Qed.
Lemma ok_valid y mo d : okd y mo d -> valid_bday (leap_of rnd m) y mo d.
Proof. intros (Y & V). unfold valid_bday. rewrite (leap_of_ok rnd N m EV) by lia. exact V. Qed.
Lemma ok_check y mo d : okd y mo d -> check_short rnd T (bd y mo d) = Ok tt.
Proof. intro H. apply (valid_iff rnd N m EV); [unfold okd in H; lia|apply ok_valid, H]. Qed.

Lemma new_short y mo d : okd y mo d -> date_new rnd m [y; mo; d] = Ok (DShort y mo d).
Proof. intro H. unfold date_new. change (sd y mo d) with (bd y mo d). rewrite (ok_check y mo d H). reflexivity. Qed.
Lemma new_long k v yy mo d : 1 <= v <= 19 -> 1 <= yy <= 19 -> okd (long_year k v yy) mo d -> date_new rnd m [k; v; yy; mo; d] = Ok (DLong k v yy mo d).
Proof.
  intros V Y H. unfold date_new. assert (C : check_long rnd T (lgd k v yy mo d) = Ok tt); [|rewrite C; reflexivity].
  unfold lgd. rewrite (check_long_short rnd m) by (unfold okd in H; lia). apply (ok_check _ _ _ H).
Qed.
Lemma short_form_ok a y mo d : denotes a y mo d -> okd y mo d -> short_form rnd m a = Ok (y, mo, d).
Proof.
  destruct a as [y' mo' d'|k v yy mo' d']; cbn [denotes short_form].
  - intros (-> & -> & ->) _. reflexivity.
  - intros (V & Y & L & -> & ->) H. change ((k - 1) * 361 + (v - 1) * 19 + yy) with (long_year k v yy) in L. subst y.
    unfold lgd. rewrite (short_of_long rnd N m EV false k v yy mo (inject_Z d) []).
    + cbn [bind s_y s_m s_d]. rewrite Qfloor_Z. reflexivity.
    + exact V.
    + exact Y.
    + apply (ok_check _ _ _ H).
    + reflexivity.
    + reflexivity.
    + reflexivity.
    + rewrite (leap_of_ok rnd N m EV) by (unfold okd in H; lia). rewrite <- Zle_Qle. unfold okd in H. lia.
Qed.

Lemma denotes_form y mo d a : denotes a y mo d -> okd y mo d ->
  (if is_short a then a = DShort y mo d else let '(k, v, yy) := long_year_parts rnd y in a = DLong k v yy mo d).
Proof.
  destruct a as [y' mo' d'|k v yy mo' d']; cbn [denotes is_short].
  - intros (-> & -> & ->) _. reflexivity.
  - intros (V & Y & L & -> & ->) H. change ((k - 1) * 361 + (v - 1) * 19 + yy) with (long_year k v yy) in L. subst y.
    rewrite (long_year_unique rnd N) by (unfold okd in H; lia). reflexivity.
Qed.

Definition form_of (short : bool) (y mo d : Z) : pdate :=
  if short then DShort y mo d else let '(k, v, yy) := long_year_parts rnd y in DLong k v yy mo d.
Lemma form_denotes short y mo d : okd y mo d -> denotes (form_of short y mo d) y mo d /\ is_short (form_of short y mo d) = short.
Proof.
  intro H. unfold form_of. destruct short; [cbn; tauto|].
  destruct (long_year_parts rnd y) as [[k v] yy] eqn:E. cbn [denotes is_short].
  pose proof (long_year_parts_ok rnd N y k v yy ltac:(unfold okd in H; lia) E) as K. unfold long_year in K. split; [tauto|reflexivity].
Qed.
Lemma denotes_form_of a y mo d : denotes a y mo d -> okd y mo d -> a = form_of (is_short a) y mo d.
Proof.
  intros D H. pose proof (denotes_form y mo d a D H) as K. unfold form_of. destruct (is_short a); [exact K|].
  destruct (long_year_parts rnd y) as [[k v] yy]. exact K.
Qed.

Lemma fromord_ok short y mo d : okd y mo d -> zrd y mo d <= 1096902 ->
  fromordinal rnd m short (zrd y mo d) = if inb (y, mo, d) refused_bdates then Err ValueError else Ok (form_of short y mo d).
Proof.
  intros H L. unfold fromordinal. pose proof H as (Y & M & D).
  pose proof (ord_date rnd N m EV y mo d Y M D L) as O. fold refused_bdates in O.
  destruct short.
  - rewrite O. destruct (inb _ _); [reflexivity|]. cbn [bind bdate_fields bd s_y s_m s_d s_t map app]. rewrite Qfloor_Z.
    apply new_short, H.
  - rewrite (ord_long rnd m), O. destruct (inb _ _); [reflexivity|]. cbn [bind].
    destruct (long_bd rnd N m EV y mo d Y M D) as (k & v & yy & E & LY & K & V & YY). rewrite E. cbn [bind bdate_fields ld l_k l_v l_y l_m l_d l_t map app].
    rewrite Qfloor_Z. rewrite new_long; [|exact V|exact YY|rewrite LY; exact H].
    unfold form_of. rewrite <- LY at 1. rewrite (long_year_unique rnd N) by lia. reflexivity.
Qed.
Lemma fromord_out short n : (-10000 <= n < -287 \/ 1096902 < n <= 1160000) -> fromordinal rnd m short n = Err AssertionError.
Proof. intro R. unfold fromordinal. rewrite (ord_out rnd N m EV) by exact R. reflexivity. Qed.

(** order of dates and of ordinals *)
Lemma earlier_rd y mo d y' mo' d' : okd y mo d -> okd y' mo' d' -> (bearlier y mo d y' mo' d' <-> zrd y mo d < zrd y' mo' d').
Proof.
  intros (Y & M & D) (Y' & M' & D'). pose proof (rd_range y mo d Y M D) as R. pose proof (rd_range y' mo' d' Y' M' D') as R'.
  assert (K : y < y' -> ystart (y + 1) <= ystart y') by (intro; pose proof (ystart_mono (y + 1) y' ltac:(lia) ltac:(lia)); lia).
  assert (K' : y' < y -> ystart (y' + 1) <= ystart y) by (intro; pose proof (ystart_mono (y' + 1) y ltac:(lia) ltac:(lia)); lia).
  destruct (Z.lt_trichotomy y y') as [L|[->|L]].
  - split; [lia|]. intros _. left. exact L.
  - assert (B : bearlier y' mo d y' mo' d' <-> (bmonth_pos mo < bmonth_pos mo' \/ mo = mo' /\ d < d')) by (unfold bearlier; lia).
    rewrite B. unfold zrd, zdbm, bmonth_pos, bmonth_len in *. destruct (zleap y'); cbn [b2z];
    destruct (Z.eqb_spec mo 0), (Z.eqb_spec mo' 0), (Z.ltb_spec mo 19), (Z.ltb_spec mo' 19), (Z.eqb_spec mo 19), (Z.eqb_spec mo' 19); lia.
  - split; [intros [B|B]; lia|lia].
Qed.

Lemma next_zrd y mo d y' mo' d' : -1843 <= y <= 1161 -> next_bday (leap_of rnd m) (y, mo, d) (y', mo', d') -> zrd y' mo' d' = zrd y mo d + 1.
Proof.
  intros Y X. apply (rd_next (y, mo, d) (y', mo', d')); [|exact Y]. apply (next_ext (leap_of rnd m)); [cbn [fst]; apply (leap_of_ok rnd N m EV), Y|exact X].
Qed.
Lemma toord_any a y mo d : denotes a y mo d -> okd y mo d ->
  exists e, (opens_earlier rnd m y /\ e = 1 \/ ~ opens_earlier rnd m y /\ e = 0) /\ toordinal rnd m a = Ok (zrd y mo d + fudge y - e).
Proof.
  intros D H. unfold toordinal. rewrite (short_form_ok a y mo d D H). cbn [bind].
  apply (ymd2ord_cases rnd N m EV); unfold okd in H; lia.
Qed.
Lemma fromord_inv short n b : -10000 <= n <= 1160000 -> fromordinal rnd m short n = Ok b ->
  exists y mo d, okd y mo d /\ n = zrd y mo d /\ n <= 1096902 /\ ~ In (y, mo, d) refused_bdates /\ b = form_of short y mo d.
Proof.
  intros R F. destruct (Z_lt_ge_dec n (-287)); [rewrite fromord_out in F by lia; discriminate|].
  destruct (Z_lt_ge_dec 1096902 n); [rewrite fromord_out in F by lia; discriminate|].
  destruct (rd_exists n ltac:(lia)) as (y & mo & d & Y & M & D & Q). exists y, mo, d. assert (H : okd y mo d) by (unfold okd; tauto).
  rewrite <- Q in F. rewrite fromord_ok in F by (exact H || lia). destruct (inb (y, mo, d) refused_bdates) eqn:I; [discriminate|].
  split; [exact H|]. split; [symmetry; exact Q|]. split; [lia|]. split; [intro J; apply inb_in in J; congruence|congruence].
Qed.

Section Ordered.
Hypothesis O : naw_ruz_order rnd m.
Lemma toord_ok a y mo d : denotes a y mo d -> okd y mo d -> toordinal rnd m a = Ok (zord y mo d).
Proof.
  intros D H. unfold toordinal. rewrite (short_form_ok a y mo d D H). cbn [bind]. apply (ymd2ord_ok rnd N m EV); [exact O| | |]; unfold okd in H; lia.
Qed.
Lemma weekday_ok a y mo d : denotes a y mo d -> okd y mo d -> weekday rnd m a = Ok ((zord y mo d + 1) mod 7) /\ isoweekday rnd m a = Ok ((zord y mo d + 1) mod 7 + 1).
Proof.
  intros D H. unfold weekday, isoweekday. rewrite (short_form_ok a y mo d D H). cbn [bind].
  rewrite (dow_ok rnd N m EV O) by (unfold okd in H; lia). cbn [bind]. split; reflexivity.
Qed.
Lemma isocal_ok a y mo d : denotes a y mo d -> okd y mo d -> isocalendar rnd m a = year_week_day rnd m false y mo d.
Proof. intros D H. unfold isocalendar. rewrite (short_form_ok a y mo d D H). reflexivity. Qed.

Lemma add_ok a y mo d n : denotes a y mo d -> okd y mo d ->
  date_add rnd m a n = if (77 <? zord y mo d + n) && (zord y mo d + n <=? 1097267) then fromordinal rnd m (is_short a) (zord y mo d + n) else Err OverflowError.
Proof. intros D H. unfold date_add. rewrite (toord_ok a y mo d D H). reflexivity. Qed.
End Ordered.
End DateP.
