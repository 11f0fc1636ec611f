(** PropertiesDate.v -- C12 to C21 and C48 (dates): ordinals, order, hashing, arithmetic, weeks, pickling, replace. *)
From Coq Require Import ZArith QArith Qround Qabs List Bool Lia.
From Coq Require Import ZifyBool ZifyNat ZifyN.
From Verif Require Import Base Flt BaseModel BadiModel SpecBadi BadiProofs BadiProofs2 BadiProofs3 DecProofs BadiProofs4 LongYear LongProofs BadiProofs5
  TduModel DateModel SpecDate TduProofs TduProofs2 TduProofs3 DateProofs SampleSun PropertiesBadi.
Import ListNotations.
Local Open Scope Z_scope.
Ltac Zify.zify_post_hook ::= Z.div_mod_to_equations.

(** Both hypotheses on sunsets can be met together, whatever the rounding. *)
Example Date_hypotheses_met : Nearest b64 /\ evening b64 sample_sun /\ naw_ruz_order b64 sample_sun.
Proof. exact (conj b64_nearest (conj (sample_evening b64) (sample_order b64 b64_nearest))). Qed.

Lemma sup_ok rnd m a y mo d : Nearest rnd -> evening rnd m -> supported rnd m a y mo d -> denotes a y mo d /\ okd y mo d /\ -1842 <= y.
Proof. intros N E S. pose proof (supported_ok rnd N m E a y mo d S). destruct S. tauto. Qed.

Lemma late_bound y mo d : okd y mo d -> (y <= 1160 \/ (mo = 1 /\ d = 1)) -> zrd y mo d <= 1096902.
Proof.
  intros (Y & M & D) L. pose proof (rd_range y mo d Y M D). assert (Q : ystart 1161 = 1096902) by (vm_compute; reflexivity).
  destruct (Z.eq_dec y 1161) as [->|]; [destruct L as [L|[-> ->]]; [lia|rewrite zrd_11; lia]|].
  pose proof (ystart_mono (y + 1) 1161 ltac:(lia) ltac:(lia)). lia.
Qed.
Lemma late_bound2 mo d : okd 1161 mo d -> ~ (mo = 1 /\ d = 1) -> 1096902 < zrd 1161 mo d.
Proof.
  intros K R. pose proof K as (Y & M & D). pose proof (rd_range 1161 mo d Y M D). assert (Q : ystart 1161 = 1096902) by (vm_compute; reflexivity).
  destruct (Z.eq_dec (zrd 1161 mo d) 1096902) as [E|]; [|lia]. exfalso. apply R.
  assert (X : zrd 1161 mo d = zrd 1161 1 1) by (rewrite zrd_11; lia).
  apply rd_inj in X; try assumption; try lia; [split; congruence|vm_compute; split; discriminate].
Qed.
Lemma refused_early y mo d : In (y, mo, d) refused_bdates -> y <= -261.
Proof.
  intro I. assert (K : forallb (fun p => fst (fst p) <=? -261) refused_bdates = true) by (vm_compute; reflexivity).
  pose proof (proj1 (forallb_forall _ _) K _ I) as H. cbn [fst] in H. lia.
Qed.

(** ** C11 (date objects): what date(...) accepts *)
Theorem C11_date_short : forall rnd m y mo d, Nearest rnd -> evening rnd m -> -1842 <= y <= 1161 ->
  (valid_bday (leap_of rnd m) y mo d -> date_new rnd m [y; mo; d] = Ok (DShort y mo d)) /\
  (~ valid_bday (leap_of rnd m) y mo d -> date_new rnd m [y; mo; d] = Err AssertionError).
Proof.
  intros rnd m y mo d N E Y. split; intro V; unfold date_new; change (sd y mo d) with (bd y mo d).
  - rewrite (proj2 (valid_iff rnd N m E y mo d ltac:(lia)) V). reflexivity.
  - rewrite (invalid_error rnd N m E y mo d ltac:(lia) V). reflexivity.
Qed.
Print Assumptions C11_date_short.
Theorem C11_date_long : forall rnd m k v yy mo d, Nearest rnd -> evening rnd m ->
  let y := (k - 1) * 361 + (v - 1) * 19 + yy in -1842 <= y <= 1161 -> 1 <= v <= 19 -> 1 <= yy <= 19 ->
  (valid_bday (leap_of rnd m) y mo d -> date_new rnd m [k; v; yy; mo; d] = Ok (DLong k v yy mo d)) /\
  (~ valid_bday (leap_of rnd m) y mo d -> date_new rnd m [k; v; yy; mo; d] = Err AssertionError).
Proof.
  intros rnd m k v yy mo d N E y Y V YY. unfold date_new, lgd. rewrite (check_long_short rnd m) by (unfold long_year; lia).
  change (long_year k v yy) with y. change {| s_y := y; s_m := mo; s_d := inject_Z d; s_t := [] |} with (bd y mo d).
  split; intro VB.
  - rewrite (proj2 (valid_iff rnd N m E y mo d ltac:(lia)) VB). reflexivity.
  - rewrite (invalid_error rnd N m E y mo d ltac:(lia) VB). reflexivity.
Qed.
Print Assumptions C11_date_long.
(** The other numbers of fields are rejected. *)
Theorem C11_date_fields : forall rnd m l, length l <> 3%nat -> length l <> 5%nat -> date_new rnd m l = Err AssertionError.
Proof.
  intros rnd m l A B. unfold date_new. destruct l as [|a [|b [|c [|d [|e [|f l]]]]]]; try reflexivity; cbn [length] in *; lia.
Qed.
Print Assumptions C11_date_fields.
Example C11_date_case : date_new b64 sample_sun [181; 0; 4] = Ok (DShort 181 0 4) /\ date_new b64 sample_sun [181; 0; 5] = Err AssertionError /\
  date_new b64 sample_sun [1; 10; 10; 0; 4] = Ok (DLong 1 10 10 0 4) /\ date_new b64 sample_sun [181; 1] = Err AssertionError.
Proof. vm_compute. tauto. Qed.

(** ** C12: ordinals *)
(** toordinal() counts days, in either form, except in the three years of [stale_years]. *)
Theorem C12_toordinal_counts_days : forall rnd m a y mo d, Nearest rnd -> evening rnd m -> naw_ruz_order rnd m -> supported rnd m a y mo d ->
  ~ In y stale_years -> exists r, rata_die rnd m y mo d r /\ toordinal rnd m a = Ok r.
Proof.
  intros rnd m a y mo d N E O S ST. destruct (sup_ok rnd m a y mo d N E S) as (D & K & _). exists (zrd y mo d).
  split; [apply (rata_die_zrd rnd N m E); [apply K|apply K|reflexivity]|rewrite <- (zord_steady y mo d ST); apply (toord_ok rnd N m E O); assumption].
Qed.
Print Assumptions C12_toordinal_counts_days.
(** The next calendar day has the next ordinal. *)
Theorem C12_next_day : forall rnd m a y mo d b y' mo' d', Nearest rnd -> evening rnd m -> naw_ruz_order rnd m ->
  supported rnd m a y mo d -> supported rnd m b y' mo' d' -> next_bday (leap_of rnd m) (y, mo, d) (y', mo', d') ->
  ~ In y stale_years -> ~ In y' stale_years -> exists n, toordinal rnd m a = Ok n /\ toordinal rnd m b = Ok (n + 1).
Proof.
  intros rnd m a y mo d b y' mo' d' N E O S S' X ST ST'. destruct (sup_ok rnd m a y mo d N E S) as (D & K & _). destruct (sup_ok rnd m b y' mo' d' N E S') as (D' & K' & _).
  exists (zrd y mo d). rewrite (toord_ok rnd N m E O a y mo d D K), (toord_ok rnd N m E O b y' mo' d' D' K'), !zord_steady by assumption. split; [reflexivity|]. f_equal.
  apply (next_zrd rnd N m E); [apply K|exact X].
Qed.
Print Assumptions C12_next_day.
(** Without the assumption on the order of sunsets: exact value, and no gap inside a year. *)
Theorem C12_exact_value : forall rnd m a y mo d, Nearest rnd -> evening rnd m -> supported rnd m a y mo d ->
  exists r e, rata_die rnd m y mo d r /\ (opens_earlier rnd m y /\ e = 1 \/ ~ opens_earlier rnd m y /\ e = 0) /\
    toordinal rnd m a = Ok (r + (if existsb (Z.eqb y) [-1796; -1792; -1788] then 1 else 0) - e).
Proof.
  intros rnd m a y mo d N E S. destruct (sup_ok rnd m a y mo d N E S) as (D & K & _).
  destruct (toord_any rnd N m E a y mo d D K) as (e & C & T). exists (zrd y mo d), e.
  split; [apply (rata_die_zrd rnd N m E); [apply K|apply K|reflexivity]|]. split; [exact C|exact T].
Qed.
Print Assumptions C12_exact_value.
Theorem C12_same_year : forall rnd m a y mo d b mo' d', Nearest rnd -> evening rnd m ->
  supported rnd m a y mo d -> supported rnd m b y mo' d' ->
  exists n n', toordinal rnd m a = Ok n /\ toordinal rnd m b = Ok n' /\
    n' - n = bday_of_year (leap_of rnd m y) mo' d' - bday_of_year (leap_of rnd m y) mo d.
Proof.
  intros rnd m a y mo d b mo' d' N E S S'.
  destruct (C12_exact_value rnd m a y mo d N E S) as (r & e & (z & Z1 & ->) & C & T).
  destruct (C12_exact_value rnd m b y mo' d' N E S') as (r' & e' & (z' & Z1' & ->) & C' & T').
  do 2 eexists. split; [exact T|]. split; [exact T'|]. assert (z' = z) by congruence. subst z'.
  assert (e = e') by (destruct C as [[C ->]|[C ->]], C' as [[C' ->]|[C' ->]]; tauto || reflexivity). lia.
Qed.
Print Assumptions C12_same_year.
(** In the three years of [stale_years] every ordinal is one too high: the first day is two after the day before
    it, and the last day has the ordinal of the day after it. *)
Theorem C12_stale_refuted : forall rnd m y, Nearest rnd -> evening rnd m -> naw_ruz_order rnd m -> In y stale_years ->
  (forall a mo d, supported rnd m a y mo d -> exists r, rata_die rnd m y mo d r /\ toordinal rnd m a = Ok (r + 1)) /\
  (exists n, toordinal rnd m (DShort (y - 1) 19 19) = Ok n /\ toordinal rnd m (DShort y 1 1) = Ok (n + 2)) /\
  (exists n, toordinal rnd m (DShort y 19 19) = Ok n /\ toordinal rnd m (DShort (y + 1) 1 1) = Ok n).
Proof.
  intros rnd m y N E O I. pose proof (proj1 (fudge_in y) I) as F.
  assert (Y : -1796 <= y <= -1788) by (cbn in I; lia).
  assert (F0 : fudge (y - 1) = 0 /\ fudge (y + 1) = 0) by (cbn in I; decompose [or] I; subst; try tauto; split; reflexivity).
  assert (OK : forall y', -1843 <= y' <= 1161 -> okd y' 1 1 /\ okd y' 19 19).
  { intros y' Y'. unfold okd, bmonth_len. cbn [Z.eqb Z.compare Pos.compare]. repeat split; try lia; destruct (zleap y'); cbn; lia. }
  assert (NX : forall y', -1843 <= y' <= 1161 -> zrd (y' + 1) 1 1 = zrd y' 19 19 + 1) by (intros y' Y'; apply (next_zrd rnd N m E); [exact Y'|constructor]).
  split; [|split].
  - intros a mo d S. destruct (sup_ok rnd m a y mo d N E S) as (D & K & _). exists (zrd y mo d).
    split; [apply (rata_die_zrd rnd N m E); [apply K|apply K|reflexivity]|]. rewrite (toord_ok rnd N m E O a y mo d D K). unfold zord. rewrite F. reflexivity.
  - exists (zrd (y - 1) 19 19). destruct (OK (y - 1) ltac:(lia)) as [_ K1]. destruct (OK y ltac:(lia)) as [K2 _].
    rewrite (toord_ok rnd N m E O (DShort (y - 1) 19 19) (y - 1) 19 19), (toord_ok rnd N m E O (DShort y 1 1) y 1 1) by (exact K1 || exact K2 || (cbn; tauto)).
    unfold zord. destruct F0 as [F0 _]. rewrite F, F0. pose proof (NX (y - 1) ltac:(lia)) as X. replace (y - 1 + 1) with y in X by lia. split; f_equal; lia.
  - exists (zrd y 19 19 + 1). destruct (OK (y + 1) ltac:(lia)) as [K1 _]. destruct (OK y ltac:(lia)) as [_ K2].
    rewrite (toord_ok rnd N m E O (DShort (y + 1) 1 1) (y + 1) 1 1), (toord_ok rnd N m E O (DShort y 19 19) y 19 19) by (exact K1 || exact K2 || (cbn; tauto)).
    unfold zord. destruct F0 as [_ F0]. rewrite F, F0. pose proof (NX y ltac:(lia)) as X. split; f_equal; lia.
Qed.
Print Assumptions C12_stale_refuted.
(** The order assumption is needed: with admissible sunsets that break it, consecutive days can have the same ordinal. *)
Definition late_sun (jd _ _ : Q) : Q := if Qfloor (jd + 1) =? HI (ystart 182 + 1721423) then (74 # 100)%Q
  else if Qfloor (jd + 1) =? 1721500 then (745 # 1000)%Q else (3 # 4)%Q.
Theorem C12_order_needed_refuted : evening b64 late_sun /\
  ~ (forall a y mo d b y' mo' d', supported b64 late_sun a y mo d -> supported b64 late_sun b y' mo' d' ->
      next_bday (leap_of b64 late_sun) (y, mo, d) (y', mo', d') -> ~ In y stale_years -> ~ In y' stale_years ->
      exists n, toordinal b64 late_sun a = Ok n /\ toordinal b64 late_sun b = Ok (n + 1)).
Proof.
  split.
  - intros H jd _ _. unfold late_sun. destruct (_ =? _); [|destruct (_ =? _)]; split; discriminate.
  - intro H. destruct (H (DShort 181 19 19) 181 19 19 (DShort 182 1 1) 182 1 1) as (n & A & B).
    + split; [cbn; tauto|]. split; [lia|]. split; [lia|vm_compute; split; discriminate].
    + split; [cbn; tauto|]. split; [lia|]. split; [lia|vm_compute; split; discriminate].
    + exact (nb_year _ 181).
    + cbn. lia.
    + cbn. lia.
    + assert (A' : toordinal b64 late_sun (DShort 181 19 19) = Ok 739328) by (vm_compute; reflexivity).
      assert (B' : toordinal b64 late_sun (DShort 182 1 1) = Ok 739328) by (vm_compute; reflexivity).
      rewrite A' in A. rewrite B' in B. clear H A' B'. assert (n = 739328) by congruence. assert (n + 1 = 739328) by congruence. lia.
Qed.
Print Assumptions C12_order_needed_refuted.
Theorem C12_ends : forall rnd m, Nearest rnd -> evening rnd m -> naw_ruz_order rnd m ->
  toordinal rnd m (DShort (-1842) 1 1) = Ok 78 /\ toordinal rnd m (DShort 1161 19 19) = Ok 1097267.
Proof.
  intros rnd m N E O. split.
  - rewrite (toord_ok rnd N m E O (DShort (-1842) 1 1) (-1842) 1 1); [vm_compute; reflexivity|cbn; tauto|vm_compute; repeat split; discriminate].
  - rewrite (toord_ok rnd N m E O (DShort 1161 19 19) 1161 19 19); [vm_compute; reflexivity|cbn; tauto|vm_compute; repeat split; discriminate].
Qed.
Print Assumptions C12_ends.
Example C12_case : supported b64 sample_sun (DShort 181 19 19) 181 19 19 /\ supported b64 sample_sun (DLong 1 10 11 1 1) 182 1 1 /\
  next_bday (leap_of b64 sample_sun) (181, 19, 19) (182, 1, 1) /\
  toordinal b64 sample_sun (DShort 181 19 19) = Ok 739328 /\ toordinal b64 sample_sun (DLong 1 10 11 1 1) = Ok 739329.
Proof.
  split; [|split; [|split; [exact (nb_year _ 181)|vm_compute; tauto]]]; (split; [cbn; lia|]; split; [lia|]; split; [lia|vm_compute; split; discriminate]).
Qed.

(** ** C13: fromordinal *)
(** fromordinal(d.toordinal()) is d, unless d is one of the 22 refused days, lies after the first day of 1161 or is in a stale year. *)
Theorem C13_roundtrip : forall rnd m a y mo d, Nearest rnd -> evening rnd m -> naw_ruz_order rnd m -> supported rnd m a y mo d ->
  (y <= 1160 \/ (mo = 1 /\ d = 1)) -> ~ In (y, mo, d) refused_bdates -> ~ In y stale_years ->
  exists n, toordinal rnd m a = Ok n /\ fromordinal rnd m (is_short a) n = Ok a.
Proof.
  intros rnd m a y mo d N E O S L R ST. destruct (sup_ok rnd m a y mo d N E S) as (D & K & _). exists (zrd y mo d).
  split; [rewrite <- (zord_steady y mo d ST); apply (toord_ok rnd N m E O); assumption|]. rewrite (fromord_ok rnd N m E) by (exact K || (apply late_bound; assumption)).
  destruct (inb (y, mo, d) refused_bdates) eqn:I; [exfalso; apply R, inb_in, I|]. f_equal. symmetry. apply (denotes_form_of rnd N); assumption.
Qed.
Print Assumptions C13_roundtrip.
(** In a stale year fromordinal(d.toordinal()) is the day after d. *)
Theorem C13_stale_refuted : forall rnd m a y mo d y' mo' d' short, Nearest rnd -> evening rnd m -> naw_ruz_order rnd m -> supported rnd m a y mo d ->
  In y stale_years -> next_bday (leap_of rnd m) (y, mo, d) (y', mo', d') ->
  exists n b, toordinal rnd m a = Ok n /\ fromordinal rnd m short n = Ok b /\ denotes b y' mo' d' /\ is_short b = short.
Proof.
  intros rnd m a y mo d y' mo' d' short N E O S I X. destruct (sup_ok rnd m a y mo d N E S) as (D & K & _).
  assert (Y : y = -1796 \/ y = -1792 \/ y = -1788) by (cbn in I; lia).
  assert (NX := next_zrd rnd N m E y mo d y' mo' d' ltac:(apply K) X).
  assert (K' : okd y' mo' d' /\ (y' = y \/ y' = y + 1)).
  { destruct K as (K1 & K2 & K3). rewrite <- (leap_of_ok rnd N m E) in K3 by lia. unfold okd. 
    inversion X; subst; rewrite <- ?(leap_of_ok rnd N m E) by lia; unfold bmonth_len in *; cbn [Z.eqb Z.compare Pos.compare] in *; repeat match goal with |- context [?a =? ?b] => destruct (Z.eqb_spec a b) end; try destruct (leap_of rnd m _); repeat split; try lia. }
  destruct K' as [K' Y']. exists (zrd y mo d + 1), (form_of rnd short y' mo' d'). pose proof (form_denotes rnd N short y' mo' d' K').
  split; [rewrite (toord_ok rnd N m E O a y mo d D K); unfold zord; rewrite (proj1 (fudge_in y) I); reflexivity|]. split; [|tauto].
  rewrite <- NX. rewrite (fromord_ok rnd N m E) by (exact K' || (apply late_bound; [exact K'|lia])).
  destruct (inb (y', mo', d') refused_bdates) eqn:R; [|reflexivity]. exfalso. apply inb_in in R.
  assert (G : forallb (fun p => -1787 <? fst (fst p)) refused_bdates = true) by (vm_compute; reflexivity).
  pose proof (proj1 (forallb_forall _ _) G _ R) as G1. cbn [fst] in G1. lia.
Qed.
Print Assumptions C13_stale_refuted.
Lemma refused_steady y mo d : In (y, mo, d) refused_bdates -> ~ In y stale_years.
Proof.
  intros R I. assert (G : forallb (fun p => -1787 <? fst (fst p)) refused_bdates = true) by (vm_compute; reflexivity).
  pose proof (proj1 (forallb_forall _ _) G _ R) as G1. cbn in G1, I. lia.
Qed.
Theorem C13_refused : forall rnd m a y mo d short, Nearest rnd -> evening rnd m -> naw_ruz_order rnd m -> supported rnd m a y mo d ->
  (In (y, mo, d) refused_bdates -> exists n, toordinal rnd m a = Ok n /\ fromordinal rnd m short n = Err ValueError) /\
  (y = 1161 -> ~ (mo = 1 /\ d = 1) -> exists n, toordinal rnd m a = Ok n /\ fromordinal rnd m short n = Err AssertionError).
Proof.
  intros rnd m a y mo d short N E O S. destruct (sup_ok rnd m a y mo d N E S) as (D & K & _). split; [intro R; exists (zrd y mo d)|intros -> R; exists (zrd 1161 mo d)].
  - split; [rewrite <- (zord_steady y mo d (refused_steady y mo d R)); apply (toord_ok rnd N m E O); assumption|]. 
    assert (L : y <= 1160) by (apply refused_early in R; lia).
    rewrite (fromord_ok rnd N m E) by (exact K || (apply late_bound; [exact K|left; exact L])). 
    destruct (inb (y, mo, d) refused_bdates) eqn:I; [reflexivity|]. apply inb_in in R. congruence.
  - split; [rewrite <- (zord_steady 1161 mo d) by (cbn; lia); apply (toord_ok rnd N m E O); assumption|]. apply (fromord_out rnd N m E).
    pose proof (late_bound2 mo d K R). destruct K as (Y & M & DD). pose proof (rd_range 1161 mo d Y M DD). pose proof (ystart_range (1161 + 1) ltac:(lia)). lia.
Qed.
Print Assumptions C13_refused.
(** It never returns a wrong date: whatever fromordinal returns is the day of that number, has the requested form and, outside
    the stale years, that ordinal. *)
Theorem C13_never_wrong : forall rnd m short n b, Nearest rnd -> evening rnd m -> naw_ruz_order rnd m -> -10000 <= n <= 1160000 ->
  fromordinal rnd m short n = Ok b -> is_short b = short /\ exists y mo d, denotes b y mo d /\ rata_die rnd m y mo d n /\ (~ In y stale_years -> toordinal rnd m b = Ok n).
Proof.
  intros rnd m short n b N E O R F. destruct (fromord_inv rnd N m E short n b R F) as (y & mo & d & K & -> & _ & _ & ->).
  destruct (form_denotes rnd N short y mo d K) as [D I]. split; [exact I|].
  exists y, mo, d. split; [exact D|]. split; [apply (rata_die_zrd rnd N m E); [apply K|apply K|reflexivity]|].
  intro ST. rewrite <- (zord_steady y mo d ST). apply (toord_ok rnd N m E O); assumption.
Qed.
Print Assumptions C13_never_wrong.
Theorem C13_range : forall rnd m short n, Nearest rnd -> evening rnd m -> (-10000 <= n < -287 \/ 1096902 < n <= 1160000) ->
  fromordinal rnd m short n = Err AssertionError.
Proof. intros rnd m short n N E R. exact (fromord_out rnd N m E short n R). Qed.
Print Assumptions C13_range.
Example C13_case : supported b64 sample_sun (DLong 1 10 10 0 4) 181 0 4 /\ ~ In (181, 0, 4) refused_bdates /\
  fromordinal b64 sample_sun false 739309 = Ok (DLong 1 10 10 0 4) /\
  supported b64 sample_sun (DShort (-261) 11 12) (-261) 11 12 /\ In (-261, 11, 12) refused_bdates /\
  fromordinal b64 sample_sun true 1096903 = Err AssertionError.
Proof.
  split; [split; [cbn; lia|]; split; [lia|]; split; [lia|vm_compute; split; discriminate]|].
  split; [intro I; apply inb_in in I; vm_compute in I; discriminate|]. split; [vm_compute; reflexivity|].
  split; [split; [cbn; lia|]; split; [lia|]; split; [lia|vm_compute; split; discriminate]|].
  split; [apply inb_in; vm_compute; reflexivity|vm_compute; reflexivity].
Qed.
