(** PropertiesObj.v -- C97: operators on operands of different classes. *)
From Coq Require Import ZArith QArith Qround Qabs List Bool Lia Lqa String.
From Coq Require Import ZifyBool.
From Verif Require Import Base Flt QUtil BaseModel MiscModel BadiModel BaseProofs SunProofs SpecBadi BadiProofs BadiProofs2 BadiProofs3 DecProofs BadiProofs4 LongYear LongProofs BadiProofs5
  TduModel DateModel SpecDate TduProofs TduProofs2 TduProofs3 DateProofs SampleSun PropertiesBadi PropertiesDate PropertiesDate2
  TimeModel SpecTime TimeProofs PropertiesTime PropertiesDt ObjModel SpecObj.
Import ListNotations.
Local Open Scope Z_scope.
Ltac Zify.zify_post_hook ::= Z.div_mod_to_equations.

(** Objects of different classes are not equal and cannot be ordered, whichever of them stands on the left: a datetime
    against a date too, although a datetime is a date and date compares with its instances. *)
Theorem C97_unlike : forall rnd m v w, class v <> class w ->
  compare_op rnd m EQ false v w = Ok false /\ compare_op rnd m NE false v w = Ok true /\
  forall op, In op [LT; LE; GT; GE] -> compare_op rnd m op false v w = Err TypeError.
Proof.
  intros rnd m v w K. split; [|split].
  1, 2: destruct v, w; try reflexivity; exfalso; apply K; reflexivity.
  intros op I. cbn [In] in I. destruct I as [<-|[<-|[<-|[<-|[]]]]]; destruct v, w; try reflexivity; exfalso; apply K; reflexivity.
Qed.
Print Assumptions C97_unlike.

(** Two dates, two datetimes and two times are compared by the methods of their class, whose laws are C14, C15, C23, C24 and
    C26. *)
Theorem C97_alike : forall rnd m same (a a' : pdate) (b b' : pdt) (c c' : ptime),
  (compare_op rnd m EQ same (ODate a) (ODate a') = date_eq a a' /\ compare_op rnd m LT same (ODate a) (ODate a') = date_lt a a' /\
   compare_op rnd m LE same (ODate a) (ODate a') = date_le a a' /\ compare_op rnd m GT same (ODate a) (ODate a') = date_gt a a' /\
   compare_op rnd m GE same (ODate a) (ODate a') = date_ge a a') /\
  (compare_op rnd m EQ same (ODt b) (ODt b') = dt_eq rnd m b b' /\ compare_op rnd m LT same (ODt b) (ODt b') = dt_lt rnd m b b' /\
   compare_op rnd m LE same (ODt b) (ODt b') = dt_le rnd m b b' /\ compare_op rnd m GT same (ODt b) (ODt b') = dt_gt rnd m b b' /\
   compare_op rnd m GE same (ODt b) (ODt b') = dt_ge rnd m b b') /\
  (compare_op rnd m EQ same (OTime c) (OTime c') = time_eq c c' /\ compare_op rnd m LT same (OTime c) (OTime c') = time_lt c c' /\
   compare_op rnd m LE same (OTime c) (OTime c') = time_le c c' /\ compare_op rnd m GT same (OTime c) (OTime c') = time_gt c c' /\
   compare_op rnd m GE same (OTime c) (OTime c') = time_ge c c').
Proof. intros. repeat split. Qed.
Print Assumptions C97_alike.

(** Of any two objects, != is the opposite of ==, and is refused with the same exception. *)
Theorem C97_not_equal : forall rnd m same v w, 
  compare_op rnd m NE same v w = (match compare_op rnd m EQ same v w with Ok b => Ok (negb b) | Err e => Err e end).
Proof.
  intros rnd m same v w. unfold compare_op. destruct v, w; cbn [proper_subclass method date_method dt_method time_method zone_method delta_method as_date reflected or_else negated last_resort bind];
    try reflexivity; unfold bind; match goal with |- (match ?e with Ok _ => _ | Err _ => _ end) = _ => destruct e end; reflexivity.
Qed.
Print Assumptions C97_not_equal.

(** Timezones are equal when their offsets are, and are never ordered. *)
Theorem C97_zones : forall rnd m same a b, compare_op rnd m EQ same (OZone a) (OZone b) = Ok (z_off a =? z_off b) /\
  forall op, In op [LT; LE; GT; GE] -> compare_op rnd m op same (OZone a) (OZone b) = Err TypeError.
Proof.
  intros rnd m same a b. split; [reflexivity|]. intros op I. cbn [In] in I. destruct I as [<-|[<-|[<-|[<-|[]]]]]; reflexivity.
Qed.
Print Assumptions C97_zones.

(** A sum does not depend on the order of its terms, and is a TypeError unless one of them is a timedelta and the other a
    date, a datetime or a timedelta; so is a difference unless ... *)
Theorem C97_sums : forall rnd m v w, add_op rnd m v w = add_op rnd m w v /\
  (~ (class v = "timedelta"%string /\ addable w) -> ~ (class w = "timedelta"%string /\ addable v) -> add_op rnd m v w = Err TypeError).
Proof.
  intros rnd m v w. unfold addable. split.
  - destruct v, w; try reflexivity. cbn. rewrite Z.add_comm. reflexivity.
  - intros H1 H2. destruct v, w; try reflexivity; exfalso; cbn [class] in *; tauto.
Qed.
Print Assumptions C97_sums.
(** ... the second is a timedelta and the first can be added to, or both are dates, or both datetimes, or a datetime is
    taken from a date.  The last is the odd one: the reverse difference is refused. *)
Theorem C97_differences : forall rnd m v w, 
  ~ (class w = "timedelta"%string /\ addable v) -> ~ (class v = class w /\ (class v = "date"%string \/ class v = "datetime"%string)) ->
  ~ (class v = "date"%string /\ class w = "datetime"%string) -> sub_op rnd m v w = Err TypeError.
Proof. intros rnd m v w. unfold addable. intros H1 H2 H3. destruct v, w; try reflexivity; exfalso; cbn [class] in *; tauto. Qed.
Print Assumptions C97_differences.
(** A date less a datetime is the number of whole days from the day of the datetime, whatever its time of day and its zone;
    a datetime less a date is a TypeError. *)
Theorem C97_date_less_datetime_refuted : forall rnd m a b y mo d y' mo' d' r r', Nearest rnd -> evening rnd m -> naw_ruz_order rnd m ->
  supported rnd m a y mo d -> supported rnd m (dt_d b) y' mo' d' -> rata_die rnd m y mo d r -> rata_die rnd m y' mo' d' r' -> ~ In y stale_years -> ~ In y' stale_years ->
  sub_op rnd m (ODate a) (ODt b) = Ok (ODelta ((r - r') * 86400000000)) /\ sub_op rnd m (ODt b) (ODate a) = Err TypeError.
Proof.
  intros rnd m a b y mo d y' mo' d' r r' N E O S S' R R' ST ST'. split; [|reflexivity].
  destruct (sup_ok rnd m a y mo d N E S) as (D & K & _). destruct (sup_ok rnd m (dt_d b) y' mo' d' N E S') as (D' & K' & _).
  apply (rata_die_zrd rnd N m E) in R; [|apply K|apply K]. apply (rata_die_zrd rnd N m E) in R'; [|apply K'|apply K']. subst r r'.
  unfold sub_op. cbn [sub_method]. unfold date_sub. rewrite (toord_ok rnd N m E O a y mo d D K), (toord_ok rnd N m E O (dt_d b) y' mo' d' D' K'). cbn [bind].
  rewrite (zord_steady y mo d ST), (zord_steady y' mo' d' ST'). reflexivity.
Qed.
Print Assumptions C97_date_less_datetime_refuted.

(** Of a timedelta only the days are added to a date, a part of a day being rounded down; ... *)
Theorem C97_part_days : forall rnd m a y mo d r td c, Nearest rnd -> evening rnd m -> naw_ruz_order rnd m -> supported rnd m a y mo d -> rata_die rnd m y mo d r -> ~ In y stale_years ->
  (add_op rnd m (ODate a) (ODelta td) = Ok c -> exists b y' mo' d' r', c = ODate b /\ supported rnd m b y' mo' d' /\ rata_die rnd m y' mo' d' r' /\ is_short b = is_short a /\
     r' * 86400000000 <= r * 86400000000 + td < (r' + 1) * 86400000000) /\
  (sub_op rnd m (ODate a) (ODelta td) = Ok c -> exists b y' mo' d' r', c = ODate b /\ supported rnd m b y' mo' d' /\ rata_die rnd m y' mo' d' r' /\ is_short b = is_short a /\
     (r' - 1) * 86400000000 < r * 86400000000 - td <= r' * 86400000000).
Proof.
  intros rnd m a y mo d r td c N E O S R ST. destruct (sup_ok rnd m a y mo d N E S) as (D & K & _).
  apply (rata_die_zrd rnd N m E) in R; [|apply K|apply K]. subst r.
  assert (G : forall n b, date_add rnd m a n = Ok b -> exists y' mo' d', supported rnd m b y' mo' d' /\ rata_die rnd m y' mo' d' (zrd y mo d + n) /\ is_short b = is_short a).
  { intros n b B. destruct (add_inv rnd m a y mo d n b N E O D K B) as (y' & mo' & d' & K' & Y' & Z' & _ & D' & F). rewrite (zord_steady y mo d ST) in Z'.
    exists y', mo', d'. split; [split; [exact D'|split; [unfold okd in K'; lia|apply (ok_valid rnd N m E), K']]|]. split; [|exact F]. apply (rata_die_zrd rnd N m E); [apply K'|apply K'|lia]. }
  unfold add_op, sub_op. cbn [add_method sub_method]. unfold DAY. split; intro A.
  - destruct (date_add rnd m a (td / 86400000000)) as [b|] eqn:B; [|discriminate]. injection A as <-. destruct (G _ _ B) as (y' & mo' & d' & S' & R' & F).
    exists b, y', mo', d', (zrd y mo d + td / 86400000000). repeat (split; [assumption || reflexivity|]). lia.
  - destruct (date_add rnd m a (- (td / 86400000000))) as [b|] eqn:B; [|discriminate]. injection A as <-. destruct (G _ _ B) as (y' & mo' & d' & S' & R' & F).
    exists b, y', mo', d', (zrd y mo d + - (td / 86400000000)). repeat (split; [assumption || reflexivity|]). lia.
Qed.
Print Assumptions C97_part_days.
(** ... so taking a timedelta away is not adding its opposite: unless the timedelta is of whole days, the first gives the day
    after the second. *)
Theorem C97_minus_refuted : forall rnd m a y mo d td b c, Nearest rnd -> evening rnd m -> naw_ruz_order rnd m -> supported rnd m a y mo d -> ~ In y stale_years ->
  sub_op rnd m (ODate a) (ODelta td) = Ok (ODate b) -> add_op rnd m (ODate a) (ODelta (- td)) = Ok (ODate c) ->
  (td mod 86400000000 = 0 -> b = c) /\
  (td mod 86400000000 <> 0 -> exists y' mo' d' y2 mo2 d2 r, supported rnd m b y' mo' d' /\ supported rnd m c y2 mo2 d2 /\ rata_die rnd m y' mo' d' (r + 1) /\ rata_die rnd m y2 mo2 d2 r).
Proof.
  intros rnd m a y mo d td b c N E O S ST B C. split; intro T.
  - unfold sub_op, add_op in *. cbn [sub_method add_method] in *. unfold DAY in *. replace (- td / 86400000000) with (- (td / 86400000000)) in C by lia. congruence.
  - destruct (sup_ok rnd m a y mo d N E S) as (_ & K & _).
    assert (R : rata_die rnd m y mo d (zrd y mo d)) by (apply (rata_die_zrd rnd N m E); [apply K|apply K|reflexivity]).
    destruct (C97_part_days rnd m a y mo d _ td (ODate b) N E O S R ST) as [_ P]. destruct (P B) as (b' & y1 & mo1 & d1 & r1 & Q1 & S1 & R1 & _ & I1). injection Q1 as <-.
    destruct (C97_part_days rnd m a y mo d _ (- td) (ODate c) N E O S R ST) as [P' _]. destruct (P' C) as (c' & y2 & mo2 & d2 & r2 & Q2 & S2 & R2 & _ & I2). injection Q2 as <-.
    assert (W : r1 = r2 + 1) by lia. subst r1.
    exists y1, mo1, d1, y2, mo2, d2, r2. tauto.
Qed.
Print Assumptions C97_minus_refuted.
Example C97_case : let a := DShort 181 1 1 in let b := {| dt_d := DShort 181 1 1; dt_h := 0; dt_mi := 0; dt_s := 0; dt_us := 0; dt_tz := None; dt_fold := 0 |} in
  supported b64 sample_sun a 181 1 1 /\ class (ODate a) <> class (ODt b) /\
  compare_op b64 sample_sun EQ false (ODate a) (ODt b) = Ok false /\ date_eq a (dt_d b) = Ok true /\
  sub_op b64 sample_sun (ODate a) (ODelta 3600000000) = Ok (ODate (DShort 181 1 1)) /\
  add_op b64 sample_sun (ODate a) (ODelta (- 3600000000)) = Ok (ODate (DShort 180 19 19)).
Proof. split; [sup|]. split; [discriminate|]. vm_compute. tauto. Qed.
