(** PropertiesDt.v -- C22, C24 to C26, C48, C56 to C58 for datetimes. *)
From Coq Require Import ZArith QArith Qround Qabs List Bool Lia String.
From Coq Require Import ZifyBool ZifyNat ZifyN.
From Verif Require Import Base Flt BaseModel MiscModel BadiModel SpecBadi BadiProofs BadiProofs2 BadiProofs3 DecProofs BadiProofs4 LongYear LongProofs BadiProofs5
  TduModel DateModel SpecDate TduProofs TduProofs2 TduProofs3 DateProofs SampleSun PropertiesBadi PropertiesDate PropertiesDate2
  TimeModel SpecTime TimeProofs PropertiesTime.
Import ListNotations.
Local Open Scope Z_scope.
Ltac Zify.zify_post_hook ::= Z.div_mod_to_equations.

Lemma line_ok rnd m a l : Nearest rnd -> evening rnd m -> naw_ruz_order rnd m -> on_line rnd m a l ->
  exists y mo d, supported rnd m (dt_d a) y mo d /\ denotes (dt_d a) y mo d /\ okd y mo d /\ -1842 <= y /\
    toordinal rnd m (dt_d a) = Ok (zord y mo d) /\ l = zrd y mo d * 86400000000 + dt_clock a.
Proof.
  intros N E O (y & mo & d & r & S & R & L). destruct (sup_ok rnd m _ y mo d N E S) as (D & K & Y).
  apply (rata_die_zrd rnd N m E) in R; [|apply K|apply K]. subst r. exists y, mo, d. repeat (split; [assumption|]). split; [|exact L].
  apply (toord_ok rnd N m E O _ _ _ _ D K).
Qed.
Lemma line_steady rnd m a l : Nearest rnd -> evening rnd m -> naw_ruz_order rnd m -> on_line rnd m a l -> steady_dt a ->
  exists y mo d, supported rnd m (dt_d a) y mo d /\ denotes (dt_d a) y mo d /\ okd y mo d /\ -1842 <= y /\
    toordinal rnd m (dt_d a) = Ok (zrd y mo d) /\ l = zrd y mo d * 86400000000 + dt_clock a.
Proof.
  intros N E O H ST. destruct (line_ok rnd m a l N E O H) as (y & mo & d & S & D & K & Y & T & L). exists y, mo, d. rewrite (zord_steady y mo d (ST _ _ _ D)) in T. tauto.
Qed.
Lemma line_sup rnd m a l : Nearest rnd -> evening rnd m -> on_line rnd m a l ->
  exists y mo d, supported rnd m (dt_d a) y mo d /\ denotes (dt_d a) y mo d /\ okd y mo d /\ -1842 <= y /\ l = zrd y mo d * 86400000000 + dt_clock a.
Proof.
  intros N E (y & mo & d & r & S & R & L). destruct (sup_ok rnd m _ y mo d N E S) as (D & K & Y).
  apply (rata_die_zrd rnd N m E) in R; [|apply K|apply K]. subst r. exists y, mo, d. tauto.
Qed.
Lemma on_line_of rnd m a y mo d : Nearest rnd -> evening rnd m -> supported rnd m (dt_d a) y mo d -> on_line rnd m a (zrd y mo d * 86400000000 + dt_clock a).
Proof.
  intros N E S. destruct (sup_ok rnd m _ y mo d N E S) as (D & K & Y). exists y, mo, d, (zrd y mo d). split; [exact S|].
  split; [apply (rata_die_zrd rnd N m E); [apply K|apply K|reflexivity]|reflexivity].
Qed.
Lemma denotes_unique a y mo d y' mo' d' : denotes a y mo d -> denotes a y' mo' d' -> y = y' /\ mo = mo' /\ d = d'.
Proof. destruct a; cbn [denotes]; lia. Qed.
Lemma on_line_unique rnd m a l l' : Nearest rnd -> evening rnd m -> on_line rnd m a l -> on_line rnd m a l' -> l = l'.
Proof.
  intros N E H H'. destruct (line_sup rnd m a l N E H) as (y & mo & d & _ & D & _ & _ & ->).
  destruct (line_sup rnd m a l' N E H') as (y' & mo' & d' & _ & D' & _ & _ & ->). destruct (denotes_unique _ _ _ _ _ _ _ D D') as (-> & -> & ->). reflexivity.
Qed.

(** ** C25: datetimes plus timedeltas *)
(** A sum lies [td] microseconds further on the line, with a normal clock, in the same form and zone. *)
Theorem C25_add : forall rnd m a l td b, Nearest rnd -> evening rnd m -> naw_ruz_order rnd m -> on_line rnd m a l -> steady_dt a -> dt_add rnd m a td = Ok b ->
  on_line rnd m b (l + td) /\ plain_clock (dt_h b) (dt_mi b) (dt_s b) (dt_us b) /\ dt_tz b = dt_tz a /\ is_short (dt_d b) = is_short (dt_d a) /\ dt_fold b = 0.
Proof.
  intros rnd m a l td b N E O H ST A. destruct (line_steady rnd m a l N E O H ST) as (y & mo & d & S & D & K & Y & T & L).
  rewrite (dt_add_date rnd m a td _ T) in A. destruct (date_add rnd m (dt_d a) ((dt_clock a + td) / 86400000000)) as [d0|e] eqn:B; [|discriminate].
  assert (Q : b = clock_of ((dt_clock a + td) mod 86400000000) d0 (dt_tz a)) by congruence. subst b.
  destruct (add_inv rnd m _ y mo d _ d0 N E O D K B) as (y' & mo' & d' & K' & Y' & Z' & _ & D' & F). rewrite (zord_steady y mo d (ST _ _ _ D)) in Z'.
  destruct (clock_of_ok ((dt_clock a + td) mod 86400000000) d0 (dt_tz a) ltac:(lia)) as [C P].
  split; [|split; [exact P|split; [reflexivity|split; [exact F|reflexivity]]]].
  assert (S' : supported rnd m d0 y' mo' d') by (split; [exact D'|split; [unfold okd in K'; lia|apply (ok_valid rnd N m E), K']]).
  pose proof (on_line_of rnd m (clock_of ((dt_clock a + td) mod 86400000000) d0 (dt_tz a)) y' mo' d' N E S') as X. rewrite C in X.
  replace (l + td) with (zrd y' mo' d' * 86400000000 + (dt_clock a + td) mod 86400000000); [exact X|]. rewrite <- Z', L. lia.
Qed.
Print Assumptions C25_add.
(** A sum is refused exactly when its day is outside the decodable range or one of the 22 days of C13. *)
Theorem C25_add_defined : forall rnd m a l td, Nearest rnd -> evening rnd m -> naw_ruz_order rnd m -> on_line rnd m a l -> steady_dt a ->
  let day := (l + td) / 86400000000 in
  (day < 78 \/ 1097267 < day -> dt_add rnd m a td = Err OverflowError) /\
  (1096902 < day <= 1097267 -> dt_add rnd m a td = Err AssertionError) /\
  (78 <= day <= 1096902 -> exists y mo d, -1842 <= y <= 1161 /\ valid_bday (leap_of rnd m) y mo d /\ rata_die rnd m y mo d day /\
     (In (y, mo, d) refused_bdates -> dt_add rnd m a td = Err ValueError) /\
     (~ In (y, mo, d) refused_bdates -> exists b, dt_add rnd m a td = Ok b /\ denotes (dt_d b) y mo d)).
Proof.
  intros rnd m a l td N E O H ST day. destruct (line_steady rnd m a l N E O H ST) as (y & mo & d & S & D & K & Y & T & L).
  assert (R : rata_die rnd m y mo d (zrd y mo d)) by (apply (rata_die_zrd rnd N m E); [apply K|apply K|reflexivity]).
  rewrite (dt_add_date rnd m a td _ T). destruct (C17_add rnd m (dt_d a) y mo d _ ((dt_clock a + td) / 86400000000) N E O S R (ST _ _ _ D)) as (A1 & A2 & A3).
  replace (zrd y mo d + (dt_clock a + td) / 86400000000) with day in * by (unfold day; rewrite L; lia).
  split; [intro X; rewrite (A1 X); reflexivity|]. split; [intro X; rewrite (A2 X); reflexivity|].
  intro X. destruct (A3 X) as (y' & mo' & d' & Y' & V' & R' & B1 & B2). exists y', mo', d'. repeat (split; [assumption|]). split.
  - intro I. rewrite (B1 I). reflexivity.
  - intro I. destruct (B2 I) as (b & -> & Db & _). eexists. split; [reflexivity|]. exact Db.
Qed.
Print Assumptions C25_add_defined.
(** Differences: of wall clocks under one offset (or both naive), of UTC instants under two. *)
Lemma difference_z rnd m a b y mo d y' mo' d' : Nearest rnd -> evening rnd m -> naw_ruz_order rnd m -> denotes (dt_d a) y mo d -> okd y mo d -> denotes (dt_d b) y' mo' d' -> okd y' mo' d' ->
  good_offset (dt_tz a) -> good_offset (dt_tz b) -> coherent (dt_tz a) (dt_tz b) ->
  let l := zord y mo d * 86400000000 + dt_clock a in let l' := zord y' mo' d' * 86400000000 + dt_clock b in
  dt_sub rnd m a b = match offset (dt_tz a), offset (dt_tz b) with
                     | None, None => Ok (l - l')
                     | Some x, Some y => Ok ((l - x) - (l' - y))
                     | _, _ => Err TypeError
                     end.
Proof.
  intros N E O D K D' K' G G' C l l'. pose proof (toord_ok rnd N m E O _ _ _ _ D K) as T. pose proof (toord_ok rnd N m E O _ _ _ _ D' K') as T'.
  unfold dt_sub. rewrite T, T'. cbn [bind]. rewrite (utcoffset_ok _ G), (utcoffset_ok _ G'). cbn [bind]. change DAY with 86400000000.
  assert (B : (zord y mo d - zord y' mo' d') * 86400000000 + (dt_secs a - dt_secs b) * 1000000 + (dt_us a - dt_us b) = l - l') by (unfold l, l', dt_clock, clock_us, dt_secs; lia).
  rewrite B. destruct (same_tz (dt_tz a) (dt_tz b)) eqn:Q.
  - rewrite <- (C Q). destruct (offset (dt_tz a)); [f_equal; lia|reflexivity].
  - destruct (offset (dt_tz a)) as [x|], (offset (dt_tz b)) as [z|]; cbn [opt_eqb]; try reflexivity. destruct (Z.eqb_spec x z); f_equal; lia.
Qed.
Theorem C25_difference : forall rnd m a b l l', Nearest rnd -> evening rnd m -> naw_ruz_order rnd m -> on_line rnd m a l -> on_line rnd m b l' -> steady_dt a -> steady_dt b ->
  good_offset (dt_tz a) -> good_offset (dt_tz b) -> coherent (dt_tz a) (dt_tz b) ->
  dt_sub rnd m a b = match offset (dt_tz a), offset (dt_tz b) with
                     | None, None => Ok (l - l')
                     | Some x, Some y => Ok ((l - x) - (l' - y))
                     | _, _ => Err TypeError
                     end.
Proof.
  intros rnd m a b l l' N E O H H' ST ST' G G' C. destruct (line_ok rnd m a l N E O H) as (y & mo & d & _ & D & K & _ & _ & ->). destruct (line_ok rnd m b l' N E O H') as (y' & mo' & d' & _ & D' & K' & _ & _ & ->).
  rewrite (difference_z rnd m a b y mo d y' mo' d' N E O D K D' K' G G' C). rewrite (zord_steady y mo d (ST _ _ _ D)), (zord_steady y' mo' d' (ST' _ _ _ D')). reflexivity.
Qed.
Print Assumptions C25_difference.
(** (a + td) - a = td *)
Theorem C25_add_then_subtract : forall rnd m a l td b, Nearest rnd -> evening rnd m -> naw_ruz_order rnd m -> on_line rnd m a l -> steady_dt a -> steady_dt b -> good_offset (dt_tz a) ->
  dt_add rnd m a td = Ok b -> dt_sub rnd m b a = Ok td.
Proof.
  intros rnd m a l td b N E O H ST ST' G A. destruct (C25_add rnd m a l td b N E O H ST A) as (H' & _ & T & _).
  rewrite (C25_difference rnd m b a (l + td) l N E O H' H ST' ST) by (rewrite ?T; try exact G; intros _; reflexivity). rewrite T. destruct (offset (dt_tz a)); f_equal; lia.
Qed.
Print Assumptions C25_add_then_subtract.
(** (a + s) + t = a + (s + t), errors included. *)
Theorem C25_add_add : forall rnd m a l s t b, Nearest rnd -> evening rnd m -> naw_ruz_order rnd m -> on_line rnd m a l -> steady_dt a -> steady_dt b ->
  dt_add rnd m a s = Ok b -> dt_add rnd m b t = dt_add rnd m a (s + t).
Proof.
  intros rnd m a l s t b N E O H ST ST' A. destruct (C25_add rnd m a l s b N E O H ST A) as (H' & _ & T & _).
  destruct (line_ok rnd m a l N E O H) as (y & mo & d & S & D & K & Y & TO & L). destruct (line_ok rnd m b _ N E O H') as (y' & mo' & d' & S' & D' & K' & Y' & TO' & L').
  rewrite (dt_add_date rnd m a s _ TO) in A. destruct (date_add rnd m (dt_d a) ((dt_clock a + s) / 86400000000)) as [d0|e] eqn:B; [|discriminate].
  assert (Q : b = clock_of ((dt_clock a + s) mod 86400000000) d0 (dt_tz a)) by congruence.
  rewrite (dt_add_date rnd m b t _ TO'), (dt_add_date rnd m a (s + t) _ TO), T.
  destruct (clock_of_ok ((dt_clock a + s) mod 86400000000) d0 (dt_tz a) ltac:(lia)) as [C _]. rewrite <- Q in C. rewrite C.
  assert (QD : dt_d b = d0) by (rewrite Q; reflexivity). rewrite QD.
  rewrite QD in S', D'. rewrite (C17_add_add rnd m (dt_d a) y mo d _ _ d0 y' mo' d' N E O S S' ltac:(apply (ST' y' mo' d'); rewrite QD; exact D') B).
  replace ((dt_clock a + s) / 86400000000 + ((dt_clock a + s) mod 86400000000 + t) / 86400000000) with ((dt_clock a + (s + t)) / 86400000000) by lia.
  replace (((dt_clock a + s) mod 86400000000 + t) mod 86400000000) with ((dt_clock a + (s + t)) mod 86400000000) by lia. reflexivity.
Qed.
Print Assumptions C25_add_add.
(** Adding and subtracting restores a datetime with a normal clock on a decodable day. *)
Theorem C25_add_sub : forall rnd m a y mo d td b, Nearest rnd -> evening rnd m -> naw_ruz_order rnd m -> supported rnd m (dt_d a) y mo d ->
  (y <= 1160 \/ (mo = 1 /\ d = 1)) -> ~ In (y, mo, d) refused_bdates -> ~ In y stale_years -> steady_dt b -> plain_clock (dt_h a) (dt_mi a) (dt_s a) (dt_us a) -> dt_fold a = 0 ->
  dt_add rnd m a td = Ok b -> dt_sub_td rnd m b td = Ok a.
Proof.
  intros rnd m a y mo d td b N E O S LT R ST ST' P F A. unfold dt_sub_td. pose proof (on_line_of rnd m a y mo d N E S) as H.
  assert (STA : steady_dt a). { intros y1 mo1 d1 D1. destruct S as [S0 _]. destruct (denotes_unique _ _ _ _ _ _ _ S0 D1) as (<- & _). exact ST. }
  rewrite (C25_add_add rnd m a _ td (- td) b N E O H STA ST' A).
  destruct (line_ok rnd m a _ N E O H) as (y1 & mo1 & d1 & _ & _ & _ & _ & TO & _). rewrite (dt_add_date rnd m a (td + - td) _ TO). destruct (clock_of_self a P F) as [C B].
  replace (dt_clock a + (td + - td)) with (dt_clock a) by lia. rewrite (Z.div_small _ _ B), (Z.mod_small _ _ B).
  destruct (C17_add_difference rnd m (dt_d a) y mo d (dt_d a) y mo d N E O S S eq_refl LT R ST) as (k & K & Q).
  unfold date_sub in K. rewrite TO in K. cbn [bind] in K. assert (K0 : k = 0) by (injection K as K; lia). rewrite K0 in Q. rewrite Q, C. reflexivity.
Qed.
Print Assumptions C25_add_sub.
Definition mk_dt (y mo d h mi s us : Z) (z : option tz) : pdt := {| dt_d := DShort y mo d; dt_h := h; dt_mi := mi; dt_s := s; dt_us := us; dt_tz := z; dt_fold := 0 |}.
Example C25_case : on_line b64 sample_sun (mk_dt 181 18 19 23 0 0 0 None) (zrd 181 18 19 * 86400000000 + 82800000000) /\
  dt_add b64 sample_sun (mk_dt 181 18 19 23 0 0 0 None) 7200000001 = Ok (mk_dt 181 0 1 1 0 0 1 None) /\
  dt_add b64 sample_sun (mk_dt 1160 18 19 23 0 0 0 None) (1000 * 86400000000) = Err OverflowError.
Proof.
  split; [|vm_compute; tauto]. apply (on_line_of b64 sample_sun (mk_dt 181 18 19 23 0 0 0 None) 181 18 19 b64_nearest (sample_evening b64)). sup.
Qed.

(** ** C26: comparison of datetimes *)
Lemma dt_compares_sgn rnd m a b x y : dt_cmp rnd m true a b = Ok (Z.sgn (x - y)) -> dt_cmp rnd m false a b = Ok (Z.sgn (x - y)) -> dt_compares_as rnd m a b x y.
Proof. intros A B. unfold dt_compares_as, dt_eq, dt_lt, dt_le, dt_gt, dt_ge. rewrite A, B. cbn [bind]. repeat split; f_equal; lia. Qed.
Lemma dt_cmp_same rnd m mx a b : good_offset (dt_tz a) -> good_offset (dt_tz b) -> coherent (dt_tz a) (dt_tz b) -> offset (dt_tz a) = offset (dt_tz b) ->
  dt_cmp rnd m mx a b = Ok (cmp_tuple (dt_fields a) (dt_fields b)).
Proof.
  intros G G' C Q. unfold dt_cmp. destruct (same_tz _ _); [reflexivity|]. rewrite (utcoffset_ok _ G), (utcoffset_ok _ G'). cbn [bind]. rewrite Q.
  assert (R : opt_eqb (offset (dt_tz b)) (offset (dt_tz b)) = true) by (destruct (offset (dt_tz b)); [cbn; lia|reflexivity]). rewrite R. reflexivity.
Qed.
Lemma aware_sub rnd m a b l l' x y : good_offset (dt_tz a) -> good_offset (dt_tz b) -> coherent (dt_tz a) (dt_tz b) -> offset (dt_tz a) = Some x -> offset (dt_tz b) = Some y -> x <> y ->
  dt_sub rnd m a b = Ok (l - x - (l' - y)) -> dt_compares_as rnd m a b (l - x) (l' - y).
Proof.
  intros G G' C X Y NE D. assert (K : forall mx, dt_cmp rnd m mx a b = Ok (Z.sgn (l - x - (l' - y)))).
  { intro mx. unfold dt_cmp. destruct (same_tz (dt_tz a) (dt_tz b)) eqn:Q; [exfalso; specialize (C Q); rewrite X, Y in C; congruence|].
    rewrite (utcoffset_ok _ G), (utcoffset_ok _ G'). cbn [bind]. rewrite X, Y. cbn [opt_eqb]. assert (Q1 : x =? y = false) by lia. rewrite Q1, D. cbn [bind]. f_equal. unfold DAY.
    destruct (Z.ltb_spec ((l - x - (l' - y)) / 86400000000) 0); [lia|]. destruct (Z.eqb_spec (l - x - (l' - y)) 0); lia. }
  apply dt_compares_sgn; apply K.
Qed.
(** Two aware datetimes of different offsets, of any form, are ordered as the UTC instants. *)
Theorem C26_aware_instants : forall rnd m a b l l' x y, Nearest rnd -> evening rnd m -> naw_ruz_order rnd m -> on_line rnd m a l -> on_line rnd m b l' -> steady_dt a -> steady_dt b ->
  good_offset (dt_tz a) -> good_offset (dt_tz b) -> coherent (dt_tz a) (dt_tz b) -> offset (dt_tz a) = Some x -> offset (dt_tz b) = Some y -> x <> y ->
  dt_compares_as rnd m a b (l - x) (l' - y).
Proof.
  intros rnd m a b l l' x y N E O H H' ST ST' G G' C X Y NE. pose proof (C25_difference rnd m a b l l' N E O H H' ST ST' G G' C) as D. rewrite X, Y in D.
  apply (aware_sub rnd m a b l l' x y G G' C X Y NE D).
Qed.
Print Assumptions C26_aware_instants.
(** Under one offset (or both naive) the fields are compared in order. *)
Theorem C26_same_offset_fields : forall rnd m a b, good_offset (dt_tz a) -> good_offset (dt_tz b) -> coherent (dt_tz a) (dt_tz b) -> offset (dt_tz a) = offset (dt_tz b) ->
  exists e l, dt_eq rnd m a b = Ok e /\ dt_lt rnd m a b = Ok l /\ (l = true -> e = false) /\ dt_le rnd m a b = Ok (l || e) /\ dt_gt rnd m a b = Ok (negb (l || e)) /\ dt_ge rnd m a b = Ok (negb l) /\
    (e = true <-> (ymd (dt_d a), dt_h a, dt_mi a, dt_s a, dt_us a) = (ymd (dt_d b), dt_h b, dt_mi b, dt_s b, dt_us b)).
Proof.
  intros rnd m a b G G' C Q. unfold dt_eq, dt_lt, dt_le, dt_gt, dt_ge. rewrite !(dt_cmp_same rnd m _ a b G G' C Q). cbn [bind].
  exists (cmp_tuple (dt_fields a) (dt_fields b) =? 0), (cmp_tuple (dt_fields a) (dt_fields b) <? 0).
  split; [reflexivity|]. split; [reflexivity|]. split; [lia|]. split; [f_equal; lia|]. split; [f_equal; lia|]. split; [f_equal; lia|].
  rewrite Z.eqb_eq. unfold dt_fields. destruct (ymd (dt_d a)) as [[y mo] d], (ymd (dt_d b)) as [[y' mo'] d']. rewrite cmp_eq by reflexivity. split; congruence.
Qed.
Print Assumptions C26_same_offset_fields.
Lemma fields_trans a b c : cmp_tuple (dt_fields a) (dt_fields b) < 0 -> cmp_tuple (dt_fields b) (dt_fields c) < 0 -> cmp_tuple (dt_fields a) (dt_fields c) < 0.
Proof.
  apply cmp_trans; unfold dt_fields; destruct (ymd (dt_d a)) as [[? ?] ?], (ymd (dt_d b)) as [[? ?] ?], (ymd (dt_d c)) as [[? ?] ?]; reflexivity.
Qed.
Theorem C26_transitive : forall rnd m a b c, good_offset (dt_tz a) -> good_offset (dt_tz b) -> good_offset (dt_tz c) -> coherent (dt_tz a) (dt_tz b) -> coherent (dt_tz b) (dt_tz c) -> coherent (dt_tz a) (dt_tz c) ->
  offset (dt_tz a) = offset (dt_tz b) -> offset (dt_tz b) = offset (dt_tz c) -> dt_lt rnd m a b = Ok true -> dt_lt rnd m b c = Ok true -> dt_lt rnd m a c = Ok true.
Proof.
  intros rnd m a b c G G' G'' C C' C'' Q Q'. unfold dt_lt. rewrite (dt_cmp_same rnd m _ a b G G' C Q), (dt_cmp_same rnd m _ b c G' G'' C' Q'), (dt_cmp_same rnd m _ a c G G'' C'' ltac:(congruence)).
  cbn [bind]. intros H H'. injection H as H. injection H' as H'. pose proof (fields_trans a b c ltac:(lia) ltac:(lia)). f_equal. lia.
Qed.
Print Assumptions C26_transitive.
(** Short form datetimes with a normal clock are ordered chronologically, but for a day of Ayyam-i-Ha against a
    day of months 1..18 of the same year. *)
Theorem C26_chronological : forall rnd m a b y mo d y' mo' d' l l', Nearest rnd -> evening rnd m -> dt_d a = DShort y mo d -> dt_d b = DShort y' mo' d' ->
  on_line rnd m a l -> on_line rnd m b l' -> good_offset (dt_tz a) -> good_offset (dt_tz b) -> coherent (dt_tz a) (dt_tz b) -> offset (dt_tz a) = offset (dt_tz b) ->
  plain_clock (dt_h a) (dt_mi a) (dt_s a) (dt_us a) -> plain_clock (dt_h b) (dt_mi b) (dt_s b) (dt_us b) -> ~ ayyam_clash y mo y' mo' ->
  dt_compares_as rnd m a b l l'.
Proof.
  intros rnd m a b y mo d y' mo' d' l l' N E A B H H' G G' C Q P P' CL.
  destruct (line_sup rnd m a l N E H) as (y0 & mo0 & d0 & S & D & K & Y & L). rewrite A in D, S. cbn [denotes] in D. destruct D as (<- & <- & <-).
  destruct (line_sup rnd m b l' N E H') as (y1 & mo1 & d1 & S' & D' & K' & Y' & L'). rewrite B in D', S'. cbn [denotes] in D'. destruct D' as (<- & <- & <-).
  assert (M : Z.sgn (cmp_tuple [y; mo; d] [y'; mo'; d']) = Z.sgn (zrd y mo d - zrd y' mo' d')).
  { assert (CL' : ~ ayyam_clash y' mo' y mo) by (unfold ayyam_clash in *; lia).
    pose proof (proj1 (C14_order_chronological rnd m y mo d y' mo' d' N E S S' CL)) as I. pose proof (proj1 (C14_order_chronological rnd m y' mo' d' y mo d N E S' S CL')) as I2.
    rewrite (earlier_rd _ _ _ _ _ _ K K') in I. rewrite (earlier_rd _ _ _ _ _ _ K' K) in I2. unfold date_lt, date_cmp in I, I2. cbn [bind] in I, I2.
    rewrite (cmp_anti [y; mo; d]) in I2. set (c := cmp_tuple [y; mo; d] [y'; mo'; d']) in *.
    assert (J : (c <? 0) = true <-> zrd y mo d < zrd y' mo' d') by (rewrite <- I; split; congruence).
    assert (J2 : (- c <? 0) = true <-> zrd y' mo' d' < zrd y mo d) by (rewrite <- I2; split; congruence). lia. }
  assert (X : cmp_tuple (dt_fields a) (dt_fields b) = Z.sgn (l - l')).
  { unfold dt_fields. rewrite A, B. cbn [ymd]. unfold plain_clock in *. unfold dt_clock, clock_us in *.
    assert (ZZ : zrd y mo d = zrd y' mo' d' \/ zrd y mo d + 1 <= zrd y' mo' d' \/ zrd y' mo' d' + 1 <= zrd y mo d) by lia.
    set (da := zrd y mo d) in *. set (db := zrd y' mo' d') in *. clearbody da db.
    assert (CC : cmp_tuple [y; mo; d; dt_h a; dt_mi a; dt_s a; dt_us a] [y'; mo'; d'; dt_h b; dt_mi b; dt_s b; dt_us b] =
      if cmp_tuple [y; mo; d] [y'; mo'; d'] =? 0 then cmp_tuple [dt_h a; dt_mi a; dt_s a; dt_us a] [dt_h b; dt_mi b; dt_s b; dt_us b] else cmp_tuple [y; mo; d] [y'; mo'; d']).
    { cbn [cmp_tuple]. destruct (y =? y'); [|destruct (y' <? y); reflexivity]. destruct (mo =? mo'); [|destruct (mo' <? mo); reflexivity]. destruct (d =? d'); [reflexivity|destruct (d' <? d); reflexivity]. }
    rewrite CC. rewrite cmp_pos4 by lia. assert (RG : cmp_tuple [y; mo; d] [y'; mo'; d'] = -1 \/ cmp_tuple [y; mo; d] [y'; mo'; d'] = 0 \/ cmp_tuple [y; mo; d] [y'; mo'; d'] = 1).
    { cbn [cmp_tuple]. destruct (y =? y'), (mo =? mo'), (d =? d'), (y' <? y), (mo' <? mo), (d' <? d); tauto. }
    set (c := cmp_tuple [y; mo; d] [y'; mo'; d']) in *. clearbody c. clear CC. unfold position.
    destruct RG as [R|[R|R]]; rewrite R in *; cbn [Z.eqb]; lia. }
  apply dt_compares_sgn; rewrite (dt_cmp_same rnd m _ a b G G' C Q), X; reflexivity.
Qed.
Print Assumptions C26_chronological.
(** Kull-i-shay and vahid are ignored: any two long form datetimes of the same fields in other cycles are equal,
    their hashes differ. *)
Theorem C26_long_cycles_refuted : forall rnd m a b k v k' v' y mo d, dt_d a = DLong k v y mo d -> dt_d b = DLong k' v' y mo d ->
  dt_tz a = None -> dt_tz b = None -> (dt_h a, dt_mi a, dt_s a, dt_us a) = (dt_h b, dt_mi b, dt_s b, dt_us b) ->
  dt_eq rnd m a b = Ok true /\ dt_lt rnd m a b = Ok false /\ dt_lt rnd m b a = Ok false /\
  (dt_fold a = 0 -> dt_fold b = 0 -> forall h h', (k, v) <> (k', v') -> dt_hash rnd m a = Ok h -> dt_hash rnd m b = Ok h' -> h <> h').
Proof.
  intros rnd m a b k v k' v' y mo d A B TA TB Q. assert (QH : dt_h a = dt_h b /\ dt_mi a = dt_mi b /\ dt_s a = dt_s b /\ dt_us a = dt_us b) by (repeat split; congruence). destruct QH as (Q1 & Q2 & Q3 & Q4).
  assert (FE : dt_fields a = dt_fields b) by (unfold dt_fields; rewrite A, B; cbn [ymd]; congruence).
  assert (CE : cmp_tuple (dt_fields a) (dt_fields a) = 0) by (apply cmp_eq; reflexivity).
  unfold dt_eq, dt_lt, dt_cmp. rewrite TA, TB. cbn [same_tz]. rewrite <- FE, CE. cbn [bind]. repeat (split; [reflexivity|]).
  intros FA FB h h' NE HA HB X. subst h'. unfold dt_hash in HA, HB. rewrite FA in HA. rewrite FB in HB. cbn [Z.eqb negb bind] in HA, HB. rewrite TA in HA. rewrite TB in HB. cbn [utcoffset bind] in HA, HB.
  unfold dt_getstate in HA, HB. rewrite A in HA. rewrite B in HB. cbv zeta in HA, HB. rewrite FA in HA. rewrite FB in HB. cbn [Z.eqb negb andb] in HA, HB.
  unfold to_bytes in HA, HB. destruct (forallb _ _) in HA; [|discriminate]. destruct (forallb _ _) in HB; [|discriminate]. cbn [bind fst app] in HA, HB.
  assert (XX : HBytes ([k + 19; v] ++ [y; mo + 0; d; dt_h a; dt_mi a; dt_s a] ++ us_bytes (dt_us a)) = HBytes ([k' + 19; v'] ++ [y; mo + 0; d; dt_h b; dt_mi b; dt_s b] ++ us_bytes (dt_us b))) by (cbn [app]; congruence).
  injection XX as X1 X2 _. apply NE. f_equal; lia.
Qed.
Print Assumptions C26_long_cycles_refuted.
Lemma dt_fold0 rnd m a : Nearest rnd -> evening rnd m -> (exists y mo d, supported rnd m (dt_d a) y mo d) -> valid_dt_clock a ->
  (if negb (dt_fold a =? 0) then dt_replace rnd m a None None None None None None None None None None (Some 0) else Ok a) =
  Ok {| dt_d := dt_d a; dt_h := dt_h a; dt_mi := dt_mi a; dt_s := dt_s a; dt_us := dt_us a; dt_tz := dt_tz a; dt_fold := 0 |}.
Proof.
  intros N E (y & mo & d & S) (V & F & _). destruct (sup_ok rnd m _ y mo d N E S) as (D & K & Y). destruct F as [F|F]; rewrite F; cbn [Z.eqb negb].
  - destruct a. cbn in F. subst. reflexivity.
  - apply clock_ok_spec in V. unfold dt_replace. destruct (dt_d a) as [y0 mo0 d0|k v yy mo0 d0]; cbn [truthy orb dflt denotes] in *.
    + destruct D as (-> & -> & ->). rewrite dt_new_eq, V, (new_short rnd N m E _ _ _ K). reflexivity.
    + destruct D as (V1 & Y1 & LY & -> & ->). rewrite dt_new_eq, V, (new_long rnd N m E _ _ _ _ _ V1 Y1) by (unfold long_year; rewrite LY; exact K). reflexivity.
Qed.
Lemma dt_bytes_short y mo d h mi s us : okd y mo d -> -1842 <= y -> valid_clock h mi s us ->
  forall f, (f = 0 \/ f = 128) -> to_bytes ([(y - MINYEAR) / 256; (y - MINYEAR) mod 256; mo + f; d] ++ [h; mi; s] ++ us_bytes us) = Ok ([(y - MINYEAR) / 256; (y - MINYEAR) mod 256; mo + f; d] ++ [h; mi; s] ++ us_bytes us).
Proof.
  intros K Y V f F. unfold valid_clock in V. destruct (us_bytes_ok us) as [B _]; [lia|]. unfold to_bytes. rewrite !forallb_app, B.
  assert (LE : bmonth_len (zleap y) mo <= 19) by (unfold bmonth_len; destruct (mo =? 0), (zleap y); lia). unfold okd in K.
  assert (Q : forallb (fun x => (0 <=? x) && (x <? 256)) [(y - MINYEAR) / 256; (y - MINYEAR) mod 256; mo + f; d] = true) by (cbn [forallb]; unfold MINYEAR; lia).
  assert (Q1 : forallb (fun x => (0 <=? x) && (x <? 256)) [h; mi; s] = true) by (cbn [forallb]; lia). rewrite Q, Q1. reflexivity.
Qed.
Lemma dt_bytes_long k v yy mo d h mi s us : 1 <= v <= 19 -> 1 <= yy <= 19 -> okd (long_year k v yy) mo d -> valid_clock h mi s us ->
  forall f, (f = 0 \/ f = 128) -> to_bytes ([k + 19; v; yy; mo + f; d] ++ [h; mi; s] ++ us_bytes us) = Ok ([k + 19; v; yy; mo + f; d] ++ [h; mi; s] ++ us_bytes us).
Proof.
  intros V1 Y1 K V f F. unfold valid_clock in V. destruct (us_bytes_ok us) as [B _]; [lia|]. unfold to_bytes. rewrite !forallb_app, B.
  assert (LE : bmonth_len (zleap (long_year k v yy)) mo <= 19) by (unfold bmonth_len; destruct (mo =? 0), (zleap (long_year k v yy)); lia). unfold okd, long_year in *.
  assert (Q : forallb (fun x => (0 <=? x) && (x <? 256)) [k + 19; v; yy; mo + f; d] = true) by (cbn [forallb]; lia).
  assert (Q1 : forallb (fun x => (0 <=? x) && (x <? 256)) [h; mi; s] = true) by (cbn [forallb]; lia). rewrite Q, Q1. reflexivity.
Qed.
(** Equal short form datetimes hash equal. *)
Theorem C26_equal_datetimes_hash_equal : forall rnd m a b l l', Nearest rnd -> evening rnd m -> naw_ruz_order rnd m -> is_short (dt_d a) = true -> is_short (dt_d b) = true ->
  on_line rnd m a l -> on_line rnd m b l' -> valid_dt_clock a -> valid_dt_clock b -> coherent (dt_tz a) (dt_tz b) -> dt_eq rnd m a b = Ok true ->
  exists k, dt_hash rnd m a = Ok k /\ dt_hash rnd m b = Ok k.
Proof.
  intros rnd m a b l l' N E O FA FB H H' V V' C EQ. pose proof V as (_ & _ & G). pose proof V' as (_ & _ & G').
  destruct (line_ok rnd m a l N E O H) as (y & mo & d & S & D & K & Y & T & L). destruct (line_ok rnd m b l' N E O H') as (y' & mo' & d' & S' & D' & K' & Y' & T' & L').
  assert (HS : forall c yy mm dd ll, valid_dt_clock c -> dt_d c = DShort yy mm dd -> supported rnd m (dt_d c) yy mm dd -> okd yy mm dd -> -1842 <= yy -> ll = zord yy mm dd * 86400000000 + dt_clock c ->
     dt_hash rnd m c = match offset (dt_tz c) with
       | None => Ok (HBytes ([(yy - MINYEAR) / 256; (yy - MINYEAR) mod 256; mm + 0; dd] ++ [dt_h c; dt_mi c; dt_s c] ++ us_bytes (dt_us c)))
       | Some o => Ok (HDelta (ll - o)) end).
  { intros c yy mm dd ll VC DC SC KC YC LC. unfold dt_hash. rewrite (dt_fold0 rnd m c N E ltac:(eauto) VC). cbn [bind dt_tz]. destruct VC as (VC & _ & GC). rewrite (utcoffset_ok _ GC). cbn [bind].
    destruct (offset (dt_tz c)) as [o|].
    - rewrite DC. cbn [ymd]. assert (TO : ymd2ord rnd m yy mm dd = Ok (zord yy mm dd)).
      { pose proof (toord_ok rnd N m E O (DShort yy mm dd) yy mm dd ltac:(cbn; tauto) KC) as TT. exact TT. }
      rewrite TO. cbn [bind]. f_equal. f_equal. rewrite LC. unfold DAY, dt_clock, clock_us. lia.
    - unfold dt_getstate. cbn [dt_d dt_h dt_mi dt_s dt_us dt_fold dt_tz]. rewrite DC. cbn [Z.eqb negb andb]. cbv zeta. rewrite dt_bytes_short by (assumption || lia). reflexivity. }
  destruct (dt_d a) as [ya moa da|] eqn:DA; [|discriminate]. destruct (dt_d b) as [yb mob db|] eqn:DB; [|discriminate]. cbn [denotes] in D, D'. destruct D as (-> & -> & ->). destruct D' as (-> & -> & ->).
  clear l l' H H' L L'. set (l := zord y mo d * 86400000000 + dt_clock a). set (l' := zord y' mo' d' * 86400000000 + dt_clock b).
  rewrite (HS a y mo d l V DA ltac:(rewrite DA; exact S) K Y eq_refl), (HS b y' mo' d' l' V' DB ltac:(rewrite DB; exact S') K' Y' eq_refl).
  destruct (offset (dt_tz a)) as [x|] eqn:X, (offset (dt_tz b)) as [z|] eqn:Z.
  - destruct (Z.eq_dec x z) as [->|NE].
    + unfold dt_eq in EQ. rewrite (dt_cmp_same rnd m _ a b G G' C ltac:(congruence)) in EQ. cbn [bind] in EQ. injection EQ as EQ. apply Z.eqb_eq in EQ. apply cmp_eq in EQ; [|unfold dt_fields; rewrite DA, DB; reflexivity].
      unfold dt_fields in EQ. rewrite DA, DB in EQ. cbn [ymd] in EQ. injection EQ as <- <- <- E1 E2 E3 E4. assert (EL : l = l') by (unfold l, l', dt_clock; rewrite E1, E2, E3, E4; reflexivity). rewrite EL. eexists. split; reflexivity.
    + pose proof (difference_z rnd m a b y mo d y' mo' d' N E O ltac:(rewrite DA; cbn; tauto) K ltac:(rewrite DB; cbn; tauto) K' G G' C) as DF. cbv zeta in DF. fold l l' in DF. rewrite X, Z in DF.
      destruct (aware_sub rnd m a b l l' x z G G' C X Z NE DF) as (EE & _). rewrite EQ in EE. injection EE as EE. assert (EL : l - x = l' - z) by lia. rewrite EL. eauto.
  - exfalso. unfold dt_eq, dt_cmp in EQ. destruct (same_tz (dt_tz a) (dt_tz b)) eqn:Q; [specialize (C Q); congruence|]. rewrite (utcoffset_ok _ G), (utcoffset_ok _ G'), X, Z in EQ. discriminate.
  - exfalso. unfold dt_eq, dt_cmp in EQ. destruct (same_tz (dt_tz a) (dt_tz b)) eqn:Q; [specialize (C Q); congruence|]. rewrite (utcoffset_ok _ G), (utcoffset_ok _ G'), X, Z in EQ. discriminate.
  - unfold dt_eq in EQ. rewrite (dt_cmp_same rnd m _ a b G G' C ltac:(congruence)) in EQ. cbn [bind] in EQ. injection EQ as EQ. apply Z.eqb_eq in EQ. apply cmp_eq in EQ; [|unfold dt_fields; rewrite DA, DB; reflexivity].
    unfold dt_fields in EQ. rewrite DA, DB in EQ. cbn [ymd] in EQ. injection EQ as <- <- <- E1 E2 E3 E4. rewrite E1, E2, E3, E4. eauto.
Qed.
Print Assumptions C26_equal_datetimes_hash_equal.
Example C26_case : on_line b64 sample_sun (mk_dt 181 1 1 12 0 0 0 (mk_tz 1 12600000000)) (zrd 181 1 1 * 86400000000 + 43200000000) /\
  dt_eq b64 sample_sun (mk_dt 181 1 1 12 0 0 0 (mk_tz 1 12600000000)) (mk_dt 181 1 1 8 30 0 0 (mk_tz 2 0)) = Ok true /\
  dt_hash b64 sample_sun (mk_dt 181 1 1 12 0 0 0 (mk_tz 1 12600000000)) = dt_hash b64 sample_sun (mk_dt 181 1 1 8 30 0 0 (mk_tz 2 0)) /\
  dt_lt b64 sample_sun (mk_dt 181 18 19 0 0 0 0 None) (mk_dt 181 0 1 0 0 0 0 None) = Ok false.
Proof.
  split; [|vm_compute; tauto]. apply (on_line_of b64 sample_sun (mk_dt 181 1 1 12 0 0 0 (mk_tz 1 12600000000)) 181 1 1 b64_nearest (sample_evening b64)). sup.
Qed.

(** ** C24: naive against aware datetimes *)
Theorem C24_datetimes : forall rnd m a b, good_offset (dt_tz a) -> good_offset (dt_tz b) -> coherent (dt_tz a) (dt_tz b) -> ~ (offset (dt_tz a) = None <-> offset (dt_tz b) = None) ->
  dt_eq rnd m a b = Ok false /\ dt_lt rnd m a b = Err TypeError /\ dt_le rnd m a b = Err TypeError /\ dt_gt rnd m a b = Err TypeError /\ dt_ge rnd m a b = Err TypeError.
Proof.
  intros rnd m a b G G' C M.
  assert (K : forall mx, dt_cmp rnd m mx a b = if mx then Ok 2 else Err TypeError).
  { intro mx. unfold dt_cmp. destruct (same_tz (dt_tz a) (dt_tz b)) eqn:Q; [exfalso; apply M; rewrite (C Q); tauto|]. rewrite (utcoffset_ok _ G), (utcoffset_ok _ G'). cbn [bind].
    destruct (offset (dt_tz a)), (offset (dt_tz b)); try reflexivity; exfalso; apply M; split; congruence. }
  unfold dt_eq, dt_lt, dt_le, dt_gt, dt_ge. rewrite !K. cbn [bind]. tauto.
Qed.
Print Assumptions C24_datetimes.

(** ** C22: pickling datetimes *)
Theorem C22_datetime_roundtrip : forall rnd m p a y mo d, Nearest rnd -> evening rnd m -> supported rnd m (dt_d a) y mo d -> mo <> 0 -> valid_dt_clock a ->
  exists st, dt_getstate p a = Ok st /\
    dt_unpickle rnd m st = Ok {| dt_d := dt_d a; dt_h := dt_h a; dt_mi := dt_mi a; dt_s := dt_s a; dt_us := dt_us a; dt_tz := dt_tz a; dt_fold := if 3 <? p then dt_fold a else 0 |}.
Proof.
  intros rnd m p a y mo d N E S M (V & F & _). destruct (sup_ok rnd m _ y mo d N E S) as (D & K & Y). pose proof V as V0. unfold valid_clock in V0. destruct (us_bytes_ok (dt_us a)) as [_ U]; [lia|].
  unfold dt_getstate. set (f := if negb (dt_fold a =? 0) && (3 <? p) then 128 else 0). assert (Ff : f = 0 \/ f = 128) by (unfold f; destruct (_ && _); tauto).
  assert (FO : (if 127 <? mo + f then 1 else 0) = if 3 <? p then dt_fold a else 0).
  { assert (MM : 0 <= mo <= 19) by apply K. unfold f. destruct (3 <? p); [rewrite andb_true_r|rewrite andb_false_r; destruct (Z.ltb_spec 127 (mo + 0)); lia].
    destruct F as [F|F]; rewrite F; cbn [Z.eqb negb]; [destruct (Z.ltb_spec 127 (mo + 0)); lia|destruct (Z.ltb_spec 127 (mo + 128)); lia]. }
  assert (MQ : (1 <=? (mo + f) mod 128) && ((mo + f) mod 128 <=? 19) = true) by (assert (MM : 0 <= mo <= 19) by apply K; destruct Ff as [Q|Q]; rewrite Q; lia).
  assert (MF : (if 127 <? mo + f then mo + f - 128 else mo + f) = mo) by (assert (MM : 0 <= mo <= 19) by apply K; destruct (Z.ltb_spec 127 (mo + f)); lia).
  cbv zeta. destruct (dt_d a) as [y0 mo0 d0|k v yy mo0 d0] eqn:DA; cbn [denotes] in D.
  - destruct D as (-> & -> & ->). rewrite dt_bytes_short by assumption. cbn [bind]. eexists. split; [reflexivity|]. cbn [app us_bytes dt_unpickle].
    rewrite MQ, MF, FO, U. replace ((y - MINYEAR) / 256 * 256 + MINYEAR + (y - MINYEAR) mod 256) with y by lia. rewrite (new_short rnd N m E _ _ _ K). reflexivity.
  - destruct D as (V1 & Y1 & LY & -> & ->). assert (KL : okd (long_year k v yy) mo d) by (unfold long_year; rewrite LY; exact K). rewrite dt_bytes_long by assumption. cbn [bind]. eexists. split; [reflexivity|]. cbn [app us_bytes dt_unpickle].
    rewrite MQ, MF, FO, U. replace (k + 19 - 19) with k by lia. rewrite (new_long rnd N m E _ _ _ _ _ V1 Y1 KL). reflexivity.
Qed.
Print Assumptions C22_datetime_roundtrip.
(** Datetimes of Ayyam-i-Ha pickle but do not unpickle. *)
Theorem C22_datetime_ayyam_lost : forall rnd m p a y d, Nearest rnd -> evening rnd m -> supported rnd m (dt_d a) y 0 d -> valid_dt_clock a ->
  exists st, dt_getstate p a = Ok st /\ dt_unpickle rnd m st = Err AssertionError.
Proof.
  intros rnd m p a y d N E S (V & F & _). destruct (sup_ok rnd m _ y 0 d N E S) as (D & K & Y).
  unfold dt_getstate. set (f := if negb (dt_fold a =? 0) && (3 <? p) then 128 else 0). assert (Ff : f = 0 \/ f = 128) by (unfold f; destruct (_ && _); tauto).
  assert (MQ : (1 <=? (0 + f) mod 128) && ((0 + f) mod 128 <=? 19) = false) by (destruct Ff as [Q|Q]; rewrite Q; reflexivity).
  cbv zeta. destruct (dt_d a) as [y0 mo0 d0|k v yy mo0 d0] eqn:DA; cbn [denotes] in D.
  - destruct D as (-> & -> & ->). rewrite dt_bytes_short by assumption. cbn [bind]. eexists. split; [reflexivity|]. cbn [app us_bytes dt_unpickle]. rewrite MQ. reflexivity.
  - destruct D as (V1 & Y1 & LY & -> & ->). assert (KL : okd (long_year k v yy) 0 d) by (unfold long_year; rewrite LY; exact K). rewrite dt_bytes_long by assumption. cbn [bind]. eexists. split; [reflexivity|].
    cbn [app us_bytes dt_unpickle]. rewrite MQ. reflexivity.
Qed.
Print Assumptions C22_datetime_ayyam_lost.
Example C22_datetime_case : dt_getstate 4 {| dt_d := DShort 181 19 19; dt_h := 24; dt_mi := 0; dt_s := 3; dt_us := 65536; dt_tz := None; dt_fold := 1 |} = Ok ([7; 231; 147; 19; 24; 0; 3; 1; 0; 0], None).
Proof. reflexivity. Qed.

(** ** C56: the datetime constructor *)
Theorem C56_datetime_constructor : forall rnd m args h mi s us z fold b, 
  dt_new rnd m args h mi s us z fold = Ok b <->
  (exists d, date_new rnd m args = Ok d /\ valid_clock h mi s us /\ (fold = 0 \/ fold = 1) /\
     b = {| dt_d := d; dt_h := h; dt_mi := mi; dt_s := s; dt_us := us; dt_tz := z; dt_fold := fold |}).
Proof.
  intros. rewrite dt_new_eq. split.
  - intro H. destruct (clock_ok h mi s us && _) eqn:Q; destruct (date_new rnd m args) as [d|]; try discriminate.
    apply andb_prop in Q as [Q1 Q2]. exists d. split; [reflexivity|]. split; [apply clock_ok_spec, Q1|]. split; [lia|congruence].
  - intros (d & -> & V & F & ->). apply clock_ok_spec in V. rewrite V. destruct F as [-> | ->]; reflexivity.
Qed.
Print Assumptions C56_datetime_constructor.
Example C56_case : dt_new b64 sample_sun [181; 19; 19] 24 0 3 0 None 0 = Ok (mk_dt 181 19 19 24 0 3 0 None) /\ dt_new b64 sample_sun [181; 19; 19] 25 0 0 0 None 0 = Err AssertionError /\
  dt_new b64 sample_sun [181; 19] 1 0 0 0 None 0 = Err AssertionError.
Proof. vm_compute. tauto. Qed.

(** ** C48: replace, for datetimes *)
Theorem C48_datetime_replace : forall rnd m a k v y mo d h mi s us z fold b, dt_replace rnd m a k v y mo d h mi s us z fold = Ok b ->
  dt_h b = dflt h (dt_h a) /\ dt_mi b = dflt mi (dt_mi a) /\ dt_s b = dflt s (dt_s a) /\ dt_us b = dflt us (dt_us a) /\
  dt_tz b = (match z with Some z' => z' | None => dt_tz a end) /\ dt_fold b = dflt fold (dt_fold a) /\ replace rnd m (dt_d a) k v y mo d = Ok (dt_d b).
Proof.
  intros rnd m a k v y mo d h mi s us z fold b H. unfold dt_replace in H. unfold replace.
  destruct (dt_d a) as [y0 mo0 d0|k0 v0 y0 mo0 d0].
  - destruct (truthy k || truthy v); [discriminate|]. apply C56_datetime_constructor in H. destruct H as (d1 & -> & _ & _ & ->). cbn. tauto.
  - destruct y as [yy|]; [destruct ((yy <? 1) || (19 <? yy)); [discriminate|]|]; apply C56_datetime_constructor in H; destruct H as (d1 & -> & _ & _ & ->); cbn; tauto.
Qed.
Print Assumptions C48_datetime_replace.
Theorem C48_datetime_replace_valid : forall rnd m a k v y mo d h mi s us z fold d', replace rnd m (dt_d a) k v y mo d = Ok d' ->
  valid_clock (dflt h (dt_h a)) (dflt mi (dt_mi a)) (dflt s (dt_s a)) (dflt us (dt_us a)) -> dflt fold (dt_fold a) = 0 \/ dflt fold (dt_fold a) = 1 ->
  exists b, dt_replace rnd m a k v y mo d h mi s us z fold = Ok b.
Proof.
  intros rnd m a k v y mo d h mi s us z fold d' H V F. unfold replace in H. unfold dt_replace.
  destruct (dt_d a) as [y0 mo0 d0|k0 v0 y0 mo0 d0].
  - destruct (truthy k || truthy v); [discriminate|]. eexists. apply C56_datetime_constructor. exists d'. split; [exact H|]. split; [exact V|]. split; [exact F|reflexivity].
  - destruct y as [yy|]; [destruct ((yy <? 1) || (19 <? yy)); [discriminate|]|]; eexists; apply C56_datetime_constructor; (exists d'; split; [exact H|]; split; [exact V|]; split; [exact F|reflexivity]).
Qed.
Print Assumptions C48_datetime_replace_valid.
Theorem C48_datetime_replace_nothing : forall rnd m a y mo d, Nearest rnd -> evening rnd m -> supported rnd m (dt_d a) y mo d -> valid_dt_clock a ->
  dt_replace rnd m a None None None None None None None None None None None = Ok a.
Proof.
  intros rnd m a y mo d N E S (V & F & _). pose proof (C48_replace_nothing rnd m (dt_d a) y mo d N E S) as R.
  destruct (C48_datetime_replace_valid rnd m a None None None None None None None None None None None _ R V F) as (b & B). rewrite B. f_equal.
  destruct (C48_datetime_replace _ _ _ _ _ _ _ _ _ _ _ _ _ _ _ B) as (Q1 & Q2 & Q3 & Q4 & Q5 & Q6 & Q7). assert (QD : dt_d b = dt_d a) by congruence.
  destruct a, b. cbn in *. congruence.
Qed.
Print Assumptions C48_datetime_replace_nothing.

(** ** C57: date and time parts *)
(** A short form datetime is rebuilt from its date() and timetz(). *)
Theorem C57_combine_parts : forall rnd m a y mo d, Nearest rnd -> evening rnd m -> supported rnd m (dt_d a) y mo d -> is_short (dt_d a) = true -> valid_dt_clock a ->
  exists d0 t, dt_date rnd m a = Ok d0 /\ d0 = dt_d a /\ dt_timetz a = Ok t /\ dt_combine rnd m d0 t None = Ok a.
Proof.
  intros rnd m a y mo d N E S F (V & FO & _). destruct (sup_ok rnd m _ y mo d N E S) as (D & K & Y). destruct (dt_d a) as [y0 mo0 d0|] eqn:DA; [|discriminate]. cbn [denotes] in D. destruct D as (-> & -> & ->).
  unfold dt_date, dt_timetz. rewrite DA. cbn [ymd]. rewrite (new_short rnd N m E _ _ _ K), time_new_ok by assumption. eexists _, _. split; [reflexivity|]. split; [reflexivity|]. split; [reflexivity|].
  unfold dt_combine. cbn [b_date t_h t_mi t_s t_us t_tz t_fold]. apply C56_datetime_constructor. exists (DShort y mo d). split; [apply (new_short rnd N m E _ _ _ K)|]. split; [exact V|]. split; [exact FO|].
  destruct a. cbn in *. congruence.
Qed.
Print Assumptions C57_combine_parts.
(** time() and timetz() keep the clock and the fold of a datetime of any form; time() drops the zone. *)
Theorem C57_time_parts : forall a, valid_dt_clock a -> exists t t', dt_time a = Ok t /\ dt_timetz a = Ok t' /\
  (t_h t, t_mi t, t_s t, t_us t, t_fold t) = (dt_h a, dt_mi a, dt_s a, dt_us a, dt_fold a) /\ t_tz t = None /\
  (t_h t', t_mi t', t_s t', t_us t', t_fold t') = (dt_h a, dt_mi a, dt_s a, dt_us a, dt_fold a) /\ t_tz t' = dt_tz a.
Proof.
  intros a (V & FO & _). unfold dt_time, dt_timetz. rewrite !time_new_ok by assumption. eexists _, _. repeat split.
Qed.
Print Assumptions C57_time_parts.
(** combine keeps the fields of both arguments. *)
Theorem C57_combine : forall rnd m d t z b, dt_combine rnd m d t z = Ok b ->
  dt_d b = d /\ (dt_h b, dt_mi b, dt_s b, dt_us b, dt_fold b) = (t_h t, t_mi t, t_s t, t_us t, t_fold t) /\ dt_tz b = match z with Some z' => z' | None => t_tz t end.
Proof.
  intros rnd m d t z b H. unfold dt_combine in H. apply C56_datetime_constructor in H. destruct H as (d0 & H & _ & _ & ->). cbn. split; [|tauto].
  destruct (date_new_fix rnd m _ _ H) as [B _]. destruct d, d0; cbn in B; congruence.
Qed.
Print Assumptions C57_combine.
(** date() of a long form datetime is a short form date in years 1..19: the cycle is lost. *)
Theorem C57_long_date_lost_refuted : forall rnd m a k v y mo d d0, dt_d a = DLong k v y mo d -> dt_date rnd m a = Ok d0 -> d0 = DShort y mo d.
Proof.
  intros rnd m a k v y mo d d0 A H. unfold dt_date in H. rewrite A in H. cbn [ymd] in H. destruct (date_new_fix rnd m _ _ H) as [B _]. destruct d0; cbn in B; congruence.
Qed.
Print Assumptions C57_long_date_lost_refuted.
Example C57_case : dt_date b64 sample_sun {| dt_d := DLong 1 10 10 1 1; dt_h := 0; dt_mi := 0; dt_s := 0; dt_us := 0; dt_tz := None; dt_fold := 0 |} = Ok (DShort 10 1 1) /\
  supported b64 sample_sun (DLong 1 10 10 1 1) 181 1 1.
Proof. split; [vm_compute; reflexivity|sup]. Qed.

(** ** C58: astimezone *)
Lemma near_steady rnd m a b l l' : Nearest rnd -> evening rnd m -> on_line rnd m a l -> on_line rnd m b l' -> calm_dt a -> Z.abs (l - l') <= 200000000000 ->
  0 <= dt_clock a <= 91000000000 -> 0 <= dt_clock b <= 91000000000 -> steady_dt b.
Proof.
  intros N E H H' CA NR CK CK'. destruct (line_sup rnd m a l N E H) as (y & mo & d & _ & D & K & _ & ->). destruct (line_sup rnd m b l' N E H') as (y' & mo' & d' & _ & D' & K' & _ & ->).
  intros y1 mo1 d1 D1. destruct (denotes_unique _ _ _ _ _ _ _ D' D1) as (<- & _). apply (CA y mo d y' D).
  destruct K as (Y & M & DD), K' as (Y' & M' & DD'). pose proof (rd_range y mo d Y M DD). pose proof (rd_range y' mo' d' Y' M' DD').
  assert (K1 : y + 1 < y' -> ystart (y + 1) + 365 <= ystart y') by (intro; pose proof (ystart_mono (y + 1) y' ltac:(lia) ltac:(lia)); lia).
  assert (K2 : y' + 1 < y -> ystart (y' + 1) + 365 <= ystart y) by (intro; pose proof (ystart_mono (y' + 1) y ltac:(lia) ltac:(lia)); lia). lia.
Qed.
(** Converting an aware datetime to another zone keeps the instant: the wall clock moves by the difference of
    the offsets. *)
Theorem C58_astimezone : forall rnd m a l z x o b, Nearest rnd -> evening rnd m -> naw_ruz_order rnd m -> on_line rnd m a l -> calm_dt a -> valid_dt_clock a -> good_offset (Some z) -> coherent (dt_tz a) (Some z) ->
  offset (dt_tz a) = Some x -> tz_off z = Some o -> dt_astimezone rnd m a z = Ok b ->
  on_line rnd m b (l - x + o) /\ offset (dt_tz b) = Some o /\ is_short (dt_d b) = is_short (dt_d a) /\ (coherent (dt_tz b) (dt_tz a) -> dt_sub rnd m b a = Ok 0).
Proof.
  intros rnd m a l z x o b N E O H CA (VC & _ & G) GZ C X OZ A. unfold dt_astimezone in A. assert (ST : steady_dt a) by (intros y mo d D; apply (CA y mo d y D); lia).
  pose proof (G x X) as GX. pose proof (GZ o OZ) as GO. assert (CKA : 0 <= dt_clock a <= 91000000000) by (unfold valid_clock in VC; unfold dt_clock, clock_us; lia). destruct (dt_tz a) as [z0|] eqn:TA; [|discriminate]. cbn [offset] in X. rewrite X in A.
  destruct (Z.eqb_spec (tz_id z) (tz_id z0)) as [I|I].
  - assert (b = a) by congruence. subst b. assert (XO : x = o). { assert (Q : same_tz (Some z0) (Some z) = true) by (cbn; lia). specialize (C Q). cbn [offset] in C. congruence. }
    subst o. replace (l - x + x) with l by lia. split; [exact H|]. split; [rewrite TA; exact X|]. split; [reflexivity|]. intro CC.
    rewrite (C25_difference rnd m a a l l N E O H H ST ST ltac:(rewrite TA; exact G) ltac:(rewrite TA; exact G) ltac:(intro; reflexivity)). rewrite TA. cbn [offset]. rewrite X. f_equal. lia.
  - destruct (dt_sub_td rnd m a x) as [u|] eqn:U; [|discriminate]. cbn [bind] in A. unfold dt_sub_td in U. destruct (C25_add rnd m a l (- x) u N E O H ST U) as (LU & PU & TU & FU & _).
    destruct (dt_replace rnd m u None None None None None None None None None (Some (Some z)) None) as [w|] eqn:W; [|discriminate]. cbn [bind] in A.
    destruct (C48_datetime_replace _ _ _ _ _ _ _ _ _ _ _ _ _ _ _ W) as (Q1 & Q2 & Q3 & Q4 & Q5 & _ & Q7). cbn [dflt] in *.
    assert (QD : dt_d w = dt_d u).
    { destruct LU as (y1 & mo1 & d1 & _ & S1 & _). pose proof (C48_replace_nothing rnd m (dt_d u) y1 mo1 d1 N E S1). congruence. }
    assert (LW : on_line rnd m w (l + - x)). { destruct LU as (y1 & mo1 & d1 & r & S1 & R1 & L1). exists y1, mo1, d1, r. rewrite QD. split; [exact S1|]. split; [exact R1|]. rewrite L1. unfold dt_clock. congruence. }
    unfold zone_fromutc in A. rewrite Q5, OZ, Z.eqb_refl in A. assert (SW : steady_dt w) by (apply (near_steady rnd m a w l (l + - x) N E H LW); [exact CA|lia|exact CKA|unfold plain_clock in PU; unfold dt_clock, clock_us; rewrite Q1, Q2, Q3, Q4; lia]).
    destruct (C25_add rnd m w _ o b N E O LW SW A) as (LB & PB & TB & FB & _).
    assert (LB' : on_line rnd m b (l - x + o)) by (replace (l - x + o) with (l + - x + o) by lia; exact LB). rewrite Q5 in TB.
    split; [exact LB'|]. split; [rewrite TB; exact OZ|]. split; [congruence|]. intro CC.
    assert (SB : steady_dt b) by (apply (near_steady rnd m a b l (l - x + o) N E H LB'); [exact CA|lia|exact CKA|unfold plain_clock in PB; unfold dt_clock, clock_us; lia]).
    rewrite (C25_difference rnd m b a (l - x + o) l N E O LB' H SB ST); [|rewrite TB; exact GZ|rewrite TA; exact G|rewrite TA; exact CC].
    rewrite TB, TA. cbn [offset]. rewrite OZ, X. f_equal. lia.
Qed.
Print Assumptions C58_astimezone.
Example C58_case : dt_astimezone b64 sample_sun (mk_dt 181 18 19 23 0 0 0 (mk_tz 1 0)) {| tz_id := 2; tz_off := Some 12600000000 |} = Ok (mk_dt 181 0 1 2 30 0 0 (mk_tz 2 12600000000)).
Proof. vm_compute. reflexivity. Qed.
