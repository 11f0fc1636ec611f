(** PropertiesDst.v -- C99: times and datetimes in zones of any kind. *)
From Coq Require Import ZArith QArith Qround Qabs List Bool Lia String.
From Coq Require Import ZifyBool.
From Verif Require Import Base Flt BaseModel MiscModel BadiModel SpecBadi BadiProofs BadiProofs2 BadiProofs3 DecProofs BadiProofs4 LongYear LongProofs BadiProofs5
  TduModel DateModel SpecDate TduProofs TduProofs2 TduProofs3 DateProofs SampleSun PropertiesBadi PropertiesDate PropertiesDate2
  TimeModel SpecTime TimeProofs PropertiesTime PropertiesDt TextModel DstModel SpecDst.
Import ListNotations.
Local Open Scope Z_scope.

(** The datetime with a zone that always answers [o]. *)
Definition pin (a : xdt) (o : option Z) : pdt :=
  {| dt_d := dt_d (x_wall a); dt_h := dt_h (x_wall a); dt_mi := dt_mi (x_wall a); dt_s := dt_s (x_wall a); dt_us := dt_us (x_wall a);
     dt_tz := match x_tz a with Some z => Some {| tz_id := x_id z; tz_off := o |} | None => None end; dt_fold := dt_fold (x_wall a) |}.
Lemma says_off z w o : says z w o -> (match z with None => Ok None | Some z => checked_offset (x_utcoffset z (Some w)) end) = Ok o.
Proof.
  destruct z as [z|]; [|cbn; congruence]. destruct o as [x|]; cbn [says]; [intros (-> & R)|intros ->; reflexivity].
  cbn [checked_offset]. unfold DAY. destruct (_ && _) eqn:Q; [reflexivity|lia].
Qed.
Lemma says_utc a o : says (x_tz a) (x_wall a) o -> xdt_utcoffset a = Ok o.
Proof. exact (says_off _ _ o). Qed.
Lemma says_unique z w o o' : says z w o -> says z w o' -> o = o'.
Proof. intros H H'. apply says_off in H. apply says_off in H'. congruence. Qed.
Lemma pin_offset a o : says (x_tz a) (x_wall a) o -> offset (dt_tz (pin a o)) = o.
Proof. destruct a as [w [z|]]; cbn; congruence. Qed.
Lemma pin_offset' a o w : says (x_tz a) w o -> offset (dt_tz (pin a o)) = o.
Proof. destruct a as [w' [z|]]; cbn; congruence. Qed.
Lemma pin_good a o w : says (x_tz a) w o -> good_offset (dt_tz (pin a o)).
Proof. intros S x. rewrite (pin_offset' a o w S). intros ->. destruct a as [w' [z|]]; cbn in S; [lia|discriminate]. Qed.
Lemma pin_utc a o w : says (x_tz a) w o -> utcoffset (dt_tz (pin a o)) = Ok o.
Proof. intro S. rewrite (utcoffset_ok _ (pin_good a o w S)). rewrite (pin_offset' a o w S). reflexivity. Qed.
Lemma pin_same a b o o' : same_tz (dt_tz (pin a o)) (dt_tz (pin b o')) = same_zone (x_tz a) (x_tz b).
Proof. destruct a as [w [z|]], b as [w' [z'|]]; reflexivity. Qed.
Lemma pin_fields a o : dt_fields (pin a o) = dt_fields (x_wall a).
Proof. reflexivity. Qed.
Lemma sub_pin rnd m a b o o' : says (x_tz a) (x_wall a) o -> says (x_tz b) (x_wall b) o' -> xdt_sub rnd m a b = dt_sub rnd m (pin a o) (pin b o').
Proof.
  intros S S'. unfold xdt_sub, dt_sub. rewrite pin_same, (pin_utc a o _ S), (pin_utc b o' _ S'), (says_utc a o S), (says_utc b o' S'). reflexivity.
Qed.
Lemma cmp_pin rnd m a b o o' : says (x_tz a) (x_wall a) o -> says (x_tz b) (x_wall b) o' -> xdt_cmp rnd m false a b = dt_cmp rnd m false (pin a o) (pin b o').
Proof.
  intros S S'. unfold xdt_cmp, dt_cmp. rewrite pin_same, (pin_utc a o _ S), (pin_utc b o' _ S'), (says_utc a o S), (says_utc b o' S'), (sub_pin rnd m a b o o' S S'). reflexivity.
Qed.
Lemma stands_sup rnd m a l : stands_at rnd m a l -> exists y mo d, supported rnd m (dt_d (x_wall a)) y mo d.
Proof. intros ((y & mo & d & _ & S & _) & _). eauto. Qed.
Lemma refold rnd m a l f : Nearest rnd -> evening rnd m -> stands_at rnd m a l -> f = 0 \/ f = 1 -> with_fold rnd m a f = Ok {| x_wall := in_fold f (x_wall a); x_tz := x_tz a |}.
Proof.
  intros N E H F. pose proof (stands_sup rnd m a l H) as (y & mo & d & S). destruct H as (_ & SH & (V & _ & _) & T).
  destruct (sup_ok rnd m _ y mo d N E S) as (D & K & Y). apply clock_ok_spec in V. unfold with_fold, dt_replace.
  destruct (dt_d (x_wall a)) as [y0 mo0 d0|] eqn:DD; [|discriminate]. cbn [truthy orb dflt denotes] in *. destruct D as (-> & -> & ->).
  rewrite dt_new_eq, V, (new_short rnd N m E _ _ _ K). destruct F as [-> | ->]; cbn [bind Z.eqb orb andb]; unfold in_fold; rewrite DD; reflexivity.
Qed.
Lemma fold_of a l rnd m : stands_at rnd m a l -> (if dt_fold (x_wall a) =? 0 then 1 else 0) = 1 - dt_fold (x_wall a) /\ (1 - dt_fold (x_wall a) = 0 \/ 1 - dt_fold (x_wall a) = 1).
Proof. intros (_ & _ & (_ & F & _) & _). destruct F as [-> | ->]; cbn; lia. Qed.
Lemma matters rnd m a l o o' : Nearest rnd -> evening rnd m -> stands_at rnd m a l -> says (x_tz a) (other_fold (x_wall a)) o' -> fold_matters rnd m a o = Ok (negb (opt_eqb o o')).
Proof.
  intros N E H S. unfold fold_matters. destruct (fold_of a l rnd m H) as [-> F]. rewrite (refold rnd m a l _ N E H F). cbn [bind].
  assert (U : xdt_utcoffset {| x_wall := in_fold (1 - dt_fold (x_wall a)) (x_wall a); x_tz := x_tz a |} = Ok o') by (apply says_utc; exact S). rewrite U. reflexivity.
Qed.
Lemma opt_eqb_refl o : opt_eqb o o = true.
Proof. destruct o; cbn; lia. Qed.
Lemma opt_eqb_ne o o' : o <> o' -> opt_eqb o o' = false.
Proof. destruct o, o'; cbn; try congruence. intro H. destruct (Z.eqb_spec z z0); [congruence|reflexivity]. Qed.
Lemma cmp_pin_mixed rnd m a b l l' o o' : Nearest rnd -> evening rnd m -> stands_at rnd m a l -> stands_at rnd m b l' -> settled a o -> settled b o' ->
  xdt_cmp rnd m true a b = dt_cmp rnd m true (pin a o) (pin b o').
Proof.
  intros N E H H' (S & SO) (S' & SO'). unfold xdt_cmp, dt_cmp. rewrite pin_same, (pin_utc a o _ S), (pin_utc b o' _ S'), (says_utc a o S), (says_utc b o' S'), (sub_pin rnd m a b o o' S S').
  cbn [bind]. rewrite (matters rnd m a l o o N E H SO), (matters rnd m b l' o' o' N E H' SO'), !opt_eqb_refl. reflexivity.
Qed.
Lemma pin_line rnd m a l o : stands_at rnd m a l -> on_line rnd m (pin a o) l.
Proof. intros (H & _). exact H. Qed.
Lemma pin_valid rnd m a l o w : stands_at rnd m a l -> says (x_tz a) w o -> valid_dt_clock (pin a o).
Proof. intros (_ & _ & (V & F & _) & _) S. split; [exact V|]. split; [exact F|]. exact (pin_good a o w S). Qed.

(** ** What the methods return *)
(** Whatever the tzinfo of a datetime answers, utcoffset(), dst() and tzname() give None, an offset within a day, a name, the
    exception raised by the tzinfo, ValueError for an offset out of range or TypeError for an object of another kind. *)
Theorem C99_answers : forall a z, x_tz a = Some z ->
  (xdt_utcoffset a = match x_utcoffset z (Some (x_wall a)) with
                     | ANone => Ok None | ADelta o => if (-86400000000 <? o) && (o <? 86400000000) then Ok (Some o) else Err ValueError
                     | AText _ | AOther => Err TypeError | ARaise e => Err e end) /\
  (xdt_dst a = match x_dst z (Some (x_wall a)) with
               | ANone => Ok None | ADelta o => if (-86400000000 <? o) && (o <? 86400000000) then Ok (Some o) else Err ValueError
               | AText _ | AOther => Err TypeError | ARaise e => Err e end) /\
  (xdt_tzname a = match x_tzname z (Some (x_wall a)) with
                  | ANone => Ok None | AText t => Ok (Some t) | ADelta _ | AOther => Err TypeError | ARaise e => Err e end).
Proof. intros a z Z. unfold xdt_utcoffset, xdt_dst, xdt_tzname. rewrite Z. repeat split. Qed.
Print Assumptions C99_answers.
(** A time asks about None: its offset does not depend on the time or the fold.  badioffset() is the offset less that of
    Tehran, and is not checked again: it can be up to 27 hours and a half. *)
Theorem C99_times : forall a z, xt_tz a = Some z ->
  (xtime_utcoffset a = match x_utcoffset z None with
                       | ANone => Ok None | ADelta o => if (-86400000000 <? o) && (o <? 86400000000) then Ok (Some o) else Err ValueError
                       | AText _ | AOther => Err TypeError | ARaise e => Err e end) /\
  (forall o, xtime_utcoffset a = Ok (Some o) -> xtime_badioffset a = Ok (Some (o - 12600000000))) /\
  (xtime_utcoffset a = Ok None -> xtime_badioffset a = Ok None) /\
  (forall o, xtime_dst a = Ok (Some o) -> -86400000000 < o < 86400000000) /\
  (forall b, xt_tz b = Some z -> xtime_utcoffset b = xtime_utcoffset a /\ xtime_dst b = xtime_dst a /\ xtime_tzname b = xtime_tzname a).
Proof.
  intros a z Z. unfold xtime_badioffset, xtime_dst, xtime_tzname, xtime_utcoffset. rewrite Z. split; [reflexivity|]. split; [intros o ->; reflexivity|]. split; [intros ->; reflexivity|].
  split; [|intros b ->; tauto]. intros o H. destruct (x_dst z None); cbn [checked_offset] in H; try discriminate. destruct (_ && _) eqn:Q; [|discriminate]. unfold DAY in Q. injection H as <-. lia.
Qed.
Print Assumptions C99_times.

(** ** Order *)
(** Datetimes of different zones are ordered by their instants: the wall clocks less the offsets the zones give at those
    clocks (if the offsets differ; the fields decide if they agree, as in C26).  == agrees with the order when neither offset
    depends on the fold. *)
Theorem C99_instants : forall rnd m a b l l' x y, Nearest rnd -> evening rnd m -> naw_ruz_order rnd m -> stands_at rnd m a l -> stands_at rnd m b l' ->
  steady_dt (x_wall a) -> steady_dt (x_wall b) -> same_zone (x_tz a) (x_tz b) = false -> says (x_tz a) (x_wall a) (Some x) -> says (x_tz b) (x_wall b) (Some y) -> x <> y ->
  xdt_sub rnd m a b = Ok ((l - x) - (l' - y)) /\ ordered_as rnd m a b (l - x) (l' - y) /\
  (settled a (Some x) -> settled b (Some y) -> xdt_eq rnd m a b = Ok (l - x =? l' - y)).
Proof.
  intros rnd m a b l l' x y N E O H H' ST ST' NZ S S' NE. pose proof (pin_good a _ _ S) as G. pose proof (pin_good b _ _ S') as G'.
  assert (C : coherent (dt_tz (pin a (Some x))) (dt_tz (pin b (Some y)))) by (intro Q; rewrite pin_same in Q; congruence).
  pose proof (pin_offset a _ S) as X. pose proof (pin_offset b _ S') as Y.
  destruct (C26_aware_instants rnd m _ _ l l' x y N E O (pin_line rnd m a l (Some x) H) (pin_line rnd m b l' (Some y) H') ST ST' G G' C X Y NE) as (EQ & LT & LE & GT & GE).
  split; [rewrite (sub_pin rnd m a b _ _ S S'), (C25_difference rnd m _ _ l l' N E O (pin_line rnd m a l (Some x) H) (pin_line rnd m b l' (Some y) H') ST ST' G G' C), X, Y; reflexivity|].
  split.
  - unfold ordered_as, xdt_lt, xdt_le, xdt_gt, xdt_ge. rewrite (cmp_pin rnd m a b _ _ S S'). tauto.
  - intros SA SB. unfold xdt_eq. rewrite (cmp_pin_mixed rnd m a b l l' _ _ N E H H' SA SB). exact EQ.
Qed.
Print Assumptions C99_instants.
(** In a repeated or skipped hour a datetime is different from every datetime of another zone, though it is ordered with
    them by its instant: of two such datetimes of one instant each is at least the other and they are not equal. *)
Theorem C99_unsettled : forall rnd m a b l l' o o' p, Nearest rnd -> evening rnd m -> stands_at rnd m a l -> stands_at rnd m b l' ->
  same_zone (x_tz a) (x_tz b) = false -> unsettled a o o' -> (settled b p \/ exists p', unsettled b p p') -> xdt_eq rnd m a b = Ok false /\ xdt_eq rnd m b a = Ok false.
Proof.
  intros rnd m a b l l' o o' p N E H H' NZ (S & SO & NE) SB.
  assert (NZ' : same_zone (x_tz b) (x_tz a) = false) by (destruct (x_tz a), (x_tz b); cbn in *; try discriminate; try reflexivity; lia).
  assert (SB' : says (x_tz b) (x_wall b) p /\ exists p', says (x_tz b) (other_fold (x_wall b)) p') by (destruct SB as [(A & B)|(p' & A & B & _)]; eauto). destruct SB' as (S' & p' & SO').
  unfold xdt_eq, xdt_cmp. rewrite NZ, NZ', (says_utc a o S), (says_utc b p S'). cbn [bind].
  rewrite (matters rnd m a l o o' N E H SO), (matters rnd m b l' p p' N E H' SO'), (opt_eqb_ne o o' NE). cbn [bind negb].
  split; [reflexivity|]. destruct (opt_eqb p p'); reflexivity.
Qed.
Print Assumptions C99_unsettled.
Theorem C99_trichotomy_refuted : forall rnd m a b l l' x x' y, Nearest rnd -> evening rnd m -> naw_ruz_order rnd m -> stands_at rnd m a l -> stands_at rnd m b l' ->
  steady_dt (x_wall a) -> steady_dt (x_wall b) -> same_zone (x_tz a) (x_tz b) = false -> unsettled a (Some x) (Some x') -> settled b (Some y) -> x <> y -> l - x = l' - y ->
  xdt_lt rnd m a b = Ok false /\ xdt_gt rnd m a b = Ok false /\ xdt_eq rnd m a b = Ok false /\ xdt_le rnd m a b = Ok true /\ xdt_ge rnd m a b = Ok true /\ xdt_sub rnd m a b = Ok 0.
Proof.
  intros rnd m a b l l' x x' y N E O H H' ST ST' NZ U SB NE I. destruct (C99_instants rnd m a b l l' x y N E O H H' ST ST' NZ (proj1 U) (proj1 SB) NE) as (D & (LT & LE & GT & GE) & _).
  destruct (C99_unsettled rnd m a b l l' _ _ _ N E H H' NZ U (or_introl SB)) as (EQ & _). rewrite LT, LE, GT, GE, D, EQ. repeat split; f_equal; lia.
Qed.
Print Assumptions C99_trichotomy_refuted.
(** Datetimes of one zone are compared and subtracted by their wall clocks: the zone is not asked.  So the two passes of a
    repeated hour are equal, and their difference is 0, whatever the zone says. *)
Theorem C99_one_zone : forall rnd m a b l l', Nearest rnd -> evening rnd m -> naw_ruz_order rnd m -> stands_at rnd m a l -> stands_at rnd m b l' ->
  steady_dt (x_wall a) -> steady_dt (x_wall b) -> same_zone (x_tz a) (x_tz b) = true ->
  xdt_sub rnd m a b = Ok (l - l') /\ (xdt_eq rnd m a b = Ok true <-> same_wall (x_wall a) (x_wall b)) /\
  (xdt_lt rnd m a b = Ok true \/ xdt_gt rnd m a b = Ok true <-> ~ same_wall (x_wall a) (x_wall b)).
Proof.
  intros rnd m a b l l' N E O H H' ST ST' SZ. split.
  - unfold xdt_sub. rewrite SZ. destruct (line_steady rnd m _ l N E O (proj1 H) ST) as (y & mo & d & _ & _ & _ & _ & -> & ->).
    destruct (line_steady rnd m _ l' N E O (proj1 H') ST') as (y' & mo' & d' & _ & _ & _ & _ & -> & ->). cbn [bind]. f_equal. unfold DAY, dt_secs, dt_clock, clock_us. lia.
  - unfold xdt_eq, xdt_lt, xdt_gt, xdt_cmp. rewrite SZ. cbn [bind]. destruct H as (_ & F & _), H' as (_ & F' & _). unfold same_wall.
    assert (Q : cmp_tuple (dt_fields (x_wall a)) (dt_fields (x_wall b)) = 0 <-> dt_d (x_wall a) = dt_d (x_wall b) /\ dt_h (x_wall a) = dt_h (x_wall b) /\ dt_mi (x_wall a) = dt_mi (x_wall b) /\
      dt_s (x_wall a) = dt_s (x_wall b) /\ dt_us (x_wall a) = dt_us (x_wall b)).
    { unfold dt_fields. destruct (dt_d (x_wall a)) as [y mo d|]; [|discriminate]. destruct (dt_d (x_wall b)) as [y' mo' d'|]; [|discriminate]. cbn [ymd]. rewrite cmp_eq by reflexivity.
      split; [intro K; injection K as -> -> -> -> -> -> ->; repeat split|intros (D & -> & -> & -> & ->); injection D as -> -> ->; reflexivity]. }
    split.
    + rewrite <- Q. split; [intro K; injection K as K; lia|intros ->; reflexivity].
    + rewrite <- Q. split; [intros [K|K]; injection K as K; lia|]. intro K. destruct (Z.ltb_spec (cmp_tuple (dt_fields (x_wall a)) (dt_fields (x_wall b))) 0); [left; reflexivity|right; f_equal; lia].
Qed.
Print Assumptions C99_one_zone.
Theorem C99_repeated_hour_refuted : forall rnd m a b l o o', Nearest rnd -> evening rnd m -> naw_ruz_order rnd m -> stands_at rnd m a l -> stands_at rnd m b l ->
  steady_dt (x_wall a) -> x_wall b = other_fold (x_wall a) -> x_tz b = x_tz a -> unsettled a o o' -> 
  xdt_utcoffset a = Ok o /\ xdt_utcoffset b = Ok o' /\ o <> o' /\ xdt_eq rnd m a b = Ok true /\ xdt_sub rnd m a b = Ok 0.
Proof.
  intros rnd m a b l o o' N E O H H' ST W Z (S & SO & NE). split; [apply says_utc, S|]. split; [apply says_utc; rewrite W, Z; exact SO|]. split; [exact NE|].
  assert (SZ : same_zone (x_tz a) (x_tz b) = true) by (rewrite Z; destruct (x_tz a); cbn; [lia|reflexivity]).
  assert (ST' : steady_dt (x_wall b)) by (rewrite W; exact ST).
  destruct (C99_one_zone rnd m a b l l N E O H H' ST ST' SZ) as (D & EQ & _). split; [apply EQ; rewrite W; repeat split|rewrite D; f_equal; lia].
Qed.
Print Assumptions C99_repeated_hour_refuted.

(** ** Hashing *)
Lemma hash_pin rnd m a l o : Nearest rnd -> evening rnd m -> stands_at rnd m a l -> says (x_tz a) (in_fold 0 (x_wall a)) o ->
  xdt_hash rnd m a = dt_hash rnd m (pin a o).
Proof.
  intros N E H S. unfold xdt_hash, dt_hash.
  assert (R : (if negb (dt_fold (x_wall a) =? 0) then with_fold rnd m a 0 else Ok a) = Ok {| x_wall := in_fold 0 (x_wall a); x_tz := x_tz a |}).
  { destruct (Z.eqb_spec (dt_fold (x_wall a)) 0) as [F|F]; cbn [negb]; [|apply (refold rnd m a l 0 N E H); tauto]. destruct a as [w z]. cbn in *. f_equal. f_equal. destruct w. cbn in *. subst. reflexivity. }
  rewrite R. rewrite (dt_fold0 rnd m (pin a o) N E (stands_sup rnd m a l H) (pin_valid rnd m a l o _ H S)). cbn [bind].
  change (dt_tz {| dt_d := dt_d (pin a o); dt_h := dt_h (pin a o); dt_mi := dt_mi (pin a o); dt_s := dt_s (pin a o); dt_us := dt_us (pin a o); dt_tz := dt_tz (pin a o); dt_fold := 0 |}) with (dt_tz (pin a o)).
  rewrite (pin_utc a o _ S), (says_utc _ o) by exact S. cbn [bind]. destruct o as [x|]; [reflexivity|].
  unfold dt_getstate. cbn [x_wall in_fold dt_d dt_h dt_mi dt_s dt_us dt_tz dt_fold pin]. destruct (to_bytes _); reflexivity.
Qed.
(** Equal datetimes hash equal, in zones of any kind: the reason for the rule of [C99_unsettled] and for hashing in fold 0. *)
Theorem C99_hash : forall rnd m a b l l' o o' p p', Nearest rnd -> evening rnd m -> naw_ruz_order rnd m -> stands_at rnd m a l -> stands_at rnd m b l' ->
  (forall z z', x_tz a = Some z -> x_tz b = Some z' -> x_id z = x_id z' -> z = z') ->
  says (x_tz a) (x_wall a) o -> says (x_tz a) (other_fold (x_wall a)) o' -> says (x_tz b) (x_wall b) p -> says (x_tz b) (other_fold (x_wall b)) p' ->
  xdt_eq rnd m a b = Ok true -> exists k, xdt_hash rnd m a = Ok k /\ xdt_hash rnd m b = Ok k.
Proof.
  intros rnd m a b l l' o o' p p' N E O H H' ID S SO S' SO' EQ.
  assert (F0 : exists q, says (x_tz a) (in_fold 0 (x_wall a)) q /\ (o = o' -> q = o)).
  { destruct H as (_ & _ & (_ & F & _) & _). destruct F as [F|F].
    - exists o. split; [|tauto]. replace (in_fold 0 (x_wall a)) with (x_wall a); [exact S|]. destruct (x_wall a). cbn in F. subst. reflexivity.
    - exists o'. split; [|congruence]. unfold other_fold in SO. rewrite F in SO. exact SO. }
  assert (F0' : exists q, says (x_tz b) (in_fold 0 (x_wall b)) q /\ (p = p' -> q = p)).
  { destruct H' as (_ & _ & (_ & F & _) & _). destruct F as [F|F].
    - exists p. split; [|tauto]. replace (in_fold 0 (x_wall b)) with (x_wall b); [exact S'|]. destruct (x_wall b). cbn in F. subst. reflexivity.
    - exists p'. split; [|congruence]. unfold other_fold in SO'. rewrite F in SO'. exact SO'. }
  destruct F0 as (q & SQ & QO). destruct F0' as (q' & SQ' & QP).
  rewrite (hash_pin rnd m a l q N E H SQ), (hash_pin rnd m b l' q' N E H' SQ').
  assert (G : same_zone (x_tz a) (x_tz b) = true -> x_tz a = x_tz b).
  { destruct (x_tz a) as [z|] eqn:Z1, (x_tz b) as [z'|] eqn:Z2; cbn; try discriminate; try reflexivity. intro Q. f_equal. apply ID; [reflexivity|reflexivity|lia]. }
  apply (C26_equal_datetimes_hash_equal rnd m (pin a q) (pin b q') l l' N E O (proj1 (proj2 H)) (proj1 (proj2 H')) (pin_line rnd m a l q H) (pin_line rnd m b l' q' H')
    (pin_valid rnd m a l q _ H SQ) (pin_valid rnd m b l' q' _ H' SQ')).
  - intro Q. rewrite pin_same in Q. rewrite (pin_offset' a q _ SQ), (pin_offset' b q' _ SQ').
    (* one zone: equal wall clocks in fold 0 *)
    assert (W : same_wall (x_wall a) (x_wall b)).
    { unfold xdt_eq, xdt_cmp in EQ. rewrite Q in EQ. cbn [bind] in EQ. injection EQ as EQ. apply Z.eqb_eq in EQ. destruct H as (_ & F & _), H' as (_ & F' & _). unfold dt_fields, same_wall in *.
      destruct (dt_d (x_wall a)) as [y mo d|]; [|discriminate]. destruct (dt_d (x_wall b)) as [y' mo' d'|]; [|discriminate]. cbn [ymd] in EQ. apply cmp_eq in EQ; [|reflexivity].
      injection EQ as -> -> -> -> -> -> ->. repeat split. }
    destruct W as (W1 & W2 & W3 & W4 & W5). assert (T : dt_tz (x_wall a) = dt_tz (x_wall b)) by (destruct H as (_ & _ & _ & ->), H' as (_ & _ & _ & ->); reflexivity).
    assert (W0 : in_fold 0 (x_wall a) = in_fold 0 (x_wall b)) by (unfold in_fold; rewrite W1, W2, W3, W4, W5, T; reflexivity).
    rewrite W0, (G Q) in SQ. exact (says_unique _ _ _ _ SQ SQ').
  - destruct (same_zone (x_tz a) (x_tz b)) eqn:Q.
    + unfold dt_eq, dt_cmp. rewrite pin_same, Q, !pin_fields. unfold xdt_eq, xdt_cmp in EQ. rewrite Q in EQ. exact EQ.
    + assert (OO : o = o' /\ p = p').
      { unfold xdt_eq, xdt_cmp in EQ. rewrite Q, (says_utc a o S), (says_utc b p S') in EQ. cbn [bind] in EQ.
        rewrite (matters rnd m a l o o' N E H SO), (matters rnd m b l' p p' N E H' SO') in EQ. cbn [bind] in EQ.
        assert (D : forall u v, opt_eqb u v = true -> u = v) by (intros [u|] [v|]; cbn; try discriminate; try reflexivity; intro K; f_equal; lia).
        destruct (opt_eqb o o') eqn:Q1; [|discriminate]. cbn [negb] in EQ. destruct (opt_eqb p p') eqn:Q2; [|discriminate]. split; apply D; assumption. }
      destruct OO as (<- & <-). rewrite (QO eq_refl), (QP eq_refl). unfold dt_eq. rewrite <- (cmp_pin_mixed rnd m a b l l' o p N E H H' (conj S SO) (conj S' SO')). exact EQ.
Qed.
Print Assumptions C99_hash.

(** ** Conversion *)
(** astimezone hands the new zone the instant: the wall clock less the offset of the old zone, in fold 0, and takes its answer
    for the result.  The offset is the answer of the zone unchecked. *)
Theorem C99_astimezone : forall rnd m a z z0 l x u, Nearest rnd -> evening rnd m -> naw_ruz_order rnd m -> stands_at rnd m a l -> steady_dt (x_wall a) ->
  x_tz a = Some z0 -> x_id z <> x_id z0 -> x_utcoffset z0 (Some (x_wall a)) = ADelta x -> dt_sub_td rnd m (x_wall a) x = Ok u ->
  on_line rnd m u (l - x) /\ dt_fold u = 0 /\ is_short (dt_d u) = true /\ dt_tz u = None /\
  xdt_astimezone rnd m a z = match x_fromutc z u with Ok w => Ok {| x_wall := w; x_tz := Some z |} | Err e => Err e end.
Proof.
  intros rnd m a z z0 l x u N E O (H & SH & V & T) ST Z NE A D. unfold dt_sub_td in D.
  destruct (C25_add rnd m (x_wall a) l (- x) u N E O H ST D) as (L & _ & Z' & F & FO). split; [exact L|]. split; [exact FO|]. split; [congruence|]. split; [congruence|].
  unfold xdt_astimezone. rewrite Z, A. replace (x_id z =? x_id z0) with false by lia. unfold dt_sub_td. rewrite D. reflexivity.
Qed.
Print Assumptions C99_astimezone.
(** A class that does not define fromutc itself inherits that of the standard library, which refuses the datetimes of this package. *)
Theorem C99_inherited_fromutc_refuted : forall rnd m a z z0 x u, x_tz a = Some z0 -> x_id z <> x_id z0 -> x_utcoffset z0 (Some (x_wall a)) = ADelta x -> dt_sub_td rnd m (x_wall a) x = Ok u ->
  (forall w, x_fromutc z w = Err TypeError) -> xdt_astimezone rnd m a z = Err TypeError.
Proof.
  intros rnd m a z z0 x u Z NE A D F. unfold xdt_astimezone. rewrite Z, A. replace (x_id z =? x_id z0) with false by lia. rewrite D. cbn [bind]. rewrite F. reflexivity.
Qed.
Print Assumptions C99_inherited_fromutc_refuted.

(** A zone with summer time (an hour more) in months 1 to 10, the change back at 01:00 (summer) of the first day of month 11. *)
Definition sample_zone : xzone :=
  {| x_id := 7; x_utcoffset := fun w => match w with
       | None => ANone
       | Some w => let '(_, mo, d) := ymd (dt_d w) in
           if (mo =? 11) && (d =? 1) && (dt_h w =? 0) then ADelta (if dt_fold w =? 0 then 7200000000 else 3600000000)
           else ADelta (if (1 <=? mo) && (mo <=? 10) then 7200000000 else 3600000000) end;
     x_dst := fun _ => AOther; x_tzname := fun _ => AText [83]; x_fromutc := fun _ => Err TypeError |}.
Definition sample_utc : xzone :=
  {| x_id := 8; x_utcoffset := fun _ => ADelta 0; x_dst := fun _ => ANone; x_tzname := fun _ => ANone; x_fromutc := fun w => Ok w |}.
Definition mk_xdt (y mo d h mi f : Z) (z : xzone) : xdt := {| x_wall := in_fold f (mk_dt y mo d h mi 0 0 None); x_tz := Some z |}.
Example C99_case : let a := mk_xdt 181 11 1 0 30 0 sample_zone in let b := mk_xdt 181 11 1 0 30 1 sample_zone in let c := mk_xdt 181 10 19 22 30 0 sample_utc in
  (exists l, stands_at b64 sample_sun a l) /\ steady_dt (x_wall a) /\ unsettled a (Some 7200000000) (Some 3600000000) /\ settled c (Some 0) /\
  xdt_eq b64 sample_sun a b = Ok true /\ xdt_hash b64 sample_sun a = xdt_hash b64 sample_sun b /\ xdt_eq b64 sample_sun a c = Ok false /\ xdt_sub b64 sample_sun a c = Ok 0 /\
  xdt_le b64 sample_sun a c = Ok true /\ xdt_ge b64 sample_sun a c = Ok true /\ xdt_dst a = Err TypeError /\
  xdt_eq b64 sample_sun (mk_xdt 181 12 1 1 0 0 sample_zone) (mk_xdt 181 12 1 0 0 0 sample_utc) = Ok true /\
  is_ok (xdt_astimezone b64 sample_sun a sample_utc) = true /\ xdt_astimezone b64 sample_sun c sample_zone = Err TypeError.
Proof.
  cbv zeta. split.
  { exists (zrd 181 11 1 * 86400000000 + dt_clock (x_wall (mk_xdt 181 11 1 0 30 0 sample_zone))). split; [|split; [reflexivity|split; [|reflexivity]]].
    - apply (on_line_of b64 sample_sun _ 181 11 1 b64_nearest (sample_evening b64)). sup.
    - split; [vm_compute; repeat split; discriminate|]. split; [left; reflexivity|]. intros o K. discriminate. }
  split; [intros y mo d D; cbn in D; destruct D as (<- & _); vm_compute; intuition lia|].
  split; [split; [vm_compute; repeat split; discriminate|split; [vm_compute; repeat split; discriminate|discriminate]]|].
  split; [split; vm_compute; repeat split; discriminate|]. vm_compute. tauto.
Qed.
