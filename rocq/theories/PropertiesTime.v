(** PropertiesTime.v -- C22 to C24, C27 and C48 for times of day and fixed zones. *)
From Coq Require Import ZArith QArith Qround Qabs List Bool Lia String.
From Coq Require Import ZifyBool ZifyNat ZifyN.
From Verif Require Import Base Flt BaseModel BadiModel SpecBadi TduModel DateModel SpecDate TimeModel SpecTime TimeProofs.
Import ListNotations.
Local Open Scope Z_scope.
Ltac Zify.zify_post_hook ::= Z.div_mod_to_equations.

Definition mk_tz (i o : Z) : option tz := Some {| tz_id := i; tz_off := Some o |}.
Definition mk_time (h mi s us : Z) (z : option tz) : ptime := {| t_h := h; t_mi := mi; t_s := s; t_us := us; t_tz := z; t_fold := 0 |}.
Ltac vt := unfold valid_pair, valid_time, valid_clock, good_offset, coherent, same_tz, mk_tz, mk_time; cbn [offset t_h t_mi t_s t_us t_tz t_fold tz_off tz_id];
  repeat match goal with |- _ /\ _ => split | |- Some _ = Some _ -> _ => let H := fresh in intro H; injection H as <- | |- None = Some _ -> _ => discriminate | |- forall _, _ => intro end;
  try lia; try discriminate; try reflexivity; try tauto.

(** ** C56: the constructor accepts exactly the valid clock fields *)
Theorem C56_time_constructor : forall h mi s us z fold, 
  (valid_clock h mi s us /\ (fold = 0 \/ fold = 1) <-> time_new h mi s us z fold = Ok {| t_h := h; t_mi := mi; t_s := s; t_us := us; t_tz := z; t_fold := fold |}) /\
  (~ (valid_clock h mi s us /\ (fold = 0 \/ fold = 1)) <-> time_new h mi s us z fold = Err AssertionError).
Proof.
  intros h mi s us z fold. unfold time_new. rewrite check_fields.
  destruct (clock_ok h mi s us && ((fold =? 0) || (fold =? 1))) eqn:Q; cbn [bind].
  - apply andb_prop in Q as [Q1 Q2]. apply clock_ok_spec in Q1. split; (split; [intro H|intro H]); try reflexivity; try discriminate; try (split; [exact Q1|lia]).
    exfalso. apply H. split; [exact Q1|lia].
  - assert (X : ~ (valid_clock h mi s us /\ (fold = 0 \/ fold = 1))).
    { intros [V F]. apply clock_ok_spec in V. rewrite V in Q. destruct F as [->| ->]; discriminate. }
    split; (split; [intro H|intro H]); try reflexivity; try discriminate; try exact X. contradiction.
Qed.
Print Assumptions C56_time_constructor.

(** ** C22: pickling times *)
(** Fold survives from protocol 4 on; every other field always does. *)
Theorem C22_time_roundtrip : forall p a, valid_time a -> t_h a <= 23 ->
  exists st, time_getstate p a = Ok st /\
    time_unpickle st = Ok {| t_h := t_h a; t_mi := t_mi a; t_s := t_s a; t_us := t_us a; t_tz := t_tz a; t_fold := if 3 <? p then t_fold a else 0 |}.
Proof.
  intros p a (V & F & _) H. unfold valid_clock in V. destruct (us_bytes_ok (t_us a)) as [_ U]; [lia|].
  unfold time_getstate. set (h := if negb (t_fold a =? 0) && (3 <? p) then t_h a + 128 else t_h a).
  assert (Hh : 0 <= h < 256) by (unfold h; destruct (_ && _); lia). cbv zeta. rewrite state_bytes by lia. cbn [bind].
  eexists. split; [reflexivity|]. cbn [time_unpickle app us_bytes]. 
  assert (Q : h mod 128 <? 24 = true) by (unfold h; destruct (_ && _); lia). rewrite Q, U. f_equal.
  assert (Q1 : (if 127 <? h then h - 128 else h) = t_h a) by (destruct (Z.ltb_spec 127 h); unfold h in *; destruct (_ && _); lia). rewrite Q1. f_equal.
  clear Q Q1. destruct (Z.ltb_spec 127 h) as [L|L]; unfold h in L; (destruct (3 <? p); [rewrite andb_true_r in L|rewrite andb_false_r in L; lia]);
  destruct F as [F|F]; rewrite F in *; cbn [Z.eqb negb] in L; lia.
Qed.
Print Assumptions C22_time_roundtrip.
(** A time of hour 24, time.max among them, pickles but does not unpickle, at any protocol. *)
Theorem C22_hour_24_lost : forall p a, valid_time a -> t_h a = 24 -> exists st, time_getstate p a = Ok st /\ time_unpickle st = Err TypeError.
Proof.
  intros p a (V & F & _) H. unfold valid_clock in V. unfold time_getstate. rewrite H. set (h := if negb (t_fold a =? 0) && (3 <? p) then 24 + 128 else 24).
  assert (Hh : h = 24 \/ h = 152) by (unfold h; destruct (_ && _); lia). cbv zeta. rewrite state_bytes by lia. cbn [bind].
  eexists. split; [reflexivity|]. cbn [time_unpickle app us_bytes]. destruct Hh as [-> | ->]; reflexivity.
Qed.
Print Assumptions C22_hour_24_lost.
Example C22_case : valid_time {| t_h := 23; t_mi := 59; t_s := 60; t_us := 999999; t_tz := mk_tz 1 (-3600000000); t_fold := 1 |} /\ valid_time (mk_time 24 0 3 0 None) /\
  time_getstate 4 {| t_h := 23; t_mi := 59; t_s := 60; t_us := 999999; t_tz := mk_tz 1 (-3600000000); t_fold := 1 |} = Ok ([151; 59; 60; 15; 66; 63], mk_tz 1 (-3600000000)).
Proof. split; [vt|]. split; [vt|reflexivity]. Qed.

(** ** C23: comparison of times *)
(** Naive times are ordered by their fields. *)
Theorem C23_naive : forall a b, valid_pair a b -> offset (t_tz a) = None -> offset (t_tz b) = None ->
  compares_as a b (position (local_minute a) (t_s a) (t_us a)) (position (local_minute b) (t_s b) (t_us b)).
Proof. intros a b V A B. apply compares_sgn; rewrite (time_cmp_pos _ a b V), A, B; reflexivity. Qed.
Print Assumptions C23_naive.
(** Aware times are ordered by the minute of UTC, then the seconds and microseconds. *)
Theorem C23_aware : forall a b x y, valid_pair a b -> offset (t_tz a) = Some x -> offset (t_tz b) = Some y ->
  compares_as a b (position (utc_minute a x) (t_s a) (t_us a)) (position (utc_minute b y) (t_s b) (t_us b)).
Proof. intros a b x y V A B. apply compares_sgn; rewrite (time_cmp_pos _ a b V), A, B; reflexivity. Qed.
Print Assumptions C23_aware.
(** For offsets of whole minutes and no leap second that is the order of the UTC instants. *)
Theorem C23_instants : forall a b x y, valid_pair a b -> offset (t_tz a) = Some x -> offset (t_tz b) = Some y ->
  whole_minutes x -> whole_minutes y -> t_s a <= 59 -> t_s b <= 59 -> compares_as a b (wall a - x) (wall b - y).
Proof.
  intros a b x y V A B X Y S S'. pose proof (time_cmp_pos true a b V) as C. pose proof (time_cmp_pos false a b V) as C'. rewrite A, B in C, C'.
  destruct V as ((V & _) & (V' & _) & _). unfold valid_clock in *. unfold whole_minutes in *.
  assert (Q : Z.sgn (position (utc_minute a x) (t_s a) (t_us a) - position (utc_minute b y) (t_s b) (t_us b)) = Z.sgn (wall a - x - (wall b - y))).
  { assert (WA : wall a - x = (utc_minute a x * 60 + t_s a) * 1000000 + t_us a) by (unfold wall, clock_us, utc_minute; lia).
    assert (WB : wall b - y = (utc_minute b y * 60 + t_s b) * 1000000 + t_us b) by (unfold wall, clock_us, utc_minute; lia).
    rewrite WA, WB. unfold position. generalize (utc_minute a x) (utc_minute b y). intros p q. lia. }
  rewrite Q in C, C'. apply compares_sgn; assumption.
Qed.
Print Assumptions C23_instants.
(** With an offset of seconds the order is not that of the instants: two names of one instant are unequal. *)
Theorem C23_subminute_refuted : exists a b x y, valid_pair a b /\ offset (t_tz a) = Some x /\ offset (t_tz b) = Some y /\ wall a - x = wall b - y /\
  time_eq a b = Ok false /\ time_gt a b = Ok true.
Proof.
  exists (mk_time 12 0 30 0 (mk_tz 1 30000000)), (mk_time 12 0 0 0 (mk_tz 2 0)), 30000000, 0. split; [vt|]. vm_compute. tauto.
Qed.
Print Assumptions C23_subminute_refuted.
(** The laws of a total preorder, on the naive times and on the aware ones. *)
Definition same_class (a b : ptime) : Prop := offset (t_tz a) = None <-> offset (t_tz b) = None.
Lemma compares_some a b : valid_pair a b -> same_class a b -> exists x y, compares_as a b x y.
Proof.
  intros V C. destruct (offset (t_tz a)) as [x|] eqn:A, (offset (t_tz b)) as [y|] eqn:B.
  - eexists _, _. apply (C23_aware a b x y V A B).
  - exfalso. unfold same_class in C. rewrite A, B in C. destruct C as [_ C]. discriminate (C eq_refl).
  - exfalso. unfold same_class in C. rewrite A, B in C. destruct C as [C _]. discriminate (C eq_refl).
  - eexists _, _. apply (C23_naive a b V A B).
Qed.
Theorem C23_operators_agree : forall a b, valid_pair a b -> same_class a b -> exists e l, time_eq a b = Ok e /\ time_lt a b = Ok l /\ e && l = false /\
  time_le a b = Ok (l || e) /\ time_gt a b = Ok (negb (l || e)) /\ time_ge a b = Ok (negb l) /\ (a = b -> e = true).
Proof.
  intros a b V C. destruct (compares_some a b V C) as (x & y & E & L & LE & G & GE). exists (x =? y), (x <? y). rewrite E, L, LE, G, GE.
  repeat split; try (f_equal; lia); try lia. intros ->. destruct (offset (t_tz b)) as [o|] eqn:O.
  - destruct (C23_aware b b o o V O O) as (E' & _). rewrite E in E'. injection E' as ->. lia.
  - destruct (C23_naive b b V O O) as (E' & _). rewrite E in E'. injection E' as ->. lia.
Qed.
Print Assumptions C23_operators_agree.
Theorem C23_transitive : forall a b c, valid_pair a b -> valid_pair b c -> valid_pair a c -> same_class a b -> same_class b c ->
  time_le a b = Ok true -> time_le b c = Ok true -> time_le a c = Ok true /\ (time_lt a c = Ok false -> time_lt a b = Ok false /\ time_lt b c = Ok false).
Proof.
  intros a b c V V' V'' C C' H H'. destruct (offset (t_tz a)) as [x|] eqn:A.
  - destruct (offset (t_tz b)) as [y|] eqn:B; [|unfold same_class in C; rewrite A, B in C; exfalso; destruct C as [_ C]; discriminate (C eq_refl)].
    destruct (offset (t_tz c)) as [z|] eqn:D; [|unfold same_class in C'; rewrite B, D in C'; exfalso; destruct C' as [_ C']; discriminate (C' eq_refl)].
    destruct (C23_aware a b x y V A B) as (_ & L1 & LE1 & _). destruct (C23_aware b c y z V' B D) as (_ & L2 & LE2 & _). destruct (C23_aware a c x z V'' A D) as (_ & L3 & LE3 & _).
    rewrite LE1 in H. rewrite LE2 in H'. rewrite L1, L2, L3, LE3. injection H as H. injection H' as H'. split; [f_equal; lia|]. intro K. injection K as K. split; f_equal; lia.
  - assert (B : offset (t_tz b) = None) by (apply C, A). assert (D : offset (t_tz c) = None) by (apply C', B).
    destruct (C23_naive a b V A B) as (_ & L1 & LE1 & _). destruct (C23_naive b c V' B D) as (_ & L2 & LE2 & _). destruct (C23_naive a c V'' A D) as (_ & L3 & LE3 & _).
    rewrite LE1 in H. rewrite LE2 in H'. rewrite L1, L2, L3, LE3. injection H as H. injection H' as H'. split; [f_equal; lia|]. intro K. injection K as K. split; f_equal; lia.
Qed.
Print Assumptions C23_transitive.

(** ** C23: hashing of times *)
Lemma pos_inj u s us u' s' us' : 0 <= s <= 60 -> 0 <= s' <= 60 -> 0 <= us <= 999999 -> 0 <= us' <= 999999 -> position u s us = position u' s' us' -> u = u' /\ s = s' /\ us = us'.
Proof. unfold position. intros. lia. Qed.
(** Equal times have equal hash keys, for offsets of whole minutes and hours below 24 (any hour if naive). *)
Theorem C23_equal_times_hash_equal : forall a b, valid_pair a b -> (forall o, offset (t_tz a) = Some o -> whole_minutes o /\ t_h a <= 23) ->
  (forall o, offset (t_tz b) = Some o -> whole_minutes o /\ t_h b <= 23) -> time_eq a b = Ok true -> exists k, time_hash a = Ok k /\ time_hash b = Ok k.
Proof.
  intros a b V WA WB E. unfold time_eq in E. rewrite (time_cmp_pos true a b V) in E. pose proof V as (VA & VB & _).
  rewrite (time_hash_cases a VA) by (intros o H; apply (WA o H)). rewrite (time_hash_cases b VB) by (intros o H; apply (WB o H)).
  destruct VA as (VA & _), VB as (VB & _). unfold valid_clock in *.
  destruct (offset (t_tz a)) as [x|], (offset (t_tz b)) as [y|]; cbn [bind] in E; try discriminate.
  - destruct (WA x eq_refl) as [WX HX]. destruct (WB y eq_refl) as [WY HY]. injection E as E.
    assert (P : position (utc_minute a x) (t_s a) (t_us a) = position (utc_minute b y) (t_s b) (t_us b)) by lia.
    apply pos_inj in P; try lia. destruct P as (PU & -> & ->).
    assert (NA : forall t : ptime, 0 <= t_h t <= 23 -> 0 <= t_mi t <= 59 -> (0 <=? utc_minute t 0) && (utc_minute t 0 <? 1440) = true /\ utc_minute t 0 / 60 = t_h t /\ utc_minute t 0 mod 60 = t_mi t) by (intros t ? ?; unfold utc_minute; lia).
    assert (GEN : forall (t : ptime) o, 0 <= t_h t <= 23 -> 0 <= t_mi t <= 59 -> forall s us,
       (if o =? 0 then Ok (HBytes ([t_h t; t_mi t; s] ++ us_bytes us)) else
        let u := utc_minute t o in if (0 <=? u) && (u <? 1440) then Ok (HBytes ([u / 60; u mod 60; s] ++ us_bytes us)) else Ok (HTuple [u / 60; u mod 60; s; us])) =
       let u := utc_minute t o in if (0 <=? u) && (u <? 1440) then Ok (HBytes ([u / 60; u mod 60; s] ++ us_bytes us)) else Ok (HTuple [u / 60; u mod 60; s; us])).
    { intros t o H1 H2 s us. destruct (Z.eqb_spec o 0) as [->|]; [|reflexivity]. destruct (NA t H1 H2) as (Q1 & Q2 & Q3). cbv zeta. rewrite Q1, Q2, Q3. reflexivity. }
    rewrite GEN by lia. rewrite GEN by lia. rewrite PU. cbv zeta. destruct (_ && _); eexists; split; reflexivity.
  - injection E as E. assert (P : position (local_minute a) (t_s a) (t_us a) = position (local_minute b) (t_s b) (t_us b)) by lia.
    apply pos_inj in P; try lia. destruct P as (PU & -> & ->). unfold local_minute in PU. assert (t_h a = t_h b) by lia. assert (t_mi a = t_mi b) by lia.
    exists (HBytes ([t_h a; t_mi a; t_s b] ++ us_bytes (t_us b))). split; congruence.
Qed.
Print Assumptions C23_equal_times_hash_equal.
(** At hour 24 equal aware times can have different hash keys. *)
Theorem C23_hash_hour_24_refuted : exists a b k k', valid_pair a b /\ time_eq a b = Ok true /\ time_hash a = Ok k /\ time_hash b = Ok k' /\ k <> k'.
Proof.
  exists (mk_time 24 0 0 0 (mk_tz 1 0)), (mk_time 23 0 0 0 (mk_tz 2 (-3600000000))). eexists _, _. split; [vt|].
  split; [reflexivity|]. split; [vm_compute; reflexivity|]. split; [vm_compute; reflexivity|discriminate].
Qed.
Print Assumptions C23_hash_hour_24_refuted.
(** A time whose offset is not a whole number of minutes cannot be hashed. *)
Theorem C23_hash_subminute : forall a o, valid_time a -> offset (t_tz a) = Some o -> ~ whole_minutes o -> time_hash a = Err AssertionError.
Proof.
  intros a o (V & F & G) E W. unfold time_hash.
  assert (R : exists t, (if negb (t_fold a =? 0) then time_replace a None None None None None (Some 0) else Ok a) = Ok t /\ t_tz t = t_tz a).
  { destruct (negb (t_fold a =? 0)); [|exists a; tauto]. unfold time_replace. cbn [dflt]. rewrite time_new_ok by tauto. eexists. split; reflexivity. }
  destruct R as (t & -> & T). cbn [bind]. rewrite T, (utcoffset_ok _ G), E. cbn [bind]. unfold whole_minutes in W.
  assert (Q : o =? 0 = false) by lia. rewrite Q. cbv zeta.
  assert (Q1 : ((t_h a * HOUR + t_mi a * MINUTE - o) mod HOUR) mod MINUTE =? 0 = false).
  { unfold HOUR, MINUTE. assert (K : ((t_h a * 3600000000 + t_mi a * 60000000 - o) mod 3600000000) mod 60000000 = (- o) mod 60000000) by lia. rewrite K. lia. }
  rewrite Q1. reflexivity.
Qed.
Print Assumptions C23_hash_subminute.
Example C23_case : valid_pair (mk_time 12 30 0 0 (mk_tz 1 12600000000)) (mk_time 9 0 0 0 (mk_tz 2 0)) /\ whole_minutes 12600000000 /\
  time_eq (mk_time 12 30 0 0 (mk_tz 1 12600000000)) (mk_time 9 0 0 0 (mk_tz 2 0)) = Ok true /\
  time_hash (mk_time 12 30 0 0 (mk_tz 1 12600000000)) = Ok (HBytes [9; 0; 0; 0; 0; 0]) /\
  time_hash (mk_time 1 0 0 0 (mk_tz 1 12600000000)) = Ok (HTuple [-3; 30; 0; 0]).
Proof. split; [vt|]. vm_compute. tauto. Qed.

(** ** C24: naive against aware *)
Theorem C24_times : forall a b, valid_pair a b -> ~ same_class a b ->
  time_eq a b = Ok false /\ time_lt a b = Err TypeError /\ time_gt a b = Err TypeError /\ time_ge a b = Err TypeError.
Proof.
  intros a b V C. unfold time_eq, time_lt, time_gt, time_ge. rewrite !(time_cmp_pos _ a b V). unfold same_class in C.
  destruct (offset (t_tz a)), (offset (t_tz b)); cbn [bind]; try tauto; exfalso; apply C; split; try tauto; discriminate.
Qed.
Print Assumptions C24_times.
(** <= does not raise: it answers False. *)
Theorem C24_le_refuted : forall a b, valid_pair a b -> ~ same_class a b -> time_le a b = Ok false.
Proof.
  intros a b V C. unfold time_le. rewrite (time_cmp_pos _ a b V). unfold same_class in C.
  destruct (offset (t_tz a)), (offset (t_tz b)); cbn [bind]; try tauto; exfalso; apply C; split; try tauto; discriminate.
Qed.
Print Assumptions C24_le_refuted.
Example C24_case : valid_pair (mk_time 1 0 0 0 None) (mk_time 2 0 0 0 (mk_tz 1 0)) /\ ~ same_class (mk_time 1 0 0 0 None) (mk_time 2 0 0 0 (mk_tz 1 0)).
Proof. split; [vt|]. unfold same_class. cbn. intros [H _]. discriminate (H eq_refl). Qed.

(** ** C27: fixed offset zones *)
Theorem C27_accepted : forall utc o name, z_off utc = 0 ->
  (-86400000000 < o < 86400000000 -> exists z, timezone_new utc o name = Ok z /\ zone_utcoffset z = o /\ (name <> None \/ o <> 0 -> z_name z = name)) /\
  (~ -86400000000 < o < 86400000000 -> timezone_new utc o name = Err ValueError).
Proof.
  intros utc o name U. unfold timezone_new, zone_utcoffset, DAY. split; intro R.
  - assert (Q : (- (86400000000 - 1) <=? o) && (o <=? 86400000000 - 1) = true) by lia. rewrite Q. destruct name as [n|].
    + eexists. repeat split.
    + destruct (Z.eqb_spec o 0) as [->|]; [exists utc; split; [reflexivity|]; split; [exact U|tauto]|]. eexists. repeat split.
  - assert (Q : (- (86400000000 - 1) <=? o) && (o <=? 86400000000 - 1) = false) by lia. rewrite Q. destruct name as [n|]; [reflexivity|].
    assert (Q1 : o =? 0 = false) by lia. rewrite Q1. reflexivity.
Qed.
Print Assumptions C27_accepted.
Theorem C27_equality : forall a b, (zone_eq a b = true <-> zone_utcoffset a = zone_utcoffset b) /\ (zone_eq a b = true -> zone_hash a = zone_hash b).
Proof. intros a b. unfold zone_eq, zone_hash, zone_utcoffset. lia. Qed.
Print Assumptions C27_equality.
(** Zones made from equal offsets are equal whatever their names. *)
Theorem C27_names_ignored : forall utc o o' n n' a b, z_off utc = 0 -> timezone_new utc o n = Ok a -> timezone_new utc o' n' = Ok b -> (zone_eq a b = true <-> o = o').
Proof.
  intros utc o o' n n' a b U A B.
  assert (G : forall p q z, timezone_new utc p q = Ok z -> z_off z = p).
  { intros p q z H. destruct (C27_accepted utc p q U) as [C1 C2]. destruct (Z_lt_ge_dec (-86400000000) p); [|rewrite C2 in H by lia; discriminate].
    destruct (Z_lt_ge_dec p 86400000000); [|rewrite C2 in H by lia; discriminate]. destruct C1 as (z' & H' & O & _); [lia|]. assert (EZ : z = z') by congruence. rewrite EZ. exact O. }
  unfold zone_eq. rewrite (G o n a A), (G o' n' b B). lia.
Qed.
Print Assumptions C27_names_ignored.
(** The initialisation arguments given to pickle rebuild an equal zone of the same name; only an empty name is lost: it
    comes back as no name. *)
Theorem C27_pickle : forall utc o name z, z_off utc = 0 -> timezone_new utc o name = Ok z -> exists z', timezone_new utc (fst (zone_initargs z)) (snd (zone_initargs z)) = Ok z' /\ zone_eq z z' = true /\
  (z_name z <> Some ""%string -> z_name z' = z_name z) /\ (z_name z = Some ""%string -> z_name z' = if o =? 0 then z_name utc else None).
Proof.
  intros utc o name z U H. assert (R : -86400000000 < z_off z < 86400000000).
  { unfold timezone_new, DAY in H. destruct name as [n|]; [|destruct (Z.eqb_spec o 0) as [->|]; [assert (z = utc) by congruence; subst; lia|]].
    all: destruct ((- (86400000000 - 1) <=? o) && (o <=? 86400000000 - 1)) eqn:Q; [|discriminate]; injection H as <-; cbn; lia. }
  destruct (C27_accepted utc (z_off z) (snd (zone_initargs z)) U) as [C _]. destruct (C R) as (z' & H' & O & _). exists z'. cbn [zone_initargs fst]. cbn [zone_initargs snd] in H'.
  split; [exact H'|]. split; [unfold zone_eq, zone_utcoffset in *; lia|].
  assert (Q : (- (DAY - 1) <=? z_off z) && (z_off z <=? DAY - 1) = true) by (unfold DAY; lia).
  assert (ZO : z_off z = o).
  { unfold timezone_new in H. destruct name as [n|]; [|destruct (Z.eqb_spec o 0) as [->|]; [congruence|]].
    all: destruct (_ && _) in H; [injection H as <-; reflexivity|discriminate]. }
  assert (ZU : z_name z = None -> o = 0 -> z = utc).
  { intros NM ->. unfold timezone_new in H. destruct name as [n|]; [destruct (_ && _) in H; [injection H as <-; discriminate NM|discriminate]|]. cbn [Z.eqb] in H. congruence. }
  clear C H R. unfold timezone_new in H'. rewrite Q, ZO in H'. destruct (z_name z) as [n|] eqn:NM.
  - destruct (String.eqb_spec n "") as [->|NE].
    + split; [congruence|]. intros _. destruct (o =? 0); injection H' as <-; reflexivity.
    + split; [|congruence]. intros _. injection H' as <-. reflexivity.
  - split; [|discriminate]. intros _. destruct (Z.eqb_spec o 0) as [E|NE].
    + rewrite <- NM, (ZU eq_refl E). congruence.
    + injection H' as <-. reflexivity.
Qed.
Print Assumptions C27_pickle.
Example C27_case : timezone_new {| z_off := 0; z_name := Some "UTC"%string |} (-86399999999) None = Ok {| z_off := -86399999999; z_name := None |} /\
  timezone_new {| z_off := 0; z_name := Some "UTC"%string |} 86400000000 (Some "x"%string) = Err ValueError.
Proof. split; reflexivity. Qed.

(** ** C48: replace, for times *)
Theorem C48_time_replace : forall a h mi s us z fold b, time_replace a h mi s us z fold = Ok b ->
  t_h b = dflt h (t_h a) /\ t_mi b = dflt mi (t_mi a) /\ t_s b = dflt s (t_s a) /\ t_us b = dflt us (t_us a) /\
  t_tz b = (match z with Some z' => z' | None => t_tz a end) /\ t_fold b = dflt fold (t_fold a).
Proof.
  intros a h mi s us z fold b H. unfold time_replace, time_new in H. destruct (check_time_fields _ _ _ _ _); [|discriminate]. cbn [bind] in H. injection H as <-. cbn. tauto.
Qed.
Print Assumptions C48_time_replace.
Theorem C48_time_replace_valid : forall a h mi s us z fold, valid_clock (dflt h (t_h a)) (dflt mi (t_mi a)) (dflt s (t_s a)) (dflt us (t_us a)) ->
  dflt fold (t_fold a) = 0 \/ dflt fold (t_fold a) = 1 -> exists b, time_replace a h mi s us z fold = Ok b.
Proof. intros a h mi s us z fold V F. unfold time_replace. rewrite time_new_ok by assumption. eauto. Qed.
Print Assumptions C48_time_replace_valid.
Theorem C48_time_replace_nothing : forall a, valid_time a -> time_replace a None None None None None None = Ok a.
Proof. intros a (V & F & _). unfold time_replace. cbn [dflt]. rewrite time_new_ok by assumption. destruct a; reflexivity. Qed.
Print Assumptions C48_time_replace_nothing.
Example C48_time_case : time_replace (mk_time 1 2 3 4 None) (Some 24) None None None (Some (mk_tz 1 0)) None = Ok (mk_time 24 2 3 4 (mk_tz 1 0)).
Proof. reflexivity. Qed.
