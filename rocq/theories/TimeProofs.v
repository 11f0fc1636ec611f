(** TimeProofs.v -- lemmas about the models of time and datetime. *)
From Coq Require Import ZArith QArith Qround Qabs List Bool Lia.
From Coq Require Import ZifyBool ZifyNat ZifyN.
From Verif Require Import Base Flt QUtil BaseModel BadiModel SpecBadi TduModel DateModel SpecDate TimeModel SpecTime.
Import ListNotations.
Local Open Scope Z_scope.
Ltac Zify.zify_post_hook ::= Z.div_mod_to_equations.

Lemma Qleb_Z a b : Qleb (inject_Z a) (inject_Z b) = (a <=? b).
Proof. unfold Qleb, Qle_bool. cbn. rewrite !Z.mul_1_r. reflexivity. Qed.
Lemma Qltb_Z a b : Qltb (inject_Z a) (inject_Z b) = (a <? b).
Proof. unfold Qltb. fold (Qleb (inject_Z b) (inject_Z a)). rewrite Qleb_Z. lia. Qed.

Definition clock_ok (h mi s us : Z) : bool :=
  (0 <=? h) && (h <? 25) && ((0 <=? mi) && (mi <? 60)) && ((0 <=? s) && (s <? 61)) && ((0 <=? us) && (us <? 1000000)).
Lemma clock_ok_spec h mi s us : clock_ok h mi s us = true <-> valid_clock h mi s us.
Proof. unfold clock_ok, valid_clock. lia. Qed.
Lemma check_fields h mi s us fold : check_time_fields h mi s us fold =
  if clock_ok h mi s us && ((fold =? 0) || (fold =? 1)) then Ok tt else Err AssertionError.
Proof.
  unfold check_time_fields, check_time, clock_ok.
  change (0%Q) with (inject_Z 0). change (25%Q) with (inject_Z 25). change (60%Q) with (inject_Z 60). change (61%Q) with (inject_Z 61). change (1000000%Q) with (inject_Z 1000000).
  rewrite !Qleb_Z, !Qltb_Z. unfold passert.
  destruct ((0 <=? h) && (h <? 25)); [|reflexivity]. cbn [bind andb]. destruct ((0 <=? mi) && (mi <? 60)); [|reflexivity]. cbn [bind andb].
  destruct ((0 <=? s) && (s <? 61)); [|reflexivity]. cbn [bind andb]. destruct ((0 <=? us) && (us <? 1000000)); reflexivity.
Qed.
Lemma check_fields_ok h mi s us fold : valid_clock h mi s us -> fold = 0 \/ fold = 1 -> check_time_fields h mi s us fold = Ok tt.
Proof. intros V F. rewrite check_fields. apply clock_ok_spec in V. rewrite V. destruct F as [->| ->]; reflexivity. Qed.
Lemma time_new_ok h mi s us z fold : valid_clock h mi s us -> fold = 0 \/ fold = 1 ->
  time_new h mi s us z fold = Ok {| t_h := h; t_mi := mi; t_s := s; t_us := us; t_tz := z; t_fold := fold |}.
Proof. intros V F. unfold time_new. rewrite check_fields_ok by assumption. reflexivity. Qed.

Lemma utcoffset_ok t : good_offset t -> utcoffset t = Ok (offset t).
Proof.
  intro G. destruct t as [z|]; [|reflexivity]. unfold utcoffset, check_offset. cbn [offset]. destruct (tz_off z) as [o|] eqn:E; [|reflexivity].
  specialize (G o). cbn [offset] in G. specialize (G E). assert (Q : (- DAY <? o) && (o <? DAY) = true) by (unfold DAY; lia). rewrite Q. reflexivity.
Qed.

Ltac tup := cbn [cmp_tuple]; repeat match goal with |- context [?a =? ?b] => destruct (Z.eqb_spec a b) | |- context [?a <? ?b] => destruct (Z.ltb_spec a b) end.
Lemma cmp_pos4 h mi s us h' mi' s' us' : 0 <= mi <= 59 -> 0 <= mi' <= 59 -> 0 <= s <= 60 -> 0 <= s' <= 60 -> 0 <= us <= 999999 -> 0 <= us' <= 999999 ->
  cmp_tuple [h; mi; s; us] [h'; mi'; s'; us'] = Z.sgn (position (h * 60 + mi) s us - position (h' * 60 + mi') s' us').
Proof. intros. unfold position. tup; subst; lia. Qed.
Lemma cmp_pos3 x s us x' s' us' : 0 <= s <= 60 -> 0 <= s' <= 60 -> 0 <= us <= 999999 -> 0 <= us' <= 999999 ->
  cmp_tuple [x; s; us] [x'; s'; us'] = Z.sgn (position x s us - position x' s' us').
Proof. intros. unfold position. tup; subst; lia. Qed.

Lemma time_cmp_pos mx a b : valid_pair a b ->
  time_cmp mx a b = match offset (t_tz a), offset (t_tz b) with
                    | None, None => Ok (Z.sgn (position (local_minute a) (t_s a) (t_us a) - position (local_minute b) (t_s b) (t_us b)))
                    | Some x, Some y => Ok (Z.sgn (position (utc_minute a x) (t_s a) (t_us a) - position (utc_minute b y) (t_s b) (t_us b)))
                    | _, _ => if mx then Ok 2 else Err TypeError
                    end.
Proof.
  intros ((V & _ & G) & (V' & _ & G') & C). unfold valid_clock in *. unfold time_cmp. rewrite (utcoffset_ok _ G), (utcoffset_ok _ G'). cbn [bind].
  assert (P : cmp_tuple [t_h a; t_mi a; t_s a; t_us a] [t_h b; t_mi b; t_s b; t_us b] =
              Z.sgn (position (local_minute a) (t_s a) (t_us a) - position (local_minute b) (t_s b) (t_us b))) by (apply cmp_pos4; lia).
  assert (S : forall o, position (utc_minute a o) (t_s a) (t_us a) - position (utc_minute b o) (t_s b) (t_us b) =
              position (local_minute a) (t_s a) (t_us a) - position (local_minute b) (t_s b) (t_us b)) by (intro o; unfold position, utc_minute, local_minute; lia).
  destruct (same_tz (t_tz a) (t_tz b)) eqn:E.
  - rewrite P, <- (C E). destruct (offset (t_tz a)) as [x|]; [rewrite S|]; reflexivity.
  - destruct (offset (t_tz a)) as [x|], (offset (t_tz b)) as [y|]; cbn [opt_eqb]; try reflexivity.
    + destruct (Z.eqb_spec x y) as [->|]; [rewrite P, S; reflexivity|]. change MINUTE with 60000000. rewrite cmp_pos3 by lia. reflexivity.
    + rewrite P. reflexivity.
Qed.
Lemma compares_sgn a b x y : time_cmp true a b = Ok (Z.sgn (x - y)) -> time_cmp false a b = Ok (Z.sgn (x - y)) -> compares_as a b x y.
Proof. intros A B. unfold compares_as, time_eq, time_lt, time_le, time_gt, time_ge. rewrite A, B. cbn [bind]. repeat split; f_equal; lia. Qed.

(** bytes *)
Lemma us_bytes_ok us : 0 <= us <= 999999 -> forallb (fun x => (0 <=? x) && (x <? 256)) (us_bytes us) = true /\ (us / 256 / 256 * 256 + (us / 256) mod 256) * 256 + us mod 256 = us.
Proof. intro U. unfold us_bytes. cbn [forallb]. split; lia. Qed.
Lemma state_bytes h mi s us : 0 <= h < 256 -> 0 <= mi < 256 -> 0 <= s < 256 -> 0 <= us <= 999999 -> to_bytes ([h; mi; s] ++ us_bytes us) = Ok ([h; mi; s] ++ us_bytes us).
Proof.
  intros. destruct (us_bytes_ok us) as [B _]; [lia|]. unfold to_bytes. rewrite forallb_app, B. cbn [forallb].
  assert (Q : (0 <=? h) && (h <? 256) && ((0 <=? mi) && (mi <? 256) && ((0 <=? s) && (s <? 256) && true)) && true = true) by lia. rewrite Q. reflexivity.
Qed.

(** hash *)
Lemma hash_naive_ok a : valid_clock (t_h a) (t_mi a) (t_s a) (t_us a) -> time_hash_naive a = Ok (HBytes ([t_h a; t_mi a; t_s a] ++ us_bytes (t_us a))).
Proof.
  unfold valid_clock. intro V. unfold time_hash_naive, time_getstate. change (3 <? 3) with false. rewrite andb_false_r. cbv iota zeta.
  rewrite state_bytes by lia. reflexivity.
Qed.
Lemma time_hash_cases a : valid_time a -> (forall o, offset (t_tz a) = Some o -> whole_minutes o) ->
  time_hash a = match offset (t_tz a) with
                | None => Ok (HBytes ([t_h a; t_mi a; t_s a] ++ us_bytes (t_us a)))
                | Some o => if o =? 0 then Ok (HBytes ([t_h a; t_mi a; t_s a] ++ us_bytes (t_us a)))
                            else let u := utc_minute a o in
                                 if (0 <=? u) && (u <? 1440) then Ok (HBytes ([u / 60; u mod 60; t_s a] ++ us_bytes (t_us a)))
                                 else Ok (HTuple [u / 60; u mod 60; t_s a; t_us a])
                end.
Proof.
  intros (V & F & G) W. unfold time_hash.
  set (t := {| t_h := t_h a; t_mi := t_mi a; t_s := t_s a; t_us := t_us a; t_tz := t_tz a; t_fold := 0 |}).
  assert (R : (if negb (t_fold a =? 0) then time_replace a None None None None None (Some 0) else Ok a) = Ok t).
  { destruct F as [F|F]; rewrite F; cbn [Z.eqb negb].
    - unfold t. rewrite <- F. destruct a; reflexivity.
    - unfold time_replace. cbn [dflt]. apply time_new_ok; [exact V|tauto]. }
  rewrite R. cbn [bind]. change (t_tz t) with (t_tz a). rewrite (utcoffset_ok _ G). cbn [bind].
  assert (H0 : time_hash_naive t = Ok (HBytes ([t_h a; t_mi a; t_s a] ++ us_bytes (t_us a)))) by (exact (hash_naive_ok t V)).
  destruct (offset (t_tz a)) as [o|] eqn:E; [|exact H0]. destruct (Z.eqb_spec o 0) as [->|NZ]; [exact H0|].
  specialize (W o eq_refl). unfold whole_minutes in W. cbv zeta.
  assert (D : t_h a * HOUR + t_mi a * MINUTE - o = utc_minute a o * 60000000) by (unfold HOUR, MINUTE, utc_minute; lia). rewrite D.
  assert (Q1 : (utc_minute a o * 60000000 mod HOUR) mod MINUTE =? 0 = true) by (unfold HOUR, MINUTE; lia). rewrite Q1. cbn [passert bind].
  assert (Q2 : utc_minute a o * 60000000 / HOUR = utc_minute a o / 60) by (unfold HOUR; lia).
  assert (Q3 : (utc_minute a o * 60000000) mod HOUR / MINUTE = utc_minute a o mod 60) by (unfold HOUR, MINUTE; lia). rewrite Q2, Q3.
  assert (Q4 : (0 <=? utc_minute a o / 60) && (utc_minute a o / 60 <? 24) = (0 <=? utc_minute a o) && (utc_minute a o <? 1440)) by lia. rewrite Q4.
  destruct ((0 <=? utc_minute a o) && (utc_minute a o <? 1440)) eqn:Q5; [|reflexivity].
  unfold valid_clock in V. rewrite time_new_ok by (unfold valid_clock; lia). cbn [bind]. rewrite hash_naive_ok by (cbn; unfold valid_clock; lia). reflexivity.
Qed.

(** ** datetimes *)
Lemma Qtrunc_Z z : Qtrunc (inject_Z z) = z.
Proof. unfold Qtrunc, Qceiling. change (- inject_Z z)%Q with (inject_Z (- z)). rewrite !Qfloor_Z. destruct (Qleb _ _); lia. Qed.
Lemma fmod1_Z rnd h : nonzero (fmod1 rnd (inject_Z h)) = false.
Proof.
  unfold nonzero, fmod1. rewrite Qtrunc_Z. assert (Z0 : (inject_Z h - inject_Z h == 0)%Q) by ring.
  assert (L : Qltb (inject_Z h - inject_Z h) 0 = false) by (apply Qltb_ge; rewrite Z0; apply Qle_refl). cbv zeta. rewrite L.
  apply negb_false_iff. apply Qeq_bool_iff. exact Z0.
Qed.
Lemma create_time_Z rnd h mi s us : create_time rnd (inject_Z h) (inject_Z mi) (inject_Z s) us = Ok (h, mi, s, us).
Proof. unfold create_time. rewrite !fmod1_Z. cbn [andb]. rewrite !Qfloor_Z. reflexivity. Qed.
Lemma dt_new_eq rnd m args h mi s us z fold : dt_new rnd m args h mi s us z fold =
  if clock_ok h mi s us && ((fold =? 0) || (fold =? 1)) then
    match date_new rnd m args with
    | Ok d => Ok {| dt_d := d; dt_h := h; dt_mi := mi; dt_s := s; dt_us := us; dt_tz := z; dt_fold := fold |}
    | Err e => Err e
    end
  else match date_new rnd m args with Ok _ => Err AssertionError | Err e => Err e end.
Proof.
  unfold dt_new. rewrite create_time_Z. cbn [bind]. rewrite check_fields.
  assert (L : forall d, date_new rnd m args = Ok d -> (Nat.eqb (length args) 3) || (Nat.eqb (length args) 5) = true).
  { intros d. unfold date_new. destruct args as [|? [|? [|? [|? [|? [|? ?]]]]]]; try discriminate; reflexivity. }
  destruct (date_new rnd m args) as [d|e] eqn:D.
  - rewrite (L d eq_refl). cbn [passert bind]. destruct (clock_ok h mi s us && _); reflexivity.
  - assert (E : passert ((Nat.eqb (length args) 3) || (Nat.eqb (length args) 5)) = Err e \/ passert ((Nat.eqb (length args) 3) || (Nat.eqb (length args) 5)) = Ok tt).
    { revert D. unfold date_new. destruct args as [|? [|? [|? [|? [|? [|? ?]]]]]]; cbn; intro D; auto; left; congruence. }
    destruct E as [E|E]; rewrite E; cbn [bind]; destruct (clock_ok h mi s us && _); reflexivity.
Qed.
Lemma date_new_fix rnd m args d : date_new rnd m args = Ok d -> b_date d = args /\ date_new rnd m (b_date d) = Ok d.
Proof.
  intro H. assert (B : b_date d = args); [|rewrite B; tauto]. revert H. unfold date_new.
  destruct args as [|? [|? [|? [|? [|? [|? ?]]]]]]; try discriminate; (destruct (_ _ _ _); [|discriminate]); cbn [bind]; intro H.
  - assert (d = DShort z z0 z1) by congruence. subst. reflexivity.
  - assert (d = DLong z z0 z1 z2 z3) by congruence. subst. reflexivity.
Qed.
Lemma fromord_fix rnd m short n d : fromordinal rnd m short n = Ok d -> date_new rnd m (b_date d) = Ok d.
Proof. unfold fromordinal. destruct (ord2ymd _ _ _ _); [|discriminate]. cbn [bind]. intro H. apply date_new_fix in H. tauto. Qed.

(** fields of a number of microseconds below a day *)
Definition clock_of (r : Z) (d : pdate) (z : option tz) : pdt :=
  {| dt_d := d; dt_h := r / 3600000000; dt_mi := r / 60000000 mod 60; dt_s := r / 1000000 mod 60; dt_us := r mod 1000000; dt_tz := z; dt_fold := 0 |}.
Lemma clock_of_ok r d z : 0 <= r < 86400000000 -> dt_clock (clock_of r d z) = r /\
  plain_clock (dt_h (clock_of r d z)) (dt_mi (clock_of r d z)) (dt_s (clock_of r d z)) (dt_us (clock_of r d z)).
Proof. intro R. unfold dt_clock, clock_us, plain_clock, clock_of. cbn. split; lia. Qed.
Lemma clock_of_self a : plain_clock (dt_h a) (dt_mi a) (dt_s a) (dt_us a) -> dt_fold a = 0 -> clock_of (dt_clock a) (dt_d a) (dt_tz a) = a /\ 0 <= dt_clock a < 86400000000.
Proof.
  destruct a as [d h mi s us z f]. unfold plain_clock, clock_of, dt_clock, clock_us. cbn. intros P ->. split; [|lia]. f_equal; lia.
Qed.

Lemma dt_add_date rnd m a td n : toordinal rnd m (dt_d a) = Ok n ->
  dt_add rnd m a td = match date_add rnd m (dt_d a) ((dt_clock a + td) / 86400000000) with
                      | Ok d => Ok (clock_of ((dt_clock a + td) mod 86400000000) d (dt_tz a))
                      | Err e => Err e
                      end.
Proof.
  intro T. unfold dt_add, date_add. rewrite T. cbn [bind]. change DAY with 86400000000. change HOUR with 3600000000. change MINUTE with 60000000.
  set (L := dt_clock a + td). assert (Q : n * 86400000000 + dt_h a * 3600000000 + dt_mi a * 60000000 + dt_s a * 1000000 + dt_us a + td = n * 86400000000 + L) by (unfold L, dt_clock, clock_us; lia).
  rewrite Q. assert (D : (n * 86400000000 + L) / 86400000000 = n + L / 86400000000) by lia. assert (R : (n * 86400000000 + L) mod 86400000000 = L mod 86400000000) by lia.
  rewrite D, R. destruct ((DAYS_BEFORE_1ST_YEAR <? n + L / 86400000000) && (n + L / 86400000000 <=? MAXORDINAL)); [|reflexivity].
  destruct (fromordinal rnd m (is_short (dt_d a)) (n + L / 86400000000)) as [d|e] eqn:F; [|reflexivity]. cbn [bind]. apply fromord_fix in F.
  pose proof (Z.mod_pos_bound L 86400000000 ltac:(lia)) as B. set (r := L mod 86400000000) in *.
  assert (U : (n * 86400000000 + L) mod 1000000 = r mod 1000000) by (unfold r; lia). rewrite U.
  rewrite time_new_ok by (unfold valid_clock; lia). cbn [bind]. unfold dt_combine. cbn [t_h t_mi t_s t_us t_tz t_fold]. rewrite dt_new_eq, F.
  assert (C : clock_ok (r / 1000000 / 3600) ((r / 1000000) mod 3600 / 60) (((r / 1000000) mod 3600) mod 60) (r mod 1000000) = true) by (apply clock_ok_spec; unfold valid_clock; lia).
  rewrite C. cbn [andb Z.eqb orb]. unfold clock_of. f_equal. f_equal; lia.
Qed.
