(** PropertiesState.v -- C36 regex cache, C37 nutation cache, C38 local coordinates, C39 and C65 TZWithCoords: statements
    over every history of calls. *)
From Coq Require Import ZArith QArith Qround List Bool Lia String.
From Verif Require Import Base Flt BaseModel BadiModel TimeModel TextModel StateModel SpecText.
Import ListNotations.
Local Open Scope string_scope.
Local Open Scope list_scope.
Local Open Scope Z_scope.

(** ** C36 *)
Lemma text_eqb_eq a b : text_eqb a b = true -> a = b.
Proof. unfold text_eqb. destruct (list_eq_dec _ _ _); [auto|discriminate]. Qed.
Lemma senv_eqb_eq a b : senv_eqb a b = true -> a = b.
Proof.
  unfold senv_eqb. intro H. apply andb_true_iff in H as [H D]. apply andb_true_iff in H as [L T]. apply andb_true_iff in T as [T1 T2].
  apply text_eqb_eq in L, T1, T2. destruct a as [l [t1 t2] d], b as [l' [t1' t2'] d']. cbn in *. subst. f_equal. lia.
Qed.
Section C36.
Variables rx out : Type.
Variable compile : senv -> text -> res rx.
Variable run : senv -> rx -> text -> res out.
Definition only_builtin (c : list (rkey * rx)) : Prop := c = [] \/ exists r, c = [(KBuiltin, r)].
Lemma call_keeps e f d s : only_builtin (snd s) -> only_builtin (snd (fst (strp_call rx out compile run e f d s))).
Proof.
  intro H. destruct s as [t0 c0]. unfold strp_call. cbn [fst snd] in *.
  destruct H as [->|[r ->]]; destruct (senv_eqb e t0); cbn; match goal with |- context [compile ?t f] => destruct (compile t f) as [r'|x] end;
  try (right; exists r'; reflexivity); destruct x; cbn; solve [left; reflexivity|right; eexists; reflexivity].
Qed.
Lemma after_only e0 h : only_builtin (snd (strp_after rx out compile run e0 h)).
Proof.
  unfold strp_after. assert (A : forall h s, only_builtin (snd s) -> only_builtin (snd (fold_left (fun s x => fst (strp_call rx out compile run (fst (fst x)) (snd (fst x)) (snd x) s)) h s))).
  { induction h0 as [|x h0 IH]; intros s S; [exact S|]. cbn [fold_left]. apply IH, call_keeps, S. }
  apply A. left. reflexivity.
Qed.
End C36.
(** A call without any cache. *)
Definition fresh_call {rx out} (compile : senv -> text -> res rx) (run : senv -> rx -> text -> res out) (e : senv) (fmt data : text) : res out :=
  match compile e fmt with
  | Ok r => run e r data
  | Err KeyError | Err IndexError => Err ValueError
  | Err x => Err x
  end.
(** C36: after every history of calls, in whatever environments, a call gives what a call without cache gives. *)
Theorem C36_transparent : forall rx out (compile : senv -> text -> res rx) (run : senv -> rx -> text -> res out) e0 h e fmt data,
  snd (strp_call rx out compile run e fmt data (strp_after rx out compile run e0 h)) = fresh_call compile run e fmt data.
Proof.
  intros. pose proof (after_only rx out compile run e0 h) as A. set (s := strp_after _ _ _ _ e0 h) in *. unfold strp_call, fresh_call.
  destruct (senv_eqb e (fst s)) eqn:E.
  - apply senv_eqb_eq in E. destruct s as [te c]. cbn [fst snd] in *. subst te. destruct A as [->|[r ->]]; cbn; destruct (compile e fmt) as [x|x]; try reflexivity; destruct x; reflexivity.
  - cbn. destruct (compile e fmt) as [x|x]; try reflexivity; destruct x; reflexivity.
Qed.
Print Assumptions C36_transparent.
(** C36: the cache holds at most one entry. *)
Theorem C36_bounded : forall rx out (compile : senv -> text -> res rx) (run : senv -> rx -> text -> res out) e0 h,
  (List.length (snd (strp_after rx out compile run e0 h)) <= 1)%nat.
Proof. intros. destruct (after_only rx out compile run e0 h) as [->|[r ->]]; cbn; lia. Qed.
Print Assumptions C36_bounded.
(** Refuted: that it ever saves a compilation.  No format is found in it, whatever calls went before. *)
Theorem C36_useful_refuted : forall rx out (compile : senv -> text -> res rx) (run : senv -> rx -> text -> res out) e0 h fmt,
  dict_get rx (snd (strp_after rx out compile run e0 h)) (KText fmt) = None.
Proof. intros. destruct (after_only rx out compile run e0 h) as [->|[r ->]]; reflexivity. Qed.
Print Assumptions C36_useful_refuted.
Definition env1 : senv := {| se_lang := str "en_US"; se_tzname := (str "EST", str "EDT"); se_daylight := 1 |}.
Definition env2 : senv := {| se_lang := str "de_DE"; se_tzname := (str "CET", str "CEST"); se_daylight := 1 |}.
(** A history with two environments, a bad format and a repeated one. *)
Example C36_case :
  let compile (e : senv) (f : text) := if text_eqb f (str "%Q") then Err KeyError else Ok (se_lang e ++ f) in
  let run (e : senv) (r d : text) := Ok (r ++ d) in
  let h := [(env1, str "%Y", str "1"); (env1, str "%Q", str "2"); (env2, str "%Y", str "3"); (env2, str "%m", str "4")] in
  strp_after text text compile run env1 h = (env2, [(KBuiltin, str "de_DE%m")]) /\
  snd (strp_call text text compile run env2 (str "%m") (str "5") (strp_after text text compile run env1 h)) = Ok (str "de_DE%m5") /\
  snd (strp_call text text compile run env2 (str "%Q") (str "5") (strp_after text text compile run env1 h)) = Err ValueError.
Proof. repeat split; reflexivity. Qed.

(** ** C37 *)
(** time and unit of a query; the answer of a fresh computation *)
Definition q_time (q : nquery) : Q := match q with NLon t _ | NObl t _ => t end.
Definition q_degrees (q : nquery) : bool := match q with NLon _ d | NObl _ d => d end.
Definition q_fresh (compute : Q -> bool -> Q * Q) (q : nquery) : Q :=
  match q with NLon t d => fst (compute t d) | NObl t d => snd (compute t d) end.
(** J2000.0 in radians, the content of the cache of a new object. *)
Definition q_initial (q : nquery) : Prop := (q_time q == 0)%Q /\ q_degrees q = false.
Section C37.
Variable compute : Q -> bool -> Q * Q.
Hypothesis C : forall t t' d, (t == t')%Q -> compute t d = compute t' d.
Definition n_ok (s : ncache) : Prop :=
  exists t d, n_lon s = (t, fst (compute t d), d) /\ n_obl s = (t, snd (compute t d), d).
Lemma bneq (t t' : Q) (d d' : bool) : negb (Qeqb t t') || negb (Bool.eqb d d') = false -> (t == t')%Q /\ d = d'.
Proof. intro H. apply orb_false_iff in H as [A B]. apply negb_false_iff in A, B. apply Qeq_bool_iff in A. apply Bool.eqb_prop in B. split; assumption. Qed.
Lemma n_refreshed (s : ncache) t d : n_ok {| n_lon := (t, fst (compute t d), d); n_obl := (t, snd (compute t d), d) |}.
Proof. exists t, d. split; reflexivity. Qed.
Lemma n_step s q : n_ok s -> n_ok (fst (nutation compute q s)) /\ snd (nutation compute q s) = q_fresh compute q.
Proof.
  intros (t & d & L & O). destruct q as [tc dg|tc dg]; cbn [nutation fst snd q_fresh]; unfold n_refresh; rewrite ?L, ?O.
  - destruct (_ || _) eqn:B.
    + destruct (compute tc dg) as [a b] eqn:K. split; [|reflexivity]. exists tc, dg. rewrite K. split; reflexivity.
    + apply bneq in B as [B1 B2]. subst dg. split; [exists t, d; split; assumption|]. rewrite L. cbn [fst snd]. rewrite (C tc t d B1). reflexivity.
  - destruct (_ || _) eqn:B.
    + destruct (compute tc dg) as [a b] eqn:K. split; [|reflexivity]. exists tc, dg. rewrite K. split; reflexivity.
    + apply bneq in B as [B1 B2]. subst dg. split; [exists t, d; split; assumption|]. rewrite O. cbn [fst snd]. rewrite (C tc t d B1). reflexivity.
Qed.
Lemma n_first q : ~ q_initial q -> n_ok (fst (nutation compute q ncache0)) /\ snd (nutation compute q ncache0) = q_fresh compute q.
Proof.
  intro H. destruct q as [tc dg|tc dg]; unfold q_initial in H; cbn [q_time q_degrees] in H; cbn [nutation fst snd q_fresh]; unfold n_refresh; cbn [n_lon n_obl ncache0];
  (destruct (_ || _) eqn:B; [destruct (compute tc dg) as [a b] eqn:K; split; [exists tc, dg; rewrite K; split; reflexivity|reflexivity]|apply bneq in B; tauto]).
Qed.
Lemma n_stays q : q_initial q -> nutation compute q ncache0 = (ncache0, 0%Q).
Proof.
  intros [A B]. apply Qeq_bool_iff in A; change (Qeqb (q_time q) 0 = true) in A. destruct q as [tc dg|tc dg]; cbn [q_time q_degrees] in *; subst dg; cbn [nutation]; unfold n_refresh; cbn [n_lon n_obl ncache0]; rewrite A; reflexivity.
Qed.
Lemma q_initial_dec q : q_initial q \/ ~ q_initial q.
Proof. destruct (Qeq_dec (q_time q) 0) as [A|A], (q_degrees q) eqn:B; unfold q_initial; rewrite ?B; [right; intros [_ X]; discriminate|left; tauto|right; tauto|right; tauto]. Qed.
Lemma n_fold_ok h s : n_ok s -> n_ok (fold_left (fun s q => fst (nutation compute q s)) h s).
Proof. revert s. induction h as [|q h IH]; intros s S; [exact S|]. cbn [fold_left]. apply IH, n_step, S. Qed.
Lemma n_history h : (Forall q_initial h /\ n_after compute h = ncache0) \/ (Exists (fun q => ~ q_initial q) h /\ n_ok (n_after compute h)).
Proof.
  induction h as [|q h IH]; [left; split; [constructor|reflexivity]|]. unfold n_after in *. cbn [fold_left].
  destruct (q_initial_dec q) as [I|I].
  - rewrite (n_stays q I). cbn [fst]. destruct IH as [[F E]|[F E]]; [left; split; [constructor; assumption|exact E]|right; split; [constructor 2; exact F|exact E]].
  - right. split; [constructor; exact I|]. apply n_fold_ok, n_first, I.
Qed.
End C37.
(** C37: after every history a query gets what a fresh computation gives, if it or some query before it was not for
    J2000.0 in radians. *)
Theorem C37_transparent : forall compute h q, (forall t t' d, (t == t')%Q -> compute t d = compute t' d) ->
  Exists (fun q => ~ q_initial q) (h ++ [q]) -> snd (nutation compute q (n_after compute h)) = q_fresh compute q.
Proof.
  intros compute h q C H. destruct (n_history compute C h) as [[F E]|[F E]].
  - rewrite E. apply n_first. apply Exists_app in H as [H|H].
    + exfalso. apply Exists_exists in H as (x & I & NX). rewrite Forall_forall in F. exact (NX (F x I)).
    + inversion H; [assumption|]. match goal with X : Exists _ [] |- _ => inversion X end.
  - apply n_step; [exact C|exact E].
Qed.
Print Assumptions C37_transparent.
(** Refuted in the remaining case: the answer is 0, whatever the computation gives. *)
Theorem C37_first_refuted : forall compute h q, (forall t t' d, (t == t')%Q -> compute t d = compute t' d) ->
  Forall q_initial (h ++ [q]) -> snd (nutation compute q (n_after compute h)) = 0%Q.
Proof.
  intros compute h q C H. apply Forall_app in H as [F G]. inversion G; subst. destruct (n_history compute C h) as [[_ E]|[X _]].
  - rewrite E, n_stays by assumption. reflexivity.
  - exfalso. apply Exists_exists in X as (x & I & NX). rewrite Forall_forall in F. exact (NX (F x I)).
Qed.
Print Assumptions C37_first_refuted.
(** C37: the two halves of the cache belong to one query. *)
Theorem C37_halves : forall compute h, (forall t t' d, (t == t')%Q -> compute t d = compute t' d) -> Exists (fun q => ~ q_initial q) h ->
  exists q, In q h /\ n_lon (n_after compute h) = (q_time q, fst (compute (q_time q) (q_degrees q)), q_degrees q) /\
    n_obl (n_after compute h) = (q_time q, snd (compute (q_time q) (q_degrees q)), q_degrees q).
Proof.
  intros compute h C. induction h as [|q h IH] using rev_ind; intro X; [inversion X|].
  unfold n_after in *. rewrite fold_left_app. cbn [fold_left]. fold (n_after compute h) in *.
  assert (K : forall e s, (exists q, In q h /\ n_lon s = (q_time q, fst (compute (q_time q) (q_degrees q)), q_degrees q) /\ n_obl s = (q_time q, snd (compute (q_time q) (q_degrees q)), q_degrees q)) ->
    exists q0, In q0 (h ++ [q]) /\ n_lon (n_refresh compute e (q_time q) (q_degrees q) s) = (q_time q0, fst (compute (q_time q0) (q_degrees q0)), q_degrees q0) /\
      n_obl (n_refresh compute e (q_time q) (q_degrees q) s) = (q_time q0, snd (compute (q_time q0) (q_degrees q0)), q_degrees q0)).
  { intros [[t v] d] s (q0 & I & L & O). unfold n_refresh. destruct (_ || _).
    - exists q. split; [apply in_or_app; right; left; reflexivity|]. destruct (compute (q_time q) (q_degrees q)) as [a b]. split; reflexivity.
    - exists q0. split; [apply in_or_app; left; exact I|]. split; assumption. }
  destruct (n_history compute C h) as [[F E]|[F E]].
  - apply Exists_app in X as [X|X]; [exfalso; apply Exists_exists in X as (x & I & NX); rewrite Forall_forall in F; exact (NX (F x I))|].
    assert (NI : ~ q_initial q) by (inversion X; [assumption|match goal with Y : Exists _ [] |- _ => inversion Y end]).
    exists q. split; [apply in_or_app; right; left; reflexivity|]. rewrite E. destruct q as [tc dg|tc dg]; cbn [nutation fst q_time q_degrees]; unfold n_refresh; cbn [n_lon n_obl ncache0];
    (destruct (_ || _) eqn:B; [destruct (compute tc dg) as [a b] eqn:K2; split; reflexivity|apply bneq in B; unfold q_initial in NI; cbn in NI; tauto]).
  - specialize (IH F). destruct q as [tc dg|tc dg]; cbn [nutation fst]; apply (K _ _ IH).
Qed.
Print Assumptions C37_halves.
Example C37_case : let compute (t : Q) (d : bool) := (Qred (t + (if d then 1 else 2)), Qred (t + 3))%Q in
  (forall t t' d, (t == t')%Q -> compute t d = compute t' d) /\ Exists (fun q => ~ q_initial q) ([NLon 0 false; NObl (1 # 2) true] ++ [NLon 0 false]) /\
  snd (nutation compute (NLon 0 false) (n_after compute [NLon 0 false; NObl (1 # 2) true])) = 2%Q /\ snd (nutation compute (NLon 0 false) (n_after compute [NLon 0 false])) = 0%Q.
Proof.
  split; [intros t t' d E; cbv beta; f_equal; apply Qred_complete; rewrite E; reflexivity|]. split; [|split; reflexivity].
  constructor 2. constructor 1. intros [_ X]. discriminate.
Qed.

(** ** C38 *)
(** The coordinates a call asks for; [None]: none it accepts. *)
Definition asked (rnd : Q -> Q) (e : lenv) (c : lcall) : option (Q * Q * Q) :=
  match c with
  | {| lc_lat := CFloat lat; lc_lon := CFloat lon |} => Some (lat, lon, rnd (le_offset e / 3600)%Q)
  | {| lc_locale := Some l |} => option_map (fun p => (fst p, snd p, rnd (le_offset e / 3600)%Q)) (le_geocode e l)
  | _ => Some (BADI_COORD rnd)
  end.
(** C38: after every history the coordinates are those asked for by the last call that was accepted, or Tehran's if there
    is none; a call is refused iff it gives a locale, not two floats, and the geocoder does not know the locale. *)
Theorem C38_last_wins : forall rnd h,
  local_after rnd h = match flat_map (fun x => match asked rnd (fst x) (snd x) with Some c => [c] | None => [] end) (rev h) with c :: _ => c | [] => BADI_COORD rnd end.
Proof.
  intros rnd h. induction h as [|[e c] h IH] using rev_ind; [reflexivity|]. unfold local_after in *. rewrite fold_left_app, rev_app_distr. cbn [fold_left rev app flat_map fst snd].
  set (s := fold_left _ h _) in *. assert (S : fst (set_local rnd e c s) = match asked rnd e c with Some x => x | None => s end).
  { unfold set_local, get_local_coordinates, asked. destruct c as [[|z|q] [|z'|q'] [l|]]; cbn; try reflexivity; destruct (le_geocode e l) as [[a b]|]; reflexivity. }
  rewrite S. destruct (asked rnd e c); [reflexivity|exact IH].
Qed.
Print Assumptions C38_last_wins.
Theorem C38_refusal : forall rnd e c s, (snd (set_local rnd e c s) = Ok tt <-> asked rnd e c <> None) /\ (asked rnd e c = None -> set_local rnd e c s = (s, Err AssertionError)).
Proof.
  intros rnd e c s. unfold set_local, get_local_coordinates, asked.
  destruct c as [[|z|q] [|z'|q'] [l|]]; cbn; try (destruct (le_geocode e l) as [[a b]|]; cbn); split; try split; intros; try discriminate; try reflexivity; try congruence.
Qed.
Print Assumptions C38_refusal.
(** Refuted: that integer coordinates are used.  Without a locale they, and a single coordinate, select Tehran. *)
Theorem C38_integers_refuted : forall rnd e h z z', local_after rnd (h ++ [(e, {| lc_lat := CInt z; lc_lon := CInt z'; lc_locale := None |})]) = BADI_COORD rnd.
Proof. intros. rewrite C38_last_wins, rev_app_distr. reflexivity. Qed.
Print Assumptions C38_integers_refuted.
Example C38_case :
  let e := {| le_offset := -18000; le_geocode := fun l => if text_eqb l (str "Haifa") then Some ((328 # 10)%Q, (35 # 1)%Q) else None |} in
  let float a b := {| lc_lat := CFloat a; lc_lon := CFloat b; lc_locale := None |} in
  let place l := {| lc_lat := CNone; lc_lon := CNone; lc_locale := Some (str l) |} in
  local_after (fun x => x) [(e, float 10%Q 20%Q); (e, place "Haifa"%string); (e, place "Nowhere"%string)] = ((328 # 10)%Q, (35 # 1)%Q, ((-18000) / 3600)%Q) /\
  asked (fun x => x) e (place "Nowhere"%string) = None.
Proof. split; reflexivity. Qed.

(** ** C39, C65 *)
Fixpoint last_zone {Z0} (h : list (tzop Z0)) (acc : option Z0) : option Z0 :=
  match h with [] => acc | TFrom _ z _ _ _ :: h => last_zone h (Some z) | _ :: h => last_zone h acc end.
(** C39 (what holds): the dst of every object, old or new, is decided by the last ZoneInfo given to fromzoneinfo. *)
Theorem C39_last_zone_decides : forall td_hours Z0 (zi_key : Z0 -> text) D (zdst : Z0 -> D -> option Z) h o d,
  tzc_dst Z0 zdst (tz_after td_hours Z0 zi_key h) o d = match last_zone h None with Some z => match zdst z d with Some t => t | None => 0 end | None => 0 end.
Proof.
  intros. unfold tzc_dst. assert (A : forall h s, fst (fold_left (tz_step td_hours Z0 zi_key) h s) = last_zone h (fst s)).
  { induction h0 as [|op h0 IH]; intro s; [reflexivity|]. cbn [fold_left]. rewrite IH. destruct op; cbn [last_zone tz_step]; destruct (tzc_new _ _ _ _ _); reflexivity. }
  unfold tz_after. rewrite A. reflexivity.
Qed.
Print Assumptions C39_last_zone_decides.
(** Refuted: that the dst of an object depends on how it was made.  Every object changes its answer when fromzoneinfo is
    called for another zone that answers differently. *)
Theorem C39_isolation_refuted : forall td_hours Z0 (zi_key : Z0 -> text) D (zdst : Z0 -> D -> option Z) h z lat lon zone z' lat' lon' zone' d t t',
  zdst z d = Some t -> zdst z' d = Some t' ->
  let s := tz_after td_hours Z0 zi_key (h ++ [TFrom Z0 z lat lon zone]) in let s' := tz_after td_hours Z0 zi_key (h ++ [TFrom Z0 z lat lon zone; TFrom Z0 z' lat' lon' zone']) in
  forall o, tzc_dst Z0 zdst s o d = t /\ tzc_dst Z0 zdst s' o d = t'.
Proof.
  intros td_hours Z0 zi_key D zdst h z lat lon zone z' lat' lon' zone' d t t' A B s s' o. unfold s, s'. rewrite !C39_last_zone_decides.
  assert (L : forall l acc, last_zone (h ++ l) acc = last_zone l (last_zone h acc)). { clear. induction h as [|[] h IH]; intros l acc; cbn; [reflexivity|apply IH|apply IH]. }
  rewrite !L. cbn [last_zone]. rewrite A, B. split; reflexivity.
Qed.
Print Assumptions C39_isolation_refuted.
(** C39 (positive case): as long as fromzoneinfo is only called for zones that answer alike, an object made by it
    answers as its own zone. *)
Theorem C39_one_zone : forall td_hours Z0 (zi_key : Z0 -> text) D (zdst : Z0 -> D -> option Z) h z lat lon zone o d, In (TFrom Z0 z lat lon zone) h ->
  (forall z' lat' lon' zone', In (TFrom Z0 z' lat' lon' zone') h -> zdst z' d = zdst z d) ->
  tzc_dst Z0 zdst (tz_after td_hours Z0 zi_key h) o d = match zdst z d with Some t => t | None => 0 end.
Proof.
  intros td_hours Z0 zi_key D zdst h z lat lon zone o d I U. rewrite C39_last_zone_decides.
  assert (A : forall h acc, In (TFrom Z0 z lat lon zone) h \/ (exists w, acc = Some w /\ zdst w d = zdst z d) -> (forall z' lat' lon' zone', In (TFrom Z0 z' lat' lon' zone') h -> zdst z' d = zdst z d) ->
    exists w, last_zone h acc = Some w /\ zdst w d = zdst z d).
  { clear. induction h as [|op h IH]; intros acc H U; [destruct H as [[]|H]; exact H|]. destruct op as [a b c k|z' a b c]; cbn [last_zone].
    - apply IH; [destruct H as [[H|H]|H]; [discriminate|left; exact H|right; exact H]|intros; eapply U; right; eassumption].
    - apply IH; [|intros; eapply U; right; eassumption]. right. exists z'. split; [reflexivity|]. eapply U. left. reflexivity. }
  destruct (A h None (or_introl I) U) as (w & -> & E). rewrite E. reflexivity.
Qed.
Print Assumptions C39_one_zone.
Example C39_case : let zdst (z : Z) (d : Z) := Some (z * d) in let h := [TNew Z 10 20 None (Some (str "A")); TFrom Z 3 1 2 5] in
  let o := nth 0 (snd (tz_after (fun x => Qfloor (x * 3600000000)) Z (fun _ => str "K") h)) {| tc_lat := 0; tc_lon := 0; tc_zone := None; tc_key := []; tc_name := None; tc_coords := (0%Q, 0%Q, None); tc_off := 0 |} in
  tc_name o = Some (str "A") /\ tzc_dst Z zdst (tz_after (fun x => Qfloor (x * 3600000000)) Z (fun _ => str "K") h) o 7 = 21 /\
  tzc_dst Z zdst (tz_after (fun x => Qfloor (x * 3600000000)) Z (fun _ => str "K") (h ++ [TFrom Z 4 1 2 5])) o 7 = 28.
Proof. repeat split; reflexivity. Qed.

(** C65: an object is made exactly for offsets of less than a day, with the coordinates given; nothing else is refused. *)
Theorem C65_made_exactly : forall td_hours lat lon zone key,
  let off := match zone with None => 0 | Some z => td_hours z end in
  (Z.abs off < 86400000000 -> exists o, tzc_new td_hours lat lon zone key = Ok o /\ tc_lat o = lat /\ tc_lon o = lon /\ tc_zone o = zone /\ tc_off o = off) /\
  (86400000000 <= Z.abs off -> tzc_new td_hours lat lon zone key = Err ValueError).
Proof.
  intros td_hours lat lon zone key off. unfold tzc_new. fold off. clearbody off. unfold DAY. split; intro H.
  - replace ((- (86400000000 - 1) <=? off) && (off <=? 86400000000 - 1)) with true by lia. eexists. split; [reflexivity|]. repeat split.
  - replace ((- (86400000000 - 1) <=? off) && (off <=? 86400000000 - 1)) with false by lia. reflexivity.
Qed.
Print Assumptions C65_made_exactly.
(** C65: a pickled object comes back with its coordinates, key and offset, hence equal and with the same hash. *)
Theorem C65_pickle : forall td_hours lat lon zone key o, tzc_new td_hours lat lon zone key = Ok o ->
  exists o', tzc_unpickle td_hours (tzc_reduce o) = Ok o' /\ tc_lat o' = lat /\ tc_lon o' = lon /\ tc_key o' = tc_key o /\ tc_coords o' = (lat, lon, zone) /\ tc_off o' = tc_off o.
Proof.
  intros td_hours lat lon zone key o H. unfold tzc_new in H. destruct (_ && _) eqn:B; [|discriminate]. injection H as <-. cbn. eexists. split; [reflexivity|]. cbn. repeat split.
Qed.
Print Assumptions C65_pickle.
(** Refuted: that it comes back unchanged.  Its zone attribute is None, and its name is the one made from the offset. *)
Theorem C65_name_lost_refuted : forall td_hours lat lon zone key o o', tzc_new td_hours lat lon zone key = Ok o -> tzc_unpickle td_hours (tzc_reduce o) = Ok o' ->
  tc_zone o' = None /\ tzc_tzname o' = name_from_offset (tc_off o) /\ (forall k, key = Some k -> k <> [] -> tzc_tzname o = k).
Proof.
  intros td_hours lat lon zone key o o' H U. destruct (C65_pickle td_hours lat lon zone key o H) as (o2 & U2 & _ & _ & _ & _ & OF). rewrite U in U2. injection U2 as <-.
  unfold tzc_new in H. destruct (_ && _) eqn:B; [|discriminate]. injection H as <-. cbn in *. injection U as <-. cbn in *. split; [reflexivity|]. split; [unfold tzc_tzname; cbn; f_equal; exact OF|].
  intros k -> K. destruct k; [congruence|reflexivity].
Qed.
Print Assumptions C65_name_lost_refuted.
Example C65_case : exists o o', tzc_new (fun x => Qfloor (x * 3600000000)) 10 20 (Some (7 # 2)%Q) (Some (str "Asia/Tehran")) = Ok o /\
  tzc_unpickle (fun x => Qfloor (x * 3600000000)) (tzc_reduce o) = Ok o' /\ tzc_tzname o = str "Asia/Tehran" /\ tzc_tzname o' = str "UTC+03:30" /\ tc_off o' = 12600000000.
Proof. eexists. eexists. repeat split; reflexivity. Qed.
