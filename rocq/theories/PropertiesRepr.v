(** PropertiesRepr.v -- C82: repr() of dates, datetimes, times and timezones; C83: str() of datetimes. *)
From Coq Require Import ZArith QArith List Bool Lia String Ascii.
From Coq Require Import ZifyBool ZifyNat ZifyN.
From Verif Require Import Base Flt BaseModel MiscModel BadiModel BaseProofs SpecBadi TduModel DateModel SpecDate DateProofs SampleSun PropertiesBadi PropertiesDate
  TimeModel SpecTime TimeProofs PropertiesTime PropertiesDt TextModel SpecText TextProofs PropertiesText StateModel ReprModel SpecRepr ReprProofs.
Import ListNotations.
Local Open Scope Z_scope.
Ltac Zify.zify_post_hook ::= Z.div_mod_to_equations.

(** The module of the classes. *)
Definition the_module : text := str "badidatetime.datetime".
Ltac is_name := eexists _, _; split; [reflexivity|]; split; reflexivity.

Section Calls.
Variable rnd : Q -> Q.
Variable m : Q -> Q -> Q -> Q.
Variable utc : zone.
Variable global : text -> option obj.
Variable fresh : Z.
Let ev := eval rnd m utc global fresh.
Let evt := eval_text rnd m utc global fresh.
Let cl := call rnd m utc fresh.
Fixpoint eval_args (l : list (option text * expr)) : option (list (option text * obj)) :=
  match l with
  | [] => Some []
  | (k, e) :: r => match ev e, eval_args r with Some o, Some l => Some ((k, o) :: l) | _, _ => None end
  end.
Lemma eval_call f l : ev (Call f l) = match eval_args l with Some l => cl f l | None => None end.
Proof. reflexivity. Qed.
Lemma eval_show e : wf e -> evt (show e) = ev e.
Proof. intro W. unfold evt, eval_text. rewrite (read_all_show e W). reflexivity. Qed.
Lemma call_date l : cl (str "badidatetime.date") l = ok ODate (date_new rnd m (ints (positional l))).
Proof. reflexivity. Qed.
Lemma call_time l : let p := positional l in cl (str "badidatetime.time") l =
  ok OTime (time_new (int_at p 0) (int_at p 1) (int_at p 2) (int_at p 3) (tz_arg fresh (keyword "tzinfo" l)) (int_kw "fold" l)).
Proof. reflexivity. Qed.
Lemma call_dt l : let p := positional l in cl (str "badidatetime.datetime") l =
  ok ODt (dt_new rnd m (match p with a :: b :: c :: ONone :: ONone :: _ => ints [a; b; c] | _ => ints (firstn 5 p) end)
    (int_at p 5) (int_at p 6) (int_at p 7) (int_at p 8) (tz_arg fresh (keyword "tzinfo" l)) (int_kw "fold" l)).
Proof. reflexivity. Qed.
Lemma call_td l : cl (str "badidatetime.timedelta") l =
  Some (ODelta (86400000000 * (int_at (positional l) 0 + int_kw "days" l) + 1000000 * int_kw "seconds" l + int_kw "microseconds" l)).
Proof. reflexivity. Qed.
Lemma call_tz l : cl (str "badidatetime.timezone") l = match positional l with
    | [ODelta d] => ok OZone (timezone_new utc d None)
    | [ODelta d; OStr n] => ok OZone (timezone_new utc d (Some (to_string n)))
    | _ => None
    end.
Proof. reflexivity. Qed.

(** ** Dates *)
Definition date_expr (a : pdate) : expr := Call (str "badidatetime.date") (map (fun z => (None, Num z)) (b_date a)).
Lemma date_text a : date_repr the_module (str "date") a = show (date_expr a).
Proof. destruct a; unfold date_repr, date_expr; cbn [show b_date map fst snd key commas app]; rewrite <- ?app_assoc; reflexivity. Qed.
Lemma date_eval a : date_new rnd m (b_date a) = Ok a -> evt (date_repr the_module (str "date") a) = Some (ODate a).
Proof.
  intro H. rewrite date_text, eval_show; [|split; [is_name|destruct a; cbn; tauto]]. unfold date_expr. rewrite eval_call.
  assert (E : eval_args (map (fun z => (None, Num z)) (b_date a)) = Some (map (fun z => (None, OInt z)) (b_date a))) by (destruct a; reflexivity).
  rewrite E, call_date. replace (ints (positional (map (fun z : Z => (None, OInt z)) (b_date a)))) with (b_date a) by (destruct a; reflexivity). rewrite H. reflexivity.
Qed.

(** ** Durations and zones *)
Definition td_args (us : Z) : list (option text * expr) :=
  let args := (if us / DAY =? 0 then [] else [(Some (str "days"), Num (us / DAY))]) ++ (if us mod DAY / 1000000 =? 0 then [] else [(Some (str "seconds"), Num (us mod DAY / 1000000))])
              ++ (if us mod 1000000 =? 0 then [] else [(Some (str "microseconds"), Num (us mod 1000000))]) in
  match args with [] => [(None, Num 0)] | _ => args end.
Definition td_expr (us : Z) : expr := Call (str "badidatetime.timedelta") (td_args us).
Lemma cut_app a b : existsb (Z.eqb 46) a = false -> cut 46 (a ++ 46 :: b) = Some (a, 46 :: b).
Proof.
  induction a as [|c a IH]; intro H; [reflexivity|]. cbn [existsb] in H. apply orb_false_iff in H as [H1 H2]. cbn [app cut]. rewrite Z.eqb_sym, H1, (IH H2). reflexivity.
Qed.
Lemma td_text us : module_name (td_repr us) = show (td_expr us).
Proof.
  unfold td_repr. set (l := commas _). unfold module_name. change (lit "datetime.timedelta(" ++ l ++ lit ")") with (lit "datetime" ++ 46 :: (lit "timedelta(" ++ l ++ lit ")")).
  rewrite cut_app by reflexivity. unfold text_eqb. destruct (list_eq_dec Z.eq_dec _ _) as [_|N]; [|contradiction].
  unfold l, td_expr, td_args. clear l. destruct (us / DAY =? 0), (us mod DAY / 1000000 =? 0), (us mod 1000000 =? 0); cbn [app show map fst snd key commas]; rewrite <- ?app_assoc; reflexivity.
Qed.
Lemma td_wf us : wf (td_expr us).
Proof. split; [is_name|]. unfold td_args. destruct (us / DAY =? 0), (us mod DAY / 1000000 =? 0), (us mod 1000000 =? 0); cbn; repeat split; try is_name. Qed.
Lemma td_eval us : ev (td_expr us) = Some (ODelta us).
Proof.
  unfold td_expr. rewrite eval_call. assert (S : us = 86400000000 * (us / DAY) + 1000000 * (us mod DAY / 1000000) + us mod 1000000) by (unfold DAY; lia).
  unfold td_args. destruct (Z.eqb_spec (us / DAY) 0) as [A|A], (Z.eqb_spec (us mod DAY / 1000000) 0) as [B|B], (Z.eqb_spec (us mod 1000000) 0) as [C|C];
    (cbn [app eval_args]; unfold ev; cbn [eval]; fold ev; rewrite call_td; do 2 f_equal; etransitivity; [|symmetry; exact S];
     unfold int_kw, int_at; cbn [keyword positional nth];
     repeat match goal with |- context [same ?x ?y] => let b := eval vm_compute in (same x y) in change (same x y) with b end; cbn iota; rewrite ?A, ?B, ?C; lia).
Qed.
Lemma str_bytes n : Forall byte (str n).
Proof. unfold str. induction (list_ascii_of_string n) as [|c l IH]; constructor; [|exact IH]. unfold byte. pose proof (nat_ascii_bounded c). lia. Qed.
Lemma to_string_str n : to_string (str n) = n.
Proof. unfold str. induction n as [|c n IH]; [reflexivity|]. cbn [list_ascii_of_string map to_string]. rewrite IH, Nat2Z.id, ascii_nat_embedding. reflexivity. Qed.
Definition zone_expr (z : zone) : expr :=
  Call (str "badidatetime.timezone") ((None, td_expr (z_off z)) :: match z_name z with None => [] | Some n => [(None, Str (str n))] end).
Definition own_repr (z : zone) : text := zone_repr the_module (str "timezone") IsOther (z_off z) (option_map str (z_name z)).
Lemma zone_text z : own_repr z = show (zone_expr z).
Proof.
  unfold own_repr, zone_repr, zone_repr_args. rewrite td_text. unfold zone_expr. destruct (z_name z); cbn [option_map]; set (t := show (td_expr (z_off z)));
    cbn [show map fst snd key app commas]; fold t; rewrite <- ?app_assoc; reflexivity.
Qed.
Lemma zone_wf z : wf (zone_expr z).
Proof. split; [is_name|]. cbn [fold_right fst snd]. split; [exact Logic.I|]. split; [apply td_wf|]. destruct (z_name z); [|exact Logic.I]. split; [exact Logic.I|]. split; [apply str_bytes|exact Logic.I]. Qed.
Lemma zone_eval z : timezone_new utc (z_off z) (z_name z) = Ok z -> ev (zone_expr z) = Some (OZone z).
Proof.
  intro H. unfold zone_expr. rewrite eval_call. destruct (z_name z) as [n|]; cbn [eval_args]; rewrite td_eval; [change (ev (Str (str n))) with (Some (OStr (str n)))|];
    cbn iota; rewrite call_tz; cbn [positional]; rewrite ?to_string_str, H; reflexivity.
Qed.

(** ** Times and datetimes *)
Definition tail_args (tze : option expr) (fold : Z) : list (option text * expr) :=
  (match tze with Some e => [(Some (str "tzinfo"), e)] | None => [] end) ++ (if fold =? 0 then [] else [(Some (str "fold"), Num 1)]).
Definition pos (l : list Z) : list (option text * expr) := map (fun z => (None, Num z)) l.
Definition time_expr (t : ptime) (tze : option expr) : expr :=
  Call (str "badidatetime.time") (pos (if negb (t_us t =? 0) then [t_h t; t_mi t; t_s t; t_us t] else if negb (t_s t =? 0) then [t_h t; t_mi t; t_s t] else [t_h t; t_mi t]) ++ tail_args tze (t_fold t)).
Definition clock_args (a : pdt) : list Z := drop_zero (drop_zero [dt_h a; dt_mi a; dt_s a; dt_us a]).
Lemma clock_args_eq a : clock_args a = if negb (dt_us a =? 0) then [dt_h a; dt_mi a; dt_s a; dt_us a] else if negb (dt_s a =? 0) then [dt_h a; dt_mi a; dt_s a] else [dt_h a; dt_mi a].
Proof.
  unfold clock_args, drop_zero. cbn [rev app]. destruct (dt_us a =? 0) eqn:U; cbn [negb rev app]; [destruct (dt_s a =? 0); reflexivity|rewrite U; reflexivity].
Qed.
Definition dt_expr (a : pdt) (tze : option expr) : expr :=
  Call (str "badidatetime.datetime") (pos (b_date (dt_d a)) ++ (if is_short (dt_d a) then [(None, Var (str "None")); (None, Var (str "None"))] else []) ++ pos (clock_args a) ++ tail_args tze (dt_fold a)).
Lemma tail_wf tze fold : match tze with Some e => wf e | None => True end -> wf_args (tail_args tze fold).
Proof. intro H. unfold tail_args. destruct tze, (fold =? 0); cbn; repeat split; try assumption; try is_name. Qed.
Lemma wf_args_app a b : wf_args a -> wf_args b -> wf_args (a ++ b).
Proof. intros A B. induction a as [|x a IH]; [exact B|]. destruct A as (A1 & A2 & A3). split; [exact A1|]. split; [exact A2|apply IH, A3]. Qed.
Lemma pos_wf l : wf_args (pos l).
Proof. induction l as [|z l IH]; [exact Logic.I|]. split; [exact Logic.I|]. split; [exact Logic.I|exact IH]. Qed.
Lemma time_text t tze : (t_tz t = None <-> tze = None) ->
  time_repr the_module (str "time") t (match tze with Some e => show e | None => [] end) = show (time_expr t tze).
Proof.
  intro H. unfold time_repr, time_expr, tail_args, pos. destruct (t_tz t), tze as [e|]; try (exfalso; destruct H as [H1 H2]; (discriminate (H1 eq_refl) || discriminate (H2 eq_refl)));
    destruct (t_us t =? 0), (t_s t =? 0), (t_fold t =? 0); cbn [negb app show map fst snd key commas]; rewrite <- ?app_assoc; reflexivity.
Qed.
Lemma dt_text a tze : (dt_tz a = None <-> tze = None) ->
  dt_repr the_module (str "datetime") a (match tze with Some e => show e | None => [] end) = show (dt_expr a tze).
Proof.
  intro H. unfold dt_repr, dt_expr, tail_args. fold (clock_args a). rewrite clock_args_eq. unfold pos.
  destruct (dt_tz a), tze as [e|]; try (exfalso; destruct H as [H1 H2]; (discriminate (H1 eq_refl) || discriminate (H2 eq_refl)));
    destruct (dt_d a), (dt_us a =? 0), (dt_s a =? 0), (dt_fold a =? 0); cbn [negb app show map fst snd key commas b_date is_short]; rewrite <- ?app_assoc; reflexivity.
Qed.
Definition opt_args (o : option obj) (fold : Z) : list (option text * obj) :=
  (match o with Some e => [(Some (str "tzinfo"), e)] | None => [] end) ++ (if fold =? 0 then [] else [(Some (str "fold"), OInt 1)]).
Lemma eval_args_app a b : eval_args (a ++ b) = match eval_args a, eval_args b with Some x, Some y => Some (x ++ y) | _, _ => None end.
Proof. induction a as [|[k e] a IH]; cbn [app eval_args]; [destruct (eval_args b); reflexivity|]. destruct (ev e); [|reflexivity]. rewrite IH. destruct (eval_args a), (eval_args b); reflexivity. Qed.
Lemma eval_pos l : eval_args (pos l) = Some (map (fun z => (None, OInt z)) l).
Proof. induction l as [|z l IH]; [reflexivity|]. cbn [pos map eval_args]. change (ev (Num z)) with (Some (OInt z)). fold (pos l). rewrite IH. reflexivity. Qed.
Lemma eval_tail tze o fold : match tze, o with Some e, Some x => ev e = Some x | None, None => True | _, _ => False end -> eval_args (tail_args tze fold) = Some (opt_args o fold).
Proof. intro H. unfold tail_args, opt_args. destruct tze, o; try contradiction; destruct (fold =? 0); cbn [app eval_args]; rewrite ?H; reflexivity. Qed.
Lemma positional_app l r : match r with (None, _) :: _ => False | _ => True end -> positional (map (fun z => (None, OInt z)) l ++ r) = map OInt l.
Proof. intro H. induction l as [|z l IH]; [destruct r as [|[[]] r]; [reflexivity|reflexivity|contradiction]|]. cbn [map app positional]. rewrite IH. reflexivity. Qed.
Lemma opt_named o fold : match opt_args o fold with (None, _) :: _ => False | _ => True end.
Proof. unfold opt_args. destruct o, (fold =? 0); exact Logic.I. Qed.
Lemma keyword_app k l r : keyword k (map (fun z => (None, OInt z)) l ++ r) = keyword k r.
Proof. induction l; [reflexivity|assumption]. Qed.
Lemma kw_tz o fold : keyword "tzinfo" (opt_args o fold) = o.
Proof. unfold opt_args. destruct o, (fold =? 0); reflexivity. Qed.
Lemma kw_fold o fold : fold = 0 \/ fold = 1 -> int_kw "fold" (opt_args o fold) = fold.
Proof. intros [-> | ->]; unfold opt_args; destruct o; reflexivity. Qed.
Definition with_tz (a : pdt) (z : option tz) : pdt := {| dt_d := dt_d a; dt_h := dt_h a; dt_mi := dt_mi a; dt_s := dt_s a; dt_us := dt_us a; dt_tz := z; dt_fold := dt_fold a |}.
Lemma dt_eval a tze o : date_new rnd m (b_date (dt_d a)) = Ok (dt_d a) -> valid_dt_clock a ->
  match tze, o with Some e, Some x => wf e /\ ev e = Some x | None, None => True | _, _ => False end -> (dt_tz a = None <-> tze = None) ->
  evt (dt_repr the_module (str "datetime") a (match tze with Some e => show e | None => [] end)) = Some (ODt (with_tz a (tz_arg fresh o))).
Proof.
  intros D (C & F & _) E T. rewrite (dt_text a tze T). rewrite eval_show.
  2: { split; [is_name|]. fold (wf_args (pos (b_date (dt_d a)) ++ (if is_short (dt_d a) then [(None, Var (str "None")); (None, Var (str "None"))] else []) ++ pos (clock_args a) ++ tail_args tze (dt_fold a))).
       apply wf_args_app; [apply pos_wf|]. apply wf_args_app; [|apply wf_args_app; [apply pos_wf|apply tail_wf; destruct tze, o; tauto]].
       destruct (is_short (dt_d a)); [|exact Logic.I]. cbn. repeat split; is_name. }
  unfold dt_expr. rewrite eval_call, !eval_args_app, !eval_pos, (eval_tail tze o) by (destruct tze, o; tauto).
  assert (X : dt_new rnd m (b_date (dt_d a)) (dt_h a) (dt_mi a) (dt_s a) (dt_us a) (tz_arg fresh o) (dt_fold a) = Ok (with_tz a (tz_arg fresh o))).
  { apply C56_datetime_constructor. exists (dt_d a). split; [exact D|]. split; [exact C|]. split; [exact F|reflexivity]. }
  assert (INT : forall l i, int_at (map OInt l) i = nth i l 0). { intros l i. unfold int_at. change (OInt 0) with (OInt 0). rewrite (map_nth OInt). reflexivity. }
  destruct (dt_d a) as [y mo d|k v y mo d] eqn:DD; cbn [is_short b_date map app eval_args] in X |- *.
  - change (ev (Var (str "None"))) with (Some ONone). cbn iota beta.
    cbn [app]. rewrite call_dt. cbn [positional]. rewrite (positional_app _ _ (opt_named o (dt_fold a))). cbn [keyword]. unfold int_kw. cbn [keyword]. rewrite keyword_app, kw_tz. fold (int_kw "fold" (map (fun z => (None, OInt z)) (clock_args a) ++ opt_args o (dt_fold a))).
    unfold int_kw. rewrite keyword_app. fold (int_kw "fold" (opt_args o (dt_fold a))). rewrite (kw_fold o _ F).
    unfold int_at. cbn [nth].
    cbn [ints map]. rewrite clock_args_eq.
    destruct (dt_us a =? 0) eqn:U; [|cbn [negb map nth]; rewrite X; reflexivity]. destruct (dt_s a =? 0) eqn:S; cbn [negb map nth]; apply Z.eqb_eq in U; rewrite U in X; [apply Z.eqb_eq in S; rewrite S in X|]; rewrite X; reflexivity.
  - rewrite call_dt. set (r := map (fun z => (None, OInt z)) (clock_args a) ++ opt_args o (dt_fold a)).
    assert (P : positional r = map OInt (clock_args a)) by (unfold r; apply positional_app, opt_named).
    cbn [positional]. rewrite P. unfold int_kw. cbn [keyword]. unfold r. rewrite !keyword_app, kw_tz. fold (int_kw "fold" (opt_args o (dt_fold a))). rewrite (kw_fold o _ F).
    unfold int_at. cbn [nth firstn ints map]. rewrite clock_args_eq.
    destruct (dt_us a =? 0) eqn:U; [|cbn [negb map nth]; rewrite X; reflexivity]. destruct (dt_s a =? 0) eqn:S; cbn [negb map nth]; apply Z.eqb_eq in U; rewrite U in X; [apply Z.eqb_eq in S; rewrite S in X|]; rewrite X; reflexivity.
Qed.
Lemma time_eval t : valid_clock (t_h t) (t_mi t) (t_s t) (t_us t) -> (t_fold t = 0 \/ t_fold t = 1) -> t_tz t = None ->
  forall s, evt (time_repr the_module (str "time") t s) = Some (OTime t).
Proof.
  intros C F T s. replace (time_repr the_module (str "time") t s) with (time_repr the_module (str "time") t []) by (unfold time_repr; rewrite T; reflexivity).
  rewrite (time_text t None) by tauto. rewrite eval_show.
  2: { split; [is_name|]. match goal with |- fold_right _ _ ?l => fold (wf_args l) end. apply wf_args_app; [apply pos_wf|apply (tail_wf None), Logic.I]. }
  unfold time_expr. rewrite eval_call, eval_args_app, eval_pos, (eval_tail None None _ Logic.I). rewrite call_time, (positional_app _ _ (opt_named None (t_fold t))).
  unfold int_kw. rewrite !keyword_app, kw_tz. fold (int_kw "fold" (opt_args None (t_fold t))). rewrite (kw_fold None _ F).
  assert (X : time_new (t_h t) (t_mi t) (t_s t) (t_us t) None (t_fold t) = Ok t).
  { rewrite time_new_ok by assumption. rewrite <- T. destruct t; reflexivity. }
  cbn [tz_arg]. unfold int_at.
  destruct (t_us t =? 0) eqn:U; [|cbn [negb map nth]; rewrite X; reflexivity]. destruct (t_s t =? 0) eqn:S; cbn [negb map nth]; apply Z.eqb_eq in U; rewrite U in X; [apply Z.eqb_eq in S; rewrite S in X|]; rewrite X; reflexivity.
Qed.
End Calls.

(** ** C82 *)
(** C82 (dates): a date the constructor accepts is what its repr evaluates to. *)
Theorem C82_date : forall rnd m utc global fresh a, date_new rnd m (b_date a) = Ok a ->
  eval_text rnd m utc global fresh (date_repr the_module (str "date") a) = Some (ODate a).
Proof. intros. apply date_eval. assumption. Qed.
Print Assumptions C82_date.
(** C82 (timezones): a timezone made by the constructor, other than timezone.utc, is what its repr evaluates to, whatever its name. *)
Theorem C82_timezone : forall rnd m utc global fresh o name z, timezone_new utc o name = Ok z -> o <> 0 \/ name <> None ->
  eval_text rnd m utc global fresh (zone_repr the_module (str "timezone") IsOther (z_off z) (option_map str (z_name z))) = Some (OZone z).
Proof.
  intros rnd m utc global fresh o name z H N. fold (own_repr z). rewrite zone_text, eval_show by apply zone_wf. apply zone_eval.
  unfold timezone_new in *. destruct name as [n|].
  - destruct (_ && _) eqn:B; [|discriminate]. injection H as <-. cbn [z_off z_name]. rewrite B. reflexivity.
  - destruct (Z.eqb_spec o 0); [destruct N; contradiction|]. destruct (_ && _) eqn:B; [|discriminate]. injection H as <-. cbn [z_off z_name]. replace (o =? 0) with false by lia. rewrite B. reflexivity.
Qed.
Print Assumptions C82_timezone.
(** The two objects with names of their own. *)
Definition knows (global : text -> option obj) (w : who) (t : tz) : Prop :=
  match w with IsUtc => global (str "badidatetime.timezone.utc") = Some (OTz t) | IsBadi => global (str "badidatetime.BADI") = Some (OTz t) | IsOther => False end.
(** C82 (datetimes): a datetime without tzinfo, or with timezone.utc or timezone.badi, is what its repr evaluates to; with another
    timezone the result differs only in the identity of the tzinfo object, which is a new one of the same offset. *)
Theorem C82_datetime : forall rnd m utc global fresh a, date_new rnd m (b_date (dt_d a)) = Ok (dt_d a) -> valid_dt_clock a ->
  (dt_tz a = None -> forall s, eval_text rnd m utc global fresh (dt_repr the_module (str "datetime") a s) = Some (ODt a)) /\
  (forall w t off name, dt_tz a = Some t -> knows global w t ->
     eval_text rnd m utc global fresh (dt_repr the_module (str "datetime") a (zone_repr the_module (str "TZWithCoords") w off name)) = Some (ODt a)) /\
  (forall t z o name, dt_tz a = Some t -> timezone_new utc o name = Ok z -> o <> 0 \/ name <> None -> tz_off t = Some (z_off z) ->
     eval_text rnd m utc global fresh (dt_repr the_module (str "datetime") a (zone_repr the_module (str "timezone") IsOther (z_off z) (option_map str (z_name z))))
     = Some (ODt {| dt_d := dt_d a; dt_h := dt_h a; dt_mi := dt_mi a; dt_s := dt_s a; dt_us := dt_us a; dt_tz := Some {| tz_id := fresh; tz_off := tz_off t |}; dt_fold := dt_fold a |})).
Proof.
  intros rnd m utc global fresh a D C. split; [|split].
  - intros T s. replace (dt_repr the_module (str "datetime") a s) with (dt_repr the_module (str "datetime") a []) by (unfold dt_repr; rewrite T; reflexivity).
    rewrite (dt_eval rnd m utc global fresh a None None D C Logic.I) by tauto. unfold with_tz. cbn [tz_arg]. rewrite <- T. destruct a; reflexivity.
  - intros w t off name T K. assert (X : with_tz a (tz_arg fresh (Some (OTz t))) = a) by (unfold with_tz; cbn [tz_arg]; rewrite <- T; destruct a; reflexivity).
    rewrite <- X at 2. destruct w; [| |destruct K]; cbn [knows] in K; cbn [zone_repr];
      [apply (dt_eval rnd m utc global fresh a (Some (Var (str "badidatetime.timezone.utc"))) (Some (OTz t)) D C)|apply (dt_eval rnd m utc global fresh a (Some (Var (str "badidatetime.BADI"))) (Some (OTz t)) D C)];
      try (split; [is_name|exact K]); rewrite T; split; discriminate.
  - intros t z o name T H N O. assert (Z : eval rnd m utc global fresh (zone_expr z) = Some (OZone z)).
    { pose proof (C82_timezone rnd m utc global fresh o name z H N) as X. fold (own_repr z) in X. rewrite zone_text, eval_show in X by apply zone_wf. exact X. }
    fold (own_repr z). rewrite zone_text. rewrite (dt_eval rnd m utc global fresh a (Some (zone_expr z)) (Some (OZone z)) D C (conj (zone_wf z) Z)) by (rewrite T; split; discriminate).
    unfold with_tz. cbn [tz_arg]. rewrite O. reflexivity.
Qed.
Print Assumptions C82_datetime.
(** C82 (times): a time without tzinfo is what its repr evaluates to. *)
Theorem C82_time : forall rnd m utc global fresh t s, valid_clock (t_h t) (t_mi t) (t_s t) (t_us t) -> t_fold t = 0 \/ t_fold t = 1 -> t_tz t = None ->
  eval_text rnd m utc global fresh (time_repr the_module (str "time") t s) = Some (OTime t).
Proof. intros. apply time_eval; assumption. Qed.
Print Assumptions C82_time.

(** ** Texts that cannot be read *)
Lemma bad_tail r : (forall k, read_args k r = None) -> forall (l : list (option text * expr)) (n : nat), wf_args l ->
  (List.length (flat_map (fun a => show_arg a ++ [44; 32]%Z) l ++ r) < n)%nat -> read_args n (flat_map (fun a => show_arg a ++ [44; 32]) l ++ r) = None.
Proof.
  intro B. induction l as [|[k e] l IH]; intros n W L; [apply B|]. destruct W as (WK & WE & WL). cbn [fst snd] in *. cbn [flat_map] in *. rewrite <- !app_assoc in *.
  destruct n as [|n]; [reflexivity|]. set (tl := flat_map _ l ++ r) in *. rewrite !app_length in L. cbn [List.length] in L.
  assert (ST : stop ([44; 32] ++ tl)) by (right; eexists _, _; split; [reflexivity|left; reflexivity]).
  assert (AFTER : forall r0, read n (show e ++ [44; 32] ++ tl) = r0 -> r0 = Some (e, [44; 32] ++ tl)).
  { intros r0 <-. unfold show_arg in L. cbn [fst snd] in L. rewrite app_length in L. apply (proj1 (read_show n) e); [exact WE|exact ST|lia]. }
  specialize (AFTER _ eq_refl). specialize (IH n WL ltac:(lia)).
  unfold show_arg. cbn [fst snd]. rewrite <- app_assoc. cbn [read_args].
  set (s := key k ++ show e ++ [44; 32] ++ tl).
  assert (KS : match span name_char s with (k, 61 :: r) => (Some k, r) | _ => (None, s) end = (k, show e ++ [44; 32] ++ tl)).
  { unfold s. destruct k as [k|]; cbn [key].
    - destruct WK as (c & t & -> & A & _). rewrite <- !app_assoc. rewrite (span_app name_char (c :: t) _ A) by reflexivity. reflexivity.
    - cbn [app]. destruct (no_keyword e ([44; 32] ++ tl) WE ST) as (x & t & E & NK). cbn [app] in E. rewrite E. destruct t as [|[|p|p] t]; try reflexivity. repeat (destruct p; try reflexivity). contradiction. }
  rewrite KS, AFTER. cbn [app]. rewrite IH. 
  assert (NB : match s with 41 :: _ => False | _ => True end).
  { unfold s. destruct k as [k|]; cbn [key].
    - destruct WK as (c & t & -> & A & _). cbn [app]. cbn in A. apply andb_true_iff in A as [A _]. destruct c; try exact Logic.I. repeat (destruct p; try exact Logic.I). discriminate.
    - cbn [app]. clear - WE. destruct e; cbn [show wf] in *.
      + unfold int_text. destruct (Z.ltb_spec z 0); [exact Logic.I|]. destruct (dec_digits z ltac:(lia)) as (c & t & -> & A & _). cbn in A. apply andb_true_iff in A as [A _]. cbn [app]. destruct c; try exact Logic.I. repeat (destruct p; try exact Logic.I). discriminate.
      + unfold str_repr. destruct (_ && _); exact Logic.I.
      + destruct WE as (c & t & -> & A & _). cbn in A. apply andb_true_iff in A as [A _]. cbn [app]. destruct c; try exact Logic.I. repeat (destruct p; try exact Logic.I). discriminate.
      + destruct WE as ((c & t & -> & A & _) & _). cbn in A. apply andb_true_iff in A as [A _]. cbn [app]. destruct c; try exact Logic.I. repeat (destruct p; try exact Logic.I). discriminate. }
  clear - NB. destruct s as [|[|p|p] s']; try reflexivity. repeat (destruct p; try reflexivity). contradiction.
Qed.
(** Refuted: that a time with a tzinfo is what its repr evaluates to.  With a timezone of another offset than zero and no name the
    text is not even an expression, because it has str() of the tzinfo in it. *)
Theorem C82_aware_time_refuted : forall rnd m utc global fresh t z, t_tz t = Some z -> forall o, o <> 0 ->
  eval_text rnd m utc global fresh (time_repr the_module (str "time") t (zone_str o None)) = None.
Proof.
  intros rnd m utc global fresh t z T o O. set (text := time_repr _ _ _ _).
  set (l := pos (if negb (t_us t =? 0) then [t_h t; t_mi t; t_s t; t_us t] else if negb (t_s t =? 0) then [t_h t; t_mi t; t_s t] else [t_h t; t_mi t])).
  assert (N : exists sg r, (sg = 43 \/ sg = 45) /\ zone_str o None = str "UTC" ++ sg :: r).
  { unfold zone_str, name_from_offset. replace (o =? 0) with false by lia. eexists _, _. split; [|cbn [app]; reflexivity]. destruct (o <? 0); auto. }
  destruct N as (sg & nr & SG & N).
  set (rest := sg :: nr ++ (if t_fold t =? 0 then [] else lit ", fold=1") ++ lit ")").
  assert (TX : text = str "badidatetime.time" ++ 40 :: (flat_map (fun a => show_arg a ++ [44; 32]) l ++ (str "tzinfo=UTC" ++ rest))).
  { unfold text, time_repr, l, pos, rest, show_arg. rewrite T, N. destruct (t_us t =? 0), (t_s t =? 0), (t_fold t =? 0); cbn [negb map flat_map fst snd key show app]; rewrite <- ?app_assoc; reflexivity. }
  assert (BAD : forall k, read_args k (str "tzinfo=UTC" ++ rest) = None).
  { intros [|k]; [reflexivity|]. cbn [read_args]. change (span name_char (str "tzinfo=UTC" ++ rest)) with (str "tzinfo", 61 :: str "UTC" ++ rest).
    destruct k as [|k]; [reflexivity|]. assert (R : read (S k) (str "UTC" ++ rest) = Some (Var (str "UTC"), rest)) by (unfold rest; destruct SG as [-> | ->]; reflexivity).
    cbn iota beta. rewrite R. unfold rest. destruct SG as [-> | ->]; reflexivity. }
  unfold eval_text, read_all. rewrite TX. set (args := flat_map _ l ++ _) in *.
  assert (R : forall n, (S (List.length args) < n)%nat -> read n (str "badidatetime.time" ++ 40 :: args) = None).
  { intros [|n] H; [lia|]. cbn [read]. change (span name_char (str "badidatetime.time" ++ 40 :: args)) with (str "badidatetime.time", 40 :: args).
    change (str "badidatetime.time") with (98 :: str "adidatetime.time"). cbn [app]. cbn [Z.eqb Pos.eqb orb].
    replace (digit 98) with false by reflexivity. unfold args. rewrite (bad_tail _ BAD l n); [reflexivity|apply pos_wf|fold args; lia]. }
  rewrite R; [reflexivity|]. rewrite app_length. cbn [List.length]. lia.
Qed.
Print Assumptions C82_aware_time_refuted.
Definition tz230 : tz := {| tz_id := 2; tz_off := Some 12600000000 |}.
Definition case_names (s : text) : option obj := if same s "badidatetime.BADI" then Some (OTz tz230) else None.
Definition utc0 : zone := {| z_off := 0; z_name := Some "UTC"%string |}.
Example C82_case :
  date_new b64 sample_sun (b_date (DLong (-1) 19 10 0 4)) = Ok (DLong (-1) 19 10 0 4) /\ date_repr the_module (str "date") (DLong (-1) 19 10 0 4) = str "badidatetime.date(-1, 19, 10, 0, 4)" /\
  timezone_new utc0 (-18000000000) (Some "it's"%string) = Ok {| z_off := -18000000000; z_name := Some "it's"%string |} /\
  zone_repr the_module (str "timezone") IsOther (-18000000000) (Some (str "it's")) = str "badidatetime.timezone(badidatetime.timedelta(days=-1, seconds=68400), ""it's"")" /\
  valid_dt_clock (mk_dt 181 2 3 4 0 5 0 (Some tz230)) /\ knows case_names IsBadi tz230 /\
  dt_repr the_module (str "datetime") (mk_dt 181 2 3 4 0 5 0 (Some tz230)) (zone_repr the_module (str "TZWithCoords") IsBadi 12600000000 None)
    = str "badidatetime.datetime(181, 2, 3, None, None, 4, 0, 5, tzinfo=badidatetime.BADI)" /\
  eval_text b64 sample_sun utc0 case_names 7 (str "badidatetime.datetime(181, 2, 3, None, None, 4, 0, 5, tzinfo=badidatetime.BADI)") = Some (ODt (mk_dt 181 2 3 4 0 5 0 (Some tz230))) /\
  time_repr the_module (str "time") {| t_h := 24; t_mi := 0; t_s := 0; t_us := 7; t_tz := None; t_fold := 1 |} [] = str "badidatetime.time(24, 0, 0, 7, fold=1)" /\
  time_repr the_module (str "time") {| t_h := 1; t_mi := 0; t_s := 0; t_us := 0; t_tz := Some tz230; t_fold := 0 |} (zone_str 12600000000 None) = str "badidatetime.time(1, 0, tzinfo=UTC+03:30)".
Proof.
  split; [vm_compute; reflexivity|]. split; [vm_compute; reflexivity|]. split; [vm_compute; reflexivity|]. split; [vm_compute; reflexivity|].
  split; [unfold valid_dt_clock, valid_clock, mk_dt, tz230, good_offset, offset; cbn; repeat split; try lia; try (left; reflexivity); match goal with H : Some _ = Some _ |- _ => injection H as <-; lia end|].
  split; [vm_compute; reflexivity|]. split; [vm_compute; reflexivity|]. split; [vm_compute; reflexivity|]. split; vm_compute; reflexivity.
Qed.
Print Assumptions C82_case.

(** ** C83: str of a datetime *)
(** The fraction of a second a text of digits stands for, in microseconds. *)
Definition fraction_us (ds : text) : Q := inject_Z (1000000 * value ds) / inject_Z (10 ^ Z.of_nat (List.length ds)).
Definition long_text (k v y mo d : Z) : text :=
  (if k <? 0 then str "-" ++ columns 2 (- k) else columns 2 k) ++ str "-" ++ columns 2 v ++ str "-" ++ columns 2 y ++ str "-" ++ columns 2 mo ++ str "-" ++ columns 2 d.

Lemma value_bound s : forallb is_digit s = true -> value s < 10 ^ Z.of_nat (List.length s).
Proof.
  induction s as [|c s IH] using rev_ind; intro F; [cbn; lia|]. rewrite forallb_app in F. apply andb_true_iff in F as [F1 F2]. specialize (IH F1).
  rewrite value_app, app_length. cbn [List.length]. replace (Z.of_nat (List.length s + 1)) with (Z.succ (Z.of_nat (List.length s))) by lia. rewrite Z.pow_succ_r by lia. cbn in F2. unfold is_digit in F2. lia.
Qed.
Lemma frac_digits u : 1 <= u < 1000000 -> exists w, int_text u = columns w u /\ (1 <= w <= 6)%nat /\ 10 ^ Z.of_nat (w - 1) <= u < 10 ^ Z.of_nat w.
Proof.
  intro R. unfold int_text. replace (u <? 0) with false by lia.
  assert (X : exists w, (1 <= w <= 6)%nat /\ 10 ^ Z.of_nat (w - 1) <= u < 10 ^ Z.of_nat w).
  { destruct (Z.ltb_spec u 10); [exists 1%nat; cbn; lia|]. destruct (Z.ltb_spec u 100); [exists 2%nat; cbn; lia|]. destruct (Z.ltb_spec u 1000); [exists 3%nat; cbn; lia|].
    destruct (Z.ltb_spec u 10000); [exists 4%nat; cbn; lia|]. destruct (Z.ltb_spec u 100000); [exists 5%nat; cbn; lia|]. exists 6%nat; cbn; lia. }
  destruct X as (w & W & B). exists w. split; [|split; [exact W|exact B]].
  pose proof (pad_dec w u ltac:(lia) ltac:(lia)) as P. unfold pad in P. destruct (Nat.le_gt_cases w (List.length (dec u))) as [L|L].
  - replace (w - List.length (dec u))%nat with 0%nat in P by lia. exact P.
  - exfalso. destruct (dec_digits u ltac:(lia)) as (c & r & E & A & V). pose proof (value_bound (dec u) A) as VB. rewrite V in VB.
    assert (10 ^ Z.of_nat (List.length (dec u)) <= 10 ^ Z.of_nat (w - 1)) by (apply Z.pow_le_mono_r; lia). lia.
Qed.

(** C83: str of a short datetime is its date, T, its clock and its offset. *)
Theorem C83_short : forall rnd m a y mo d, Nearest rnd -> evening rnd m -> dt_d a = DShort y mo d -> supported rnd m (dt_d a) y mo d -> valid_dt_clock a ->
  dt_str rnd m a (str "T") = Ok (ymd_text y mo d ++ str "T" ++ clock_text (dt_h a) (dt_mi a) (dt_s a) (dt_us a) ++ match offset (dt_tz a) with Some o => offset_text o | None => [] end).
Proof.
  intros rnd m [dd h mi s us z fo] y mo d N E D S (V & _ & G). cbn [dt_d dt_h dt_mi dt_s dt_us dt_tz dt_fold] in *. subst dd. destruct V as (H & M & SR & U).
  destruct (sup_ok rnd m _ y mo d N E S) as (DD & K & Y). pose proof (ok_small y mo d K) as KS.
  unfold dt_str. cbn [dt_d]. unfold dt_isoformat. cbn [dt_d dt_h dt_mi dt_s dt_us dt_tz dt_fold ymd]. rewrite utcoffset_ok by exact G. cbn [bind].
  rewrite iso_ymd_text by (unfold okd in K; lia).
  assert (T : format_time h mi s us Auto = clock_text h mi s us).
  { unfold format_time, clock_text, hms_text, hm_text. rewrite !(fmt0_columns 2), (fmt0_columns 6) by (cbn; lia). destruct (us =? 0); rewrite ?app_nil_r, <- ?app_assoc; reflexivity. }
  rewrite T. destruct (offset z) as [o|] eqn:Q; [rewrite C28_shape by (apply (G o Q))|]; reflexivity.
Qed.
Print Assumptions C83_short.
Lemma long_str rnd m a k v yy y mo d : Nearest rnd -> evening rnd m -> dt_d a = DLong k v yy mo d -> supported rnd m (dt_d a) y mo d -> valid_dt_clock a ->
  dt_str rnd m a (str "T") = Ok (long_text k v yy mo d ++ str "T" ++ hms_text (dt_h a) (dt_mi a) (dt_s a) ++ (if dt_us a =? 0 then [] else str "." ++ int_text (dt_us a))
    ++ match offset (dt_tz a) with Some o => offset_text o | None => [] end).
Proof.
  intros N E D S (V & _ & G). destruct (sup_ok rnd m _ y mo d N E S) as (DD & K & Y). pose proof (ok_small y mo d K) as KS. rewrite D in DD. destruct DD as (V1 & YY & L & _ & _).
  unfold valid_clock in V. unfold dt_str. rewrite D. cbn [date_str bind]. rewrite utcoffset_ok by exact G. cbn [bind]. unfold okd in K.
  assert (KT : fmt0 (if k <? 0 then 3 else 2) k = if k <? 0 then str "-" ++ columns 2 (- k) else columns 2 k).
  { unfold fmt0. destruct (Z.ltb_spec k 0); [|apply pad_dec; cbn; lia]. rewrite pad_dec by (cbn; lia). reflexivity. }
  rewrite KT, !(fmt0_columns 2) by (cbn; lia). unfold long_text, hms_text, hm_text. destruct (offset (dt_tz a)) as [o|] eqn:Q; [rewrite C28_shape by (apply (G o Q))|]; rewrite <- ?app_assoc; reflexivity.
Qed.
(** C83: str of a long datetime is its five fields, T, its clock and its offset, if there are no microseconds or all six columns of
    them are needed. *)
Theorem C83_long : forall rnd m a k v yy y mo d, Nearest rnd -> evening rnd m -> dt_d a = DLong k v yy mo d -> supported rnd m (dt_d a) y mo d -> valid_dt_clock a ->
  dt_us a = 0 \/ 100000 <= dt_us a ->
  dt_str rnd m a (str "T") = Ok (long_text k v yy mo d ++ str "T" ++ clock_text (dt_h a) (dt_mi a) (dt_s a) (dt_us a) ++ match offset (dt_tz a) with Some o => offset_text o | None => [] end).
Proof.
  intros rnd m a k v yy y mo d N E D S V U. rewrite (long_str rnd m a k v yy y mo d N E D S V). destruct V as ((_ & _ & _ & UR) & _). unfold clock_text. rewrite <- app_assoc.
  destruct (Z.eqb_spec (dt_us a) 0) as [Q|Q]; [reflexivity|]. destruct (frac_digits (dt_us a) ltac:(lia)) as (w & -> & W & B).
  assert (w = 6%nat). { destruct (Nat.eq_dec w 6); [assumption|]. assert (10 ^ Z.of_nat w <= 10 ^ 5) by (apply Z.pow_le_mono_r; lia). lia. }
  subst w. reflexivity.
Qed.
Print Assumptions C83_long.
(** Refuted: that the fraction shown is the microseconds.  Below 100000 of them the leading zeros are missing, so that the digits
    after the point stand for more. *)
Theorem C83_long_fraction_refuted : forall rnd m a k v yy y mo d, Nearest rnd -> evening rnd m -> dt_d a = DLong k v yy mo d -> supported rnd m (dt_d a) y mo d -> valid_dt_clock a ->
  1 <= dt_us a < 100000 ->
  exists ds, dt_str rnd m a (str "T") = Ok (long_text k v yy mo d ++ str "T" ++ hms_text (dt_h a) (dt_mi a) (dt_s a) ++ str "." ++ ds ++ match offset (dt_tz a) with Some o => offset_text o | None => [] end) /\
    forallb is_digit ds = true /\ (inject_Z (dt_us a) < fraction_us ds)%Q.
Proof.
  intros rnd m a k v yy y mo d N E D S V U. rewrite (long_str rnd m a k v yy y mo d N E D S V). replace (dt_us a =? 0) with false by lia.
  destruct (frac_digits (dt_us a) ltac:(lia)) as (w & -> & W & B). exists (columns w (dt_us a)). split; [rewrite <- !app_assoc; reflexivity|]. split; [apply columns_digits|].
  unfold fraction_us. rewrite columns_len, value_columns by lia.
  assert (w <= 5)%nat. { destruct (Nat.eq_dec w 6) as [->|]; [|lia]. change (10 ^ Z.of_nat (6 - 1)) with 100000 in B. lia. }
  assert (P : 0 < 10 ^ Z.of_nat w <= 100000) by (split; [apply Z.pow_pos_nonneg; lia|change 100000 with (10 ^ 5); apply Z.pow_le_mono_r; lia]).
  apply Qlt_shift_div_l; [change 0%Q with (inject_Z 0); rewrite <- Zlt_Qlt; lia|]. rewrite <- inject_Z_mult, <- Zlt_Qlt. nia.
Qed.
Print Assumptions C83_long_fraction_refuted.
Definition long_case (us : Z) : pdt := {| dt_d := DLong (-2) 19 19 19 1; dt_h := 4; dt_mi := 5; dt_s := 6; dt_us := us; dt_tz := Some tz230; dt_fold := 0 |}.
Example C83_case : supported b64 sample_sun (DLong (-2) 19 19 19 1) (-722) 19 1 /\
  dt_str b64 sample_sun (long_case 5) (str "T") = Ok (str "-02-19-19-19-01T04:05:06.5+03:30") /\
  dt_str b64 sample_sun (long_case 500000) (str "T") = Ok (str "-02-19-19-19-01T04:05:06.500000+03:30").
Proof.
  split; [|split; vm_compute; reflexivity]. split; [cbn; repeat split; lia|]. split; [lia|]. unfold valid_bday. split; [lia|]. assert (X : leap_of b64 sample_sun (-722) = false) by (vm_compute; reflexivity). rewrite ?X. unfold bmonth_len. cbn. lia.
Qed.
Print Assumptions C83_case.

(** C83: str of a timezone is the name it was made with, or UTC and its offset if it was made without one. *)
Theorem C83_zone : forall utc o name z, timezone_new utc o name = Ok z -> name <> None \/ o <> 0 ->
  zone_str (z_off z) (option_map str (z_name z)) = match name with Some n => str n | None => str "UTC" ++ offset_text o end.
Proof.
  intros utc o name z H N. unfold timezone_new in H. destruct name as [n|].
  - destruct (_ && _) eqn:B; [|discriminate]. injection H as <-. reflexivity.
  - destruct (Z.eqb_spec o 0); [destruct N; congruence|]. destruct (_ && _) eqn:B; [|discriminate]. injection H as <-. cbn [z_off z_name option_map zone_str].
    rewrite C28_zone_name; [replace (o =? 0) with false by lia; reflexivity|]. unfold DAY in B. lia.
Qed.
Print Assumptions C83_zone.
Example C83_zone_case : timezone_new utc0 0 (Some "GMT"%string) = Ok {| z_off := 0; z_name := Some "GMT"%string |} /\
  timezone_new utc0 (-12600000000) None = Ok {| z_off := -12600000000; z_name := None |} /\ zone_str (-12600000000) None = str "UTC-03:30".
Proof. repeat split; reflexivity. Qed.
