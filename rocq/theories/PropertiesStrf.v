(** PropertiesStrf.v -- C33: format strings of strftime. *)
From Coq Require Import ZArith QArith Qround Qabs List Bool Lia Lqa String.
From Coq Require Import ZifyBool ZifyNat ZifyN.
From Verif Require Import Base Flt QUtil BaseModel MiscModel BadiModel BaseProofs SunProofs SpecBadi BadiProofs BadiProofs2 BadiProofs3 DecProofs BadiProofs4 LongYear LongProofs BadiProofs5
  ClockProofs3 ClockProofs4 TduModel DateModel SpecDate TduProofs TduProofs2 TduProofs3 DateProofs SampleSun PropertiesBadi
  TimeModel SpecTime TimeProofs TextModel SpecText TextProofs StrfModel SpecStrf StrfProofs.
Import ListNotations.
Local Open Scope Z_scope.
Ltac Zify.zify_post_hook ::= Z.div_mod_to_equations.

(** What a piece of a format stands for: a literal for itself, a directive for what strftime prints for it alone. *)
Definition piece_value (rnd : Q -> Q) (m : Q -> Q -> Q -> Q) (lo : locale) (t : ttup) (zi : option zinfo) (p : piece) : res (list Z) :=
  match p with L c => Ok [c] | _ => strftime rnd m lo (piece_text p) t zi end.
(** strftime takes the time tuple: the directive %n, which prints a line feed whatever the time, is printed. *)
Definition takes (rnd : Q -> Q) (m : Q -> Q -> Q -> Q) (lo : locale) (t : ttup) (zi : option zinfo) : Prop :=
  strftime rnd m lo (str "%n") t zi = Ok [10].

Lemma takes_struct rnd m lo t zi : takes rnd m lo t zi ->
  exists s, forall fmt, strftime rnd m lo fmt t zi = let* _ := check_format fmt in strftime_loop rnd m lo s (last fmt 0) fmt.
Proof.
  unfold takes, strftime. intro T. change (check_format (str "%n")) with (@Ok unit tt) in T. cbn [bind] in T.
  destruct (checktm rnd m _) as [[]|]; [|discriminate]. cbn [bind] in *.
  destruct (match t with Named s => Ok s | Plain l => struct_time rnd m l zi end) as [s|]; [|discriminate].
  exists s. intro fmt. reflexivity.
Qed.
Lemma format_general rnd m lo s l tl : Forall well_formed l ->
  (let* _ := check_format (format_text l ++ tl) in strftime_loop rnd m lo s (last (format_text l ++ tl) 0) (format_text l ++ tl)) =
  match format_text l ++ tl with [] => Err ValueError | _ =>
  let p := last (format_text l ++ tl) 0 in
  let* _ := check_format_loop (last (map end_of l) p) tl in
  let* a := cat (map (pval rnd m lo s) (surviving p l)) in
  let* b := strftime_loop rnd m lo s (last (map end_of l) p) tl in Ok (a ++ b) end.
Proof.
  intro W. unfold check_format. set (f := format_text l ++ tl). destruct f as [|x r] eqn:F; [reflexivity|]. rewrite <- F. unfold f.
  rewrite check_pieces by exact W. cbv zeta. rewrite loop_pieces by exact W. reflexivity.
Qed.
Lemma piece_alone rnd m lo t zi s (H : forall fmt, strftime rnd m lo fmt t zi = let* _ := check_format fmt in strftime_loop rnd m lo s (last fmt 0) fmt) p :
  well_formed p -> piece_value rnd m lo t zi p = pval rnd m lo s p.
Proof.
  intro W. destruct p as [c|c|md c]; [reflexivity| |].
  - cbn [piece_value]. rewrite H. pose proof (format_general rnd m lo s [D c] [] (Forall_cons _ W (Forall_nil _))) as G.
    change (format_text [D c] ++ []) with (piece_text (D c)) in G. rewrite G. cbn [surviving map app cat check_format_loop strftime_loop bind pval].
    destruct (directive _ _ _ _ _ _) as [x|]; [|reflexivity]. cbn. rewrite !app_nil_r. reflexivity.
  - cbn [piece_value]. rewrite H. pose proof (format_general rnd m lo s [DM md c] [] (Forall_cons _ W (Forall_nil _))) as G.
    change (format_text [DM md c] ++ []) with (piece_text (DM md c)) in G. rewrite G. cbn [surviving map app cat check_format_loop strftime_loop bind pval].
    destruct (directive _ _ _ _ _ _) as [x|]; [|reflexivity]. cbn. rewrite !app_nil_r. reflexivity.
Qed.
Lemma surviving_in l : Forall well_formed l -> forall prev, Forall well_formed (surviving prev l).
Proof.
  induction 1 as [|p l P W IH]; intro prev; [constructor|]. cbn [surviving]. apply Forall_app. split; [|apply IH].
  destruct p; [destruct (is_mark prev)|..]; first [exact (Forall_nil _) | exact (Forall_cons _ P (Forall_nil _))].
Qed.
Lemma values_alone rnd m lo t zi s (H : forall fmt, strftime rnd m lo fmt t zi = let* _ := check_format fmt in strftime_loop rnd m lo s (last fmt 0) fmt) l :
  Forall well_formed l -> map (piece_value rnd m lo t zi) l = map (pval rnd m lo s) l.
Proof. induction 1 as [|p l P W IH]; [reflexivity|]. cbn [map]. rewrite IH, (piece_alone rnd m lo t zi s H p P). reflexivity. Qed.

(** C33 (what strftime does with any format): it prints the expansions of the directives and the literal characters in
    order, except the literal characters that follow a mark (% - :); the character "before" the first is the last of the
    format. *)
Theorem C33_any_format rnd m lo t zi l : takes rnd m lo t zi -> l <> [] -> Forall well_formed l ->
  strftime rnd m lo (format_text l) t zi = cat (map (piece_value rnd m lo t zi) (surviving (last (map end_of l) 0) l)).
Proof.
  intros T NE W. destruct (takes_struct rnd m lo t zi T) as (s & H). rewrite H.
  pose proof (format_general rnd m lo s l [] W) as G. rewrite app_nil_r in G. rewrite G.
  rewrite (values_alone rnd m lo t zi s H) by (apply surviving_in; exact W).
  assert (F : format_text l <> []) by (destruct l as [|[c|c|md c] l']; [congruence|discriminate..]).
  pose proof (last_format l 0 NE) as LF. destruct (format_text l) as [|x r] eqn:E; [congruence|]. cbn [bind check_format_loop]. rewrite LF.
  destruct (cat _); [|reflexivity]. cbn. rewrite app_nil_r. reflexivity.
Qed.
Print Assumptions C33_any_format.

(** C33: a format in which no literal follows a mark is expanded faithfully: every literal character unchanged, every
    directive replaced by its value, in order. *)
Theorem C33_faithful rnd m lo t zi l : takes rnd m lo t zi -> l <> [] -> Forall well_formed l -> faithful_format l ->
  strftime rnd m lo (format_text l) t zi = cat (map (piece_value rnd m lo t zi) l).
Proof.
  intros T NE W F. rewrite C33_any_format by assumption. rewrite surviving_all by exact F. reflexivity.
Qed.
Print Assumptions C33_faithful.

(** Refuted: a literal character that follows '-' or ':' is lost. *)
Theorem C33_literal_lost_refuted rnd m lo t zi k x y : takes rnd m lo t zi -> k = 45 \/ k = 58 -> is_mark x = false -> is_mark y = false ->
  strftime rnd m lo [x; k; y] t zi = Ok [x; k].
Proof.
  intros T K X Y.
  assert (W : Forall well_formed [L x; L k; L y]).
  { apply Forall_cons; [|apply Forall_cons; [|apply Forall_cons; [|apply Forall_nil]]]; cbn [well_formed]; [intros ->; discriminate|destruct K; lia|intros ->; discriminate]. }
  change [x; k; y] with (format_text [L x; L k; L y]). rewrite C33_any_format by (try assumption; discriminate).
  cbn [map end_of last surviving]. rewrite Y, X. assert (IK : is_mark k = true) by (destruct K; subst; reflexivity). rewrite IK. reflexivity.
Qed.
Print Assumptions C33_literal_lost_refuted.

(** C33 (percent): "%%" prints one percent sign at the end of a format; a literal at the start of such a format is lost. *)
Theorem C33_percent_at_end rnd m lo t zi l : takes rnd m lo t zi -> Forall well_formed l ->
  strftime rnd m lo (format_text l ++ str "%%") t zi = cat (map (piece_value rnd m lo t zi) (surviving 37 l) ++ [Ok (str "%")]).
Proof.
  intros T W. destruct (takes_struct rnd m lo t zi T) as (s & H). rewrite H, (format_general rnd m lo s l (str "%%") W).
  rewrite (values_alone rnd m lo t zi s H) by (apply surviving_in; exact W).
  replace (last (format_text l ++ str "%%") 0) with 37 by (symmetry; change (str "%%") with ([37] ++ [37]); rewrite app_assoc; apply last_last).
  destruct (format_text l ++ str "%%") as [|x r] eqn:E; [destruct (format_text l); discriminate|]. cbv zeta.
  assert (C : forall p, check_format_loop p (str "%%") = Ok tt) by (intro p; cbn; destruct (negb (p =? 37)); reflexivity). rewrite C. cbn [bind].
  change (strftime_loop rnd m lo s (last (map end_of l) 37) (str "%%")) with (@Ok text [37]).
  generalize (map (pval rnd m lo s) (surviving 37 l)). intro q. induction q as [|[a|e] q IH]; [reflexivity| |reflexivity].
  cbn [app cat]. rewrite <- IH. destruct (cat q); cbn [bind]; [rewrite app_assoc|]; reflexivity.
Qed.
Print Assumptions C33_percent_at_end.

(** Refuted: "%%" followed by a letter is a percent sign and then the expansion of the letter as a directive, where a
    percent sign and the letter are meant. *)
Theorem C33_percent_inside_refuted rnd m lo t zi c : takes rnd m lo t zi -> well_formed (D c) ->
  strftime rnd m lo (str "%%" ++ [c]) t zi = cat [Ok (str "%"); strftime rnd m lo (str "%" ++ [c]) t zi].
Proof.
  intros T W. destruct (takes_struct rnd m lo t zi T) as (s & H). destruct (letters_valid c W) as (V & N37 & N45 & N58).
  change (strftime rnd m lo (str "%" ++ [c]) t zi) with (piece_value rnd m lo t zi (D c)). rewrite (piece_alone rnd m lo t zi s H (D c) W). rewrite H.
  change (str "%%" ++ [c]) with ([37; 37; c]). cbn [last pval].
  assert (C : check_format [37; 37; c] = Ok tt).
  { unfold check_format. cbn [last check_format_loop]. replace (c =? 37) with false by lia.
    change (mem 37 [45; 58]) with false. cbn. reflexivity. }
  rewrite C. cbn [bind]. cbn [strftime_loop].
  change (mem 37 [45; 58]) with false. replace (mem c [45; 58]) with false by (symmetry; unfold mem; cbn [existsb]; lia). change (mem 37 [37; 45; 58]) with true.
  change (37 =? 37) with true. cbn [bind]. change (directive rnd m lo s 37 0) with (@Ok text [37]). cbn [bind cat].
  destruct (directive rnd m lo s c 0) as [x|]; [|reflexivity]. cbn. rewrite !app_nil_r. reflexivity.
Qed.
Print Assumptions C33_percent_inside_refuted.

(** C33 (refused): an unknown directive letter after other pieces is a ValueError, whatever follows. *)
Theorem C33_unknown_refused rnd m lo t zi l c tl : l <> [] -> Forall well_formed l -> In c (str "%aAbBcCdDefGhHIjkKlmMnprSTuUVWxXyYzZ-:") \/
  strftime rnd m lo (format_text l ++ str "%" ++ c :: tl) t zi = Err ValueError.
Proof.
  intros NE W. destruct (in_dec Z.eq_dec c (str "%aAbBcCdDefGhHIjkKlmMnprSTuUVWxXyYzZ-:")) as [I|NI]; [left; exact I|right].
  unfold strftime, check_format. destruct (format_text l ++ _) as [|x r] eqn:E; [destruct (format_text l); discriminate|]. rewrite <- E.
  rewrite check_pieces by exact W. set (p := last (map end_of l) _).
  assert (P : p <> 37).
  { unfold p. assert (A : Forall (fun q => end_of q <> 37) l).
    { eapply Forall_impl; [|exact W]. intros [a|a|a b] Q; cbn [end_of]; [exact Q|apply (letters_valid a Q)|apply (mods_valid a b Q)]. }
    clear - NE A. generalize (last (format_text l ++ str "%" ++ c :: tl) 0). intro d. destruct (exists_last NE) as (l' & q & ->). rewrite map_app. cbn [map]. rewrite last_last.
    apply Forall_app in A as [_ A]. inversion A; assumption. }
  change (str "%" ++ c :: tl) with (37 :: c :: tl). cbn [check_format_loop]. replace (p =? 37) with false by lia. cbn [negb andb Z.eqb Pos.eqb].
  assert (M : mem c [45; 58] = false). { destruct (mem c [45; 58]) eqn:M; [|reflexivity]. exfalso. apply NI. apply in_mem in M. cbn in M. destruct M as [<-|[<-|[]]]; apply in_mem; reflexivity. }
  rewrite M. cbn [bind].
  assert (V : mem c VALID_CHARS = false).
  { destruct (mem c VALID_CHARS) eqn:V; [|reflexivity]. exfalso. apply NI. apply in_mem in V. change (str "%aAbBcCdDefGhHIjkKlmMnprSTuUVWxXyYzZ-:") with ([37] ++ str "aAbBcCdDefGhHIjkKlmMnprSTuUVWxXyYzZ" ++ [45; 58]).
    change VALID_CHARS with (str "aAbBcCdDefGhHIjkKlmMnprSTuUVWxXyYzZ" ++ [37]) in V. apply in_app_or in V as [V|V].
    - apply in_or_app. right. apply in_or_app. left. exact V.
    - apply in_or_app. left. exact V. }
  rewrite V. reflexivity.
Qed.
Print Assumptions C33_unknown_refused.

(** A locale and a time tuple: year 181, month 3, day 7, 13:05:09, Istijlal, day 45. *)
Definition sample_locale : locale := {| lo_am := str "AM"; lo_pm := str "PM"; lo_dsep := str "/"; lo_d := str "mdy"; lo_tsep := str ":"; lo_t := str "HMS" |}.
Definition sample_stm : stm := {| st_kv := None; st_year := 181; st_mon := 3; st_mday := 7; st_hour := 13; st_min := 5; st_sec := 9; st_wday := 5; st_yday := 45; st_isdst := -1; st_zone := None; st_gmtoff := None |}.
Example C33_case rnd m :
  takes rnd m sample_locale (Named sample_stm) None /\
  faithful_format [D 89; L 45; D 109; L 45; D 100; L 32; D 72; L 58; DM 45 77] /\
  Forall well_formed [D 89; L 45; D 109; L 45; D 100; L 32; D 72; L 58; DM 45 77] /\
  format_text [D 89; L 45; D 109; L 45; D 100; L 32; D 72; L 58; DM 45 77] = str "%Y-%m-%d %H:%-M" /\
  strftime rnd m sample_locale (str "%Y-%m-%d %H:%-M") (Named sample_stm) None = Ok (str "0181-03-07 13:5") /\
  strftime rnd m sample_locale (str "a-b") (Named sample_stm) None = Ok (str "a-") /\
  strftime rnd m sample_locale (str "%%d") (Named sample_stm) None = Ok (str "%07") /\
  strftime rnd m sample_locale (str "x%d%%") (Named sample_stm) None = Ok (str "07%") /\
  strftime rnd m sample_locale (str "%d%Q") (Named sample_stm) None = Err ValueError.
Proof.
  split; [reflexivity|]. split; [cbn; repeat split; reflexivity|].
  split. { repeat apply Forall_cons; try apply Forall_nil; cbn [well_formed]; try lia; try (apply in_mem; reflexivity). left. split; [reflexivity|apply in_mem; reflexivity]. }
  repeat split; reflexivity.
Qed.
