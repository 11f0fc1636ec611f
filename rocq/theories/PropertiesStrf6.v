(** PropertiesStrf6.v -- C88: the directives made of others (%T %r %c %x %X %D) and the formats of the locale. *)
From Coq Require Import ZArith QArith Qround Qabs List Bool Lia Lqa String.
From Coq Require Import ZifyBool ZifyNat ZifyN.
From Verif Require Import Base Flt QUtil BaseModel MiscModel BadiModel BaseProofs SunProofs SpecBadi BadiProofs BadiProofs2 BadiProofs3 DecProofs BadiProofs4 LongYear LongProofs BadiProofs5 MeeusFloat
  ClockProofs3 ClockProofs4 TduModel DateModel SpecDate TduProofs TduProofs2 TduProofs3 DateProofs SampleSun PropertiesBadi PropertiesDate PropertiesDate2
  TimeModel SpecTime TimeProofs PropertiesTime PropertiesDt TextModel SpecText TextProofs PropertiesText StrfModel SpecStrf StrfProofs PropertiesStrf PropertiesStrf2 PropertiesStrf3 PropertiesStrf4.
Import ListNotations.
Local Open Scope Z_scope.
Ltac Zify.zify_post_hook ::= Z.div_mod_to_equations.

Lemma check_ok l : l <> [] -> Forall well_formed l -> check_format (format_text l) = Ok tt.
Proof.
  intros NE W. unfold check_format. pose proof (check_pieces l W (last (format_text l) 0) []) as C. rewrite app_nil_r in C. rewrite C.
  destruct (format_text l) as [|x r] eqn:E; [|reflexivity]. destruct l as [|[c|c|md c] l']; [congruence|discriminate..].
Qed.
Lemma loop_ok rnd m lo s l : l <> [] -> Forall well_formed l -> faithful_format l ->
  strftime_loop rnd m lo s (last (format_text l) 0) (format_text l) = cat (map (pval rnd m lo s) l).
Proof.
  intros NE W F. pose proof (loop_pieces rnd m lo s l W (last (format_text l) 0) []) as P. rewrite app_nil_r in P. rewrite P. clear P.
  rewrite last_format by exact NE. rewrite surviving_all by exact F. cbn [strftime_loop]. destruct (cat _); [|reflexivity]. cbn [bind]. rewrite app_nil_r. reflexivity.
Qed.
(** the value of a format, from the values of its pieces for a struct *)
Definition pieces_ok (l : list piece) : Prop := l <> [] /\ Forall well_formed l /\ faithful_format l.
Lemma strftime_same rnd m lo l l' t zi : pieces_ok l -> pieces_ok l' ->
  (forall s, cat (map (pval rnd m lo s) l) = cat (map (pval rnd m lo s) l')) ->
  strftime rnd m lo (format_text l) t zi = strftime rnd m lo (format_text l') t zi.
Proof.
  intros (N1 & W1 & F1) (N2 & W2 & F2) H. unfold strftime. rewrite !check_ok by assumption. cbn [bind].
  destruct (checktm rnd m _) as [[]|]; [|reflexivity]. cbn [bind]. destruct (match t with Named s => Ok s | Plain l => struct_time rnd m l zi end) as [s|]; [|reflexivity].
  cbn [bind]. rewrite !loop_ok by assumption. apply H.
Qed.
Ltac pok := split; [discriminate|]; split; [repeat (apply Forall_cons; [cbn [well_formed]; first [discriminate | lia | apply in_mem; reflexivity]|]); apply Forall_nil|cbn; repeat split; reflexivity].

(** C88: %T and %r are the clocks they abbreviate, for whatever time tuple (or failure) *)
Theorem C88_clocks : forall rnd m lo t zi,
  strftime rnd m lo (str "%T") t zi = strftime rnd m lo (str "%H:%M:%S") t zi /\
  strftime rnd m lo (str "%r") t zi = strftime rnd m lo (str "%I:%M:%S %p") t zi.
Proof.
  intros rnd m lo t zi. split.
  - apply (strftime_same rnd m lo [D 84] [D 72; L 58; D 77; L 58; D 83] t zi); [pok|pok|]. intro s. cbn [map pval].
    change (directive rnd m lo s 84 0) with (f_r rnd m lo s true). change (directive rnd m lo s 72 0) with (@Ok text (f_H s 0)).
    change (directive rnd m lo s 77 0) with (@Ok text (f_M s 0)). change (directive rnd m lo s 83 0) with (@Ok text (f_S s 0)).
    unfold f_r, f_H, f_M, f_S. cbn [cat Z.eqb]. rewrite !app_nil_r. reflexivity.
  - apply (strftime_same rnd m lo [D 114] [D 73; L 58; D 77; L 58; D 83; L 32; D 112] t zi); [pok|pok|]. intro s. cbn [map pval].
    change (directive rnd m lo s 114 0) with (f_r rnd m lo s false). change (directive rnd m lo s 73 0) with (f_I rnd m s false 0).
    change (directive rnd m lo s 77 0) with (@Ok text (f_M s 0)). change (directive rnd m lo s 83 0) with (@Ok text (f_S s 0)). change (directive rnd m lo s 112 0) with (f_p rnd m lo s).
    unfold f_r, f_M, f_S. cbn [cat Z.eqb]. destruct (f_I rnd m s false 0) as [i|]; [|reflexivity]. cbn [bind]. destruct (f_p rnd m lo s) as [q|]; [|reflexivity].
    cbn [bind cat]. rewrite !app_nil_r. reflexivity.
Qed.
Print Assumptions C88_clocks.

(** C88 (%c): the documented "%a %b %d %H:%M:%S %Y", for short datetimes of the years from 0 on and before -999. *)
Lemma dt_pieces rnd m lo a zi y mo d l : Nearest rnd -> evening rnd m -> naw_ruz_order rnd m -> printable rnd m a zi y mo d ->
  pieces_ok l -> ~ In (D 102) l -> ~ In (L 37) l ->
  exists s, dt_timetuple rnd m a zi = Ok s /\ dt_strftime rnd m lo a zi (format_text l) = cat (map (pval rnd m lo s) l).
Proof.
  intros N E O P (NE & W & F) NF NP. destruct (printable_struct rnd m a zi y mo d N E O P) as (s & w & TT & _ & _ & _ & _ & _ & _ & _ & _ & _ & _ & _ & _ & _ & X).
  exists s. split; [exact TT|]. rewrite X. cbv zeta.
  assert (R : replace_f (dt_us a) (format_text l) = format_text l).
  { clear NE F X TT. induction W as [|p l W1 W2 IH]; [reflexivity|]. unfold format_text. cbn [flat_map]. fold (format_text l).
    assert (IH' : replace_f (dt_us a) (format_text l) = format_text l) by (apply IH; intro I; [apply NF|apply NP]; right; exact I).
    destruct p as [c|c|md c]; cbn [piece_text app].
    - cbn [replace_f]. destruct (Z.eqb_spec c 37); [subst; exfalso; apply NP; left; reflexivity|]. rewrite IH'. reflexivity.
    - change (str "%" ++ [c]) with [37; c]. cbn [app replace_f Z.eqb Pos.eqb]. destruct (Z.eqb_spec c 102); [subst; exfalso; apply NF; left; reflexivity|]. rewrite IH'. reflexivity.
    - change (str "%" ++ [md; c]) with [37; md; c]. cbn [app replace_f Z.eqb Pos.eqb]. destruct (mods_valid md c W1) as (_ & N37 & _ & _ & _).
      replace (md =? 102) with false by (cbn in W1; lia). replace (c =? 37) with false by lia. cbn [app]. rewrite IH'. reflexivity. }
  rewrite R, check_ok by assumption. cbn [bind]. apply loop_ok; assumption.
Qed.
Definition long_c : list piece := [D 97; L 32; D 98; L 32; D 100; L 32; D 72; L 58; D 77; L 58; D 83; L 32; D 89].
Lemma c_pieces : pieces_ok long_c /\ ~ In (D 102) long_c /\ ~ In (L 37) long_c /\ format_text long_c = str "%a %b %d %H:%M:%S %Y".
Proof. split; [pok|]. split; [|split; [|reflexivity]]; cbn; intuition discriminate. Qed.
Lemma c_one : pieces_ok [D 99] /\ ~ In (D 102) [D 99] /\ ~ In (L 37) [D 99].
Proof. split; [pok|]. split; cbn; intuition discriminate. Qed.
Lemma name_ok e l i : 0 <= i < Z.of_nat (List.length l) -> exists t, name_of e l i = Ok t.
Proof.
  intro I. unfold name_of. replace (i <? 0) with false by lia. destruct (nth_error l (Z.to_nat i)) as [t|] eqn:H; [exists t; reflexivity|]. apply nth_error_None in H. lia.
Qed.
(** both texts, from the struct *)
Lemma c_texts rnd m lo a zi y mo d : Nearest rnd -> evening rnd m -> naw_ruz_order rnd m -> printable rnd m a zi y mo d ->
  exists u, dt_strftime rnd m lo a zi (str "%a %b %d %H:%M:%S %Y") = Ok (u ++ signed_year y) /\
    dt_strftime rnd m lo a zi (str "%c") = Ok (u ++ match dt_d a with DShort _ _ _ => fmt0 4 y | DLong k v yy _ _ => plain k ++ [32] ++ fmt0 2 v ++ [32] ++ fmt0 2 yy end).
Proof.
  intros N E O P. destruct c_pieces as (A1 & A2 & A3 & A4). destruct c_one as (B1 & B2 & B3).
  destruct (dt_pieces rnd m lo a zi y mo d long_c N E O P A1 A2 A3) as (s & T1 & R1). destruct (dt_pieces rnd m lo a zi y mo d [D 99] N E O P B1 B2 B3) as (s' & T2 & R2).
  assert (s' = s) by congruence. subst s'. rewrite A4 in R1. change (format_text [D 99]) with (str "%c") in R2. rewrite R1, R2.
  destruct (printable_struct rnd m a zi y mo d N E O P) as (s' & w & TT & W & WR & GY & MO & MD & HH & MI & SS & WD & YD & _ & _ & KV & X). assert (s' = s) by congruence. subst s'.
  destruct P as (SU & _ & _). destruct (sup_ok rnd m (dt_d a) y mo d N E SU) as (DN & K & Y). pose proof K as (KY & KM & KD).
  unfold long_c. cbn [map pval]. change (directive rnd m lo s 97 0) with (f_a s). change (directive rnd m lo s 98 0) with (f_b s). change (directive rnd m lo s 99 0) with (f_c s).
  change (directive rnd m lo s 100 0) with (@Ok text (f_d s false 0)). change (directive rnd m lo s 72 0) with (@Ok text (f_H s 0)). change (directive rnd m lo s 89 0) with (@Ok text (f_G s)).
  change (directive rnd m lo s 77 0) with (@Ok text (f_M s 0)). change (directive rnd m lo s 83 0) with (@Ok text (f_S s 0)). unfold f_c, f_G.
  assert (FA : exists t, f_a s = Ok t). { unfold f_a. rewrite WD. apply name_ok. change (Z.of_nat (List.length DAYNAMES_ABV)) with 7. lia. }
  assert (FB : exists t, f_b s = Ok t). { unfold f_b. rewrite MO. apply name_ok. change (Z.of_nat (List.length MONTHNAMES_ABV)) with 20. lia. }
  destruct FA as (ta & ->). destruct FB as (tb & ->). cbn [bind cat]. rewrite GY, year_minus by lia. unfold f_d, f_H, f_M, f_S. cbn [Z.eqb].
  exists (ta ++ [32] ++ tb ++ [32] ++ fmt0 2 (st_mday s) ++ [32] ++ fmt0 2 (st_hour s) ++ [58] ++ fmt0 2 (st_min s) ++ [58] ++ fmt0 2 (st_sec s) ++ [32]).
  rewrite KV. destruct (dt_d a) as [y' mo' d'|k v yy mo' d'].
  - assert (SY : st_year s = y) by (unfold get_year in GY; rewrite KV in GY; exact GY). rewrite SY. split; f_equal; repeat (rewrite <- app_assoc || cbn [app]); rewrite ?app_nil_r; reflexivity.
  - destruct DN as (VV & YY & L & EM & ED). assert (SY : st_year s = yy) by (unfold get_year in GY; rewrite KV in GY; lia). rewrite SY. split; f_equal; repeat (rewrite <- app_assoc || cbn [app]); rewrite ?app_nil_r; reflexivity.
Qed.
Theorem C88_date_and_time : forall rnd m lo a zi y mo d, Nearest rnd -> evening rnd m -> naw_ruz_order rnd m -> printable rnd m a zi y mo d ->
  is_short (dt_d a) = true -> y < -999 \/ 0 <= y ->
  dt_strftime rnd m lo a zi (str "%c") = dt_strftime rnd m lo a zi (str "%a %b %d %H:%M:%S %Y").
Proof.
  intros rnd m lo a zi y mo d N E O P SH Y. destruct (c_texts rnd m lo a zi y mo d N E O P) as (u & -> & ->). destruct (dt_d a); [|discriminate]. do 2 f_equal.
  assert (R : -1843 <= y <= 1162) by (destruct P as (SU & _); destruct (sup_ok rnd m (dt_d a) y mo d N E SU) as (_ & (K & _) & _); lia).
  pose (Q := fun y => if list_eq_dec Z.eq_dec (fmt0 4 y) (signed_year y) then true else (-999 <=? y) && (y <? 0)).
  assert (A : Q y = true) by (apply (zforall Q (-1843) 3006); [vm_compute; reflexivity|lia]). unfold Q in A. destruct (list_eq_dec _ _ _); [assumption|lia].
Qed.
Print Assumptions C88_date_and_time.

(** Refuted: in the years -999 to -1, and for every long datetime, %c is not that text. *)
Theorem C88_date_and_time_refuted : forall rnd m lo a zi y mo d, Nearest rnd -> evening rnd m -> naw_ruz_order rnd m -> printable rnd m a zi y mo d ->
  is_short (dt_d a) = false \/ -999 <= y <= -1 ->
  exists t t', dt_strftime rnd m lo a zi (str "%c") = Ok t /\ dt_strftime rnd m lo a zi (str "%a %b %d %H:%M:%S %Y") = Ok t' /\ t <> t'.
Proof.
  intros rnd m lo a zi y mo d N E O P SH. destruct (c_texts rnd m lo a zi y mo d N E O P) as (u & -> & ->). do 2 eexists. split; [reflexivity|]. split; [reflexivity|].
  intro X. apply app_inv_head in X. destruct P as (SU & _). destruct (sup_ok rnd m (dt_d a) y mo d N E SU) as (DN & (KY & _) & _).
  destruct (dt_d a) as [y' mo' d'|k v yy mo' d'].
  - destruct SH as [SH|SH]; [discriminate|]. pose (Q := fun y => if list_eq_dec Z.eq_dec (fmt0 4 y) (signed_year y) then false else true).
    assert (A : Q y = true) by (apply (zforall Q (-999) 999); [vm_compute; reflexivity|lia]). unfold Q in A. destruct (list_eq_dec _ _ _); [discriminate|contradiction].
  - assert (I : In 32 (signed_year y)) by (rewrite <- X; apply in_or_app; right; left; reflexivity).
    pose (Q := fun y => negb (existsb (Z.eqb 32) (signed_year y))). assert (A : Q y = true) by (apply (zforall Q (-1843) 3006); [vm_compute; reflexivity|lia]).
    unfold Q in A. apply negb_true_iff in A. rewrite <- not_true_iff_false in A. apply A. apply existsb_exists. exists 32. split; [exact I|reflexivity].
Qed.
Print Assumptions C88_date_and_time_refuted.

(** ** The formats of the locale.  [locale_data am pm d_fmt x p] is what the package keeps of the C library's answers: the
    names of the halves of the day, the date format, and the current time by %X and %p. *)
Definition usable : list Z := str "aAbBcCdfGHIjKmMnprSuUVyYzZ".
Definition two_delims (a s b c : Z) : list piece := [D a; L s; D b; L s; D c].
Lemma usable_wf c : In c usable -> well_formed (D c) /\ is_mark c = false /\ existsb (Z.eqb c) (lit "aAbBcCdfGHIjKmMnprSuUVyYzZ") = true /\ c <> 68 /\ c <> 120 /\ c <> 88.
Proof.
  intro I. assert (A : forallb (fun c => mem c (str "aAbBcCdDefGhHIjkKlmMnprSTuUVWxXyYzZ") && negb (is_mark c) && existsb (Z.eqb c) (lit "aAbBcCdfGHIjKmMnprSuUVyYzZ") && negb (c =? 68) && negb (c =? 120) && negb (c =? 88)) usable = true) by reflexivity.
  rewrite forallb_forall in A. specialize (A c I). rewrite !andb_true_iff, !negb_true_iff in A. destruct A as (((((A & B) & C) & E) & F) & G). split; [cbn [well_formed]; apply in_mem; exact A|]. repeat split; try assumption; lia.
Qed.
Lemma delims_ok a s b c : Forall (fun c => In c usable) [a; b; c] -> s <> 37 -> pieces_ok (two_delims a s b c).
Proof.
  intros F S. inversion_clear F as [|? ? A F1]. inversion_clear F1 as [|? ? B F2]. inversion_clear F2 as [|? ? C _].
  destruct (usable_wf a A) as (WA & MA & _). destruct (usable_wf b B) as (WB & MB & _). destruct (usable_wf c C) as (WC & MC & _).
  split; [discriminate|]. split; [repeat (apply Forall_cons; [first [assumption | exact S]|]); apply Forall_nil|].
  unfold faithful_format. cbn [two_delims map end_of last unmarked]. tauto.
Qed.
Lemma method0_pval rnd m lo s c : In c usable -> method0 rnd m lo s c = pval rnd m lo s (D c).
Proof.
  intro I. destruct (usable_wf c I) as (_ & _ & M & A & B & C). unfold method0. rewrite M. cbn [pval]. unfold directive. replace (c =? 68) with false by lia. replace (c =? 120) with false by lia. replace (c =? 88) with false by lia. reflexivity.
Qed.
Lemma joined rnd m lo s a d b c : Forall (fun c => In c usable) [a; b; c] ->
  (let* parts := map_res (method0 rnd m lo s) [a; b; c] in Ok (join [d] parts)) = cat (map (pval rnd m lo s) (two_delims a d b c)).
Proof.
  intro F. inversion_clear F as [|? ? A F1]. inversion_clear F1 as [|? ? B F2]. inversion_clear F2 as [|? ? C _]. unfold two_delims. cbn [map_res map].
  rewrite !method0_pval by assumption. change (pval rnd m lo s (L d)) with (@Ok text [d]).
  destruct (pval rnd m lo s (D a)) as [ta|]; [|reflexivity]. cbn [bind cat]. destruct (pval rnd m lo s (D b)) as [tb|]; [|reflexivity]. cbn [bind cat].
  destruct (pval rnd m lo s (D c)) as [tc|]; [|reflexivity]. cbn [bind cat join]. rewrite app_nil_r. reflexivity.
Qed.
Lemma cat_one {x : res (list Z)} : cat [x] = x.
Proof. destruct x; [|reflexivity]. cbn. rewrite app_nil_r. reflexivity. Qed.

(** C88 (%x): where the date format of the locale is three directives with one delimiter between them, %x is that format. *)
Theorem C88_locale_date : forall rnd m am pm a s b c x p lo t zi, Forall (fun c => In c usable) [a; b; c] -> s <> 37 ->
  locale_data am pm (format_text [D a; L s; D b; L s; D c]) x p = Ok lo ->
  strftime rnd m lo (str "%x") t zi = strftime rnd m lo (format_text [D a; L s; D b; L s; D c]) t zi.
Proof.
  intros rnd m am pm a s b c x p lo t zi U S LD. apply (strftime_same rnd m lo [D 120] (two_delims a s b c) t zi); [pok|apply delims_ok; assumption|].
  intro st. rewrite <- joined by exact U. cbn [map]. rewrite cat_one. change (pval rnd m lo st (D 120)) with (f_x rnd m lo st). unfold f_x.
  unfold locale_data in LD. destruct (find_time_order x p) as [tf|]; [|discriminate]. cbn [bind] in LD. unfold order_format in LD at 1.
  change (nth 2 (if (List.length (format_text [D a; L s; D b; L s; D c]) =? 8)%nat then format_text [D a; L s; D b; L s; D c] else lit "%m/%d/%y") 0) with s in LD.
  destruct (order_format tf _) as [ts tc]. assert (E1 : lo_d lo = [a; b; c]) by (injection LD as <-; reflexivity).
  assert (E2 : lo_dsep lo = [s]) by (injection LD as <-; reflexivity). rewrite E1, E2. reflexivity.
Qed.
Print Assumptions C88_locale_date.

(** Refuted: a date format of another length, as "%d. %m. %Y" or "%Y-%m-%d.", is ignored: the month comes first. *)
Theorem C88_locale_date_refuted : forall rnd m am pm d_fmt x p lo t zi, List.length d_fmt <> 8%nat -> locale_data am pm d_fmt x p = Ok lo ->
  strftime rnd m lo (str "%x") t zi = strftime rnd m lo (str "%m/%d/%y") t zi.
Proof.
  intros rnd m am pm d_fmt x p lo t zi N LD. change (str "%m/%d/%y") with (format_text [D 109; L 47; D 100; L 47; D 121]).
  apply (C88_locale_date rnd m am pm 109 47 100 121 x p lo t zi); [repeat (apply Forall_cons; [apply in_mem; reflexivity|]); apply Forall_nil|discriminate|].
  rewrite <- LD. unfold locale_data. destruct (find_time_order x p) as [tf|]; [|reflexivity]. cbn [bind]. unfold order_format at 1 3. rewrite (proj2 (Nat.eqb_neq _ _) N). reflexivity.
Qed.
Print Assumptions C88_locale_date_refuted.

(** Refuted: where the two delimiters of the format differ, as in "%d.%m %y", the first stands in both places. *)
Theorem C88_locale_delimiter_refuted : forall rnd m am pm a s b s' c x p lo t zi, Forall (fun c => In c usable) [a; b; c] -> s <> 37 ->
  locale_data am pm (format_text [D a; L s; D b; L s'; D c]) x p = Ok lo ->
  strftime rnd m lo (str "%x") t zi = strftime rnd m lo (format_text [D a; L s; D b; L s; D c]) t zi.
Proof.
  intros rnd m am pm a s b s' c x p lo t zi U S LD. apply (C88_locale_date rnd m am pm a s b c x p lo t zi U S). rewrite <- LD. unfold locale_data.
  destruct (find_time_order x p) as [tf|]; reflexivity.
Qed.
Print Assumptions C88_locale_delimiter_refuted.

(** C88 (%X): hours, minutes and seconds with the delimiter of the locale, on the clock of 24 hours where the locale has no
    names for the halves of the day, and of 12 hours where it has. *)
Theorem C88_locale_time : forall rnd m am pm d_fmt x p lo t zi s, nth_error x 2 = Some s -> s <> 37 -> locale_data am pm d_fmt x p = Ok lo ->
  strftime rnd m lo (str "%X") t zi = strftime rnd m lo (format_text [D (match p with [] => 72 | _ => 73 end); L s; D 77; L s; D 83]) t zi.
Proof.
  intros rnd m am pm d_fmt x p lo t zi s X S LD. set (h := match p with [] => 72 | _ => 73 end).
  assert (U : Forall (fun c => In c usable) [h; 77; 83]) by (repeat (apply Forall_cons; [apply in_mem; unfold h; destruct p; reflexivity|]); apply Forall_nil).
  apply (strftime_same rnd m lo [D 88] (two_delims h s 77 83) t zi); [pok|apply delims_ok; assumption|].
  intro st. rewrite <- joined by exact U. cbn [map]. rewrite cat_one. change (pval rnd m lo st (D 88)) with (f_X rnd m lo st). unfold f_X.
  unfold locale_data, find_time_order in LD. rewrite X in LD. cbn [bind] in LD. destruct (order_format d_fmt _) as [ds dc]. fold h in LD.
  change (order_format [37; h; s; 37; 77; s; 37; 83] (lit "%H:%M:%S")) with (s, [h; 77; 83]) in LD.
  assert (E1 : lo_t lo = [h; 77; 83]) by (injection LD as <-; reflexivity).
  assert (E2 : lo_tsep lo = [s]) by (injection LD as <-; reflexivity). rewrite E1, E2. reflexivity.
Qed.
Print Assumptions C88_locale_time.

(** Refuted: in a locale of the 12 hour clock %X does not tell the halves of the day apart. *)
Theorem C88_locale_time_refuted : forall rnd m am pm d_fmt x p lo a zi y mo d b zi' y' mo' d' s, Nearest rnd -> evening rnd m -> naw_ruz_order rnd m ->
  nth_error x 2 = Some s -> s <> 37 -> p <> [] -> am <> pm -> locale_data am pm d_fmt x p = Ok lo ->
  printable rnd m a zi y mo d -> printable rnd m b zi' y' mo' d' -> dt_h b = dt_h a + 12 -> dt_mi b = dt_mi a -> dt_s b = dt_s a ->
  dt_strftime rnd m lo a zi (str "%p") = Ok am -> dt_strftime rnd m lo b zi' (str "%p") = Ok pm ->
  dt_strftime rnd m lo a zi (str "%X") = dt_strftime rnd m lo b zi' (str "%X").
Proof.
  intros rnd m am pm d_fmt x p lo a zi y mo d b zi' y' mo' d' s N E O X S PN AP LD PA PB HB MB SB RA RB.
  assert (LO : lo_am lo = am /\ lo_pm lo = pm).
  { unfold locale_data in LD. destruct (find_time_order x p) as [tf|]; [|discriminate]. cbn [bind] in LD. destruct (order_format d_fmt _). destruct (order_format tf _). injection LD as <-. split; reflexivity. }
  destruct LO as [LA LP].
  assert (F : forall (c : pdt) (z : option zinfo) yy mm dd, printable rnd m c z yy mm dd -> exists st, 
    dt_strftime rnd m lo c z (str "%p") = f_p rnd m lo st /\ st_hour st = dt_h c /\ st_min st = dt_mi c /\ st_sec st = dt_s c /\
    dt_strftime rnd m lo c z (str "%X") = f_X rnd m lo st).
  { intros c z yy mm dd P. destruct (printable_struct rnd m c z yy mm dd N E O P) as (st & w & _ & _ & _ & _ & _ & _ & HH & MI & SS & _ & _ & _ & _ & _ & XX).
    exists st. split; [exact (one_directive rnd m lo c z st XX 112 ltac:(discriminate) ltac:(apply in_mem; reflexivity))|]. split; [exact HH|]. split; [exact MI|]. split; [exact SS|].
    exact (one_directive rnd m lo c z st XX 88 ltac:(discriminate) ltac:(apply in_mem; reflexivity)). }
  destruct (F a zi y mo d PA) as (s1 & P1 & H1 & M1 & S1 & ->). destruct (F b zi' y' mo' d' PB) as (s2 & P2 & H2 & M2 & S2 & ->).
  rewrite P1 in RA. rewrite P2 in RB. unfold f_p in RA, RB. destruct (after_noon rnd m s1) as [p1|] eqn:A1; [|discriminate]. destruct (after_noon rnd m s2) as [p2|] eqn:A2; [|discriminate].
  cbn [bind] in RA, RB. rewrite LA, LP in *. destruct p1; [congruence|]. destruct p2; [|congruence].
  unfold locale_data, find_time_order in LD. rewrite X in LD. cbn [bind] in LD. destruct (order_format d_fmt _) as [ds dc]. destruct p as [|p0 p']; [congruence|].
  change (order_format [37; 73; s; 37; 77; s; 37; 83] (lit "%H:%M:%S")) with (s, [73; 77; 83]) in LD.
  assert (E1 : lo_t lo = [73; 77; 83]) by (injection LD as <-; reflexivity).
  unfold f_X. rewrite E1. cbn [map_res].
  assert (MI : forall st, method0 rnd m lo st 73 = f_I rnd m st false 0) by reflexivity. assert (MM : forall st, method0 rnd m lo st 77 = Ok (f_M st 0)) by reflexivity.
  assert (MS : forall st, method0 rnd m lo st 83 = Ok (f_S st 0)) by reflexivity. rewrite !MI, !MM, !MS. unfold f_I. rewrite A1, A2. cbn [bind andb]. unfold f_M, f_S. cbn [Z.eqb].
  rewrite H1, H2, M1, M2, S1, S2, HB, MB, SB. replace (dt_h a + 12 - 12) with (dt_h a) by lia. reflexivity.
Qed.
Print Assumptions C88_locale_time_refuted.

(** C88 (%D): from year 0 on, the date format of the locale with the year of the century. *)
Definition two_digit_year (c : Z) : Z := if c =? 89 then 121 else c.
Lemma D_struct rnd m lo a zi y mo d : Nearest rnd -> evening rnd m -> naw_ruz_order rnd m -> printable rnd m a zi y mo d ->
  exists st, dt_timetuple rnd m a zi = Ok st /\ dt_strftime rnd m lo a zi (str "%D") = f_D rnd m lo st /\ get_year st = y /\ st_mon st = mo /\ st_mday st = d /\ -1842 <= y <= 1161 /\ 0 <= mo <= 19 /\ 1 <= d <= 19.
Proof.
  intros N E O P. destruct (printable_struct rnd m a zi y mo d N E O P) as (st & w & TT & _ & _ & GY & MO & MD & _ & _ & _ & _ & _ & _ & _ & _ & XX).
  destruct P as (SU & _ & _). destruct (sup_ok rnd m (dt_d a) y mo d N E SU) as (DN & K & Y). pose proof K as (KY & KM & KD).
  exists st. split; [exact TT|]. split; [exact (one_directive rnd m lo a zi st XX 68 ltac:(discriminate) ltac:(apply in_mem; reflexivity))|].
  assert (bmonth_len (zleap y) mo <= 19) by (unfold bmonth_len; destruct (mo =? 0), (zleap y); lia). repeat split; try assumption; lia.
Qed.
Lemma century_pos rnd y : Nearest rnd -> 0 <= y <= 1161 -> century rnd y = y / 100 * 100.
Proof.
  intros N Y. unfold century. pose proof (floor_div_int rnd N y 100 ltac:(lia) ltac:(lia)) as FD. change (inject_Z 100) with 100%Q in FD.
  rewrite Qtrunc_nonneg, FD; [reflexivity|]. unfold fdiv. apply (near_nonneg rnd N). apply Qle_shift_div_l; [reflexivity|]. change (0 * 100)%Q with (inject_Z 0). rewrite <- Zle_Qle. lia.
Qed.
Lemma pad_two z : 0 <= z <= 99 -> pad02 (fmt0 2 z) = fmt0 2 z.
Proof. intro H. rewrite two by exact H. reflexivity. Qed.
Theorem C88_locale_short_date : forall rnd m am pm a s b c x p lo t zi y mo d, Nearest rnd -> evening rnd m -> naw_ruz_order rnd m -> printable rnd m t zi y mo d -> 0 <= y ->
  Forall (fun c => In c (str "mdyY")) [a; b; c] -> s <> 37 -> locale_data am pm (format_text [D a; L s; D b; L s; D c]) x p = Ok lo ->
  dt_strftime rnd m lo t zi (str "%D") = dt_strftime rnd m lo t zi (format_text [D (two_digit_year a); L s; D (two_digit_year b); L s; D (two_digit_year c)]).
Proof.
  intros rnd m am pm a s b c x p lo t zi y mo d N E O P Y0 U S LD. destruct (D_struct rnd m lo t zi y mo d N E O P) as (st & TT & -> & GY & MO & MD & RY & RM & RD).
  inversion_clear U as [|? ? A F1]. inversion_clear F1 as [|? ? B F2]. inversion_clear F2 as [|? ? C _].
  assert (V : forall k, In k (str "mdyY") -> k = 109 \/ k = 100 \/ k = 121 \/ k = 89).
  { intros k I. assert (Q : forallb (fun k => (k =? 109) || (k =? 100) || (k =? 121) || (k =? 89)) (str "mdyY") = true) by reflexivity. rewrite forallb_forall in Q. specialize (Q k I). lia. }
  assert (V2 : forall k, In k (str "mdyY") -> In (two_digit_year k) usable /\ two_digit_year k <> 102).
  { intros k I. destruct (V k I) as [-> | [-> | [-> | ->]]]; (split; [apply in_mem; reflexivity|discriminate]). }
  destruct (V2 a A) as [UA NA]. destruct (V2 b B) as [UB NB]. destruct (V2 c C) as [UC NC].
  assert (PO : pieces_ok (two_delims (two_digit_year a) s (two_digit_year b) (two_digit_year c))) by (apply delims_ok; [repeat (apply Forall_cons; [assumption|]); apply Forall_nil|exact S]).
  destruct (dt_pieces rnd m lo t zi y mo d _ N E O P PO) as (st' & T2 & R2).
  { cbn. intros [Q|[Q|[Q|[Q|[Q|[]]]]]]; [injection Q as Q; exact (NA Q)|discriminate|injection Q as Q; exact (NB Q)|discriminate|injection Q as Q; exact (NC Q)]. }
  { cbn. intros [Q|[Q|[Q|[Q|[Q|[]]]]]]; try discriminate; injection Q as Q; exact (S Q). }
  assert (st' = st) by congruence. subst st'. change (format_text (two_delims (two_digit_year a) s (two_digit_year b) (two_digit_year c))) with (format_text [D (two_digit_year a); L s; D (two_digit_year b); L s; D (two_digit_year c)]) in R2. rewrite R2.
  assert (E1 : lo_d lo = [a; b; c] /\ lo_dsep lo = [s]).
  { unfold locale_data in LD. destruct (find_time_order x p) as [tf|]; [|discriminate]. cbn [bind] in LD. unfold order_format in LD at 1. destruct (order_format tf _) as [ts tc]. injection LD as <-. split; reflexivity. }
  destruct E1 as [E1 E2]. unfold f_D. rewrite E1, E2, GY. rewrite (century_pos rnd y N) by lia. replace (y <? y / 100 * 100) with false by lia.
  set (g := fun c0 : Z => _). assert (G : forall k, In k (str "mdyY") -> exists tx, g k = Ok tx /\ pval rnd m lo st (D (two_digit_year k)) = Ok tx).
  { intros k I. destruct (V k I) as [-> | [-> | [-> | ->]]]; unfold g, two_digit_year; cbn [Z.eqb Pos.eqb orb].
    - exists (fmt0 2 mo). split; [|change (pval rnd m lo st (D 109)) with (@Ok text (f_m st 0)); unfold f_m; rewrite MO; reflexivity].
      change (method0 rnd m lo st 109) with (@Ok text (f_m st 0)). cbn [bind]. unfold f_m. cbn [Z.eqb]. rewrite MO, pad_two by lia. reflexivity.
    - exists (fmt0 2 d). split; [|change (pval rnd m lo st (D 100)) with (@Ok text (f_d st false 0)); unfold f_d; rewrite MD; reflexivity].
      change (method0 rnd m lo st 100) with (@Ok text (f_d st false 0)). cbn [bind]. unfold f_d. cbn [Z.eqb]. rewrite MD, pad_two by lia. reflexivity.
    - exists (fmt0 2 (y - y / 100 * 100)). split; [reflexivity|]. change (pval rnd m lo st (D 121)) with (@Ok text (f_y rnd st 0)). unfold f_y. rewrite GY, (century_pos rnd y N) by lia. reflexivity.
    - exists (fmt0 2 (y - y / 100 * 100)). split; [reflexivity|]. change (pval rnd m lo st (D 121)) with (@Ok text (f_y rnd st 0)). unfold f_y. rewrite GY, (century_pos rnd y N) by lia. reflexivity. }
  destruct (G a A) as (ta & GA & PA). destruct (G b B) as (tb & GB & PB). destruct (G c C) as (tc & GC & PC).
  cbn [map_res]. rewrite GA, GB, GC. unfold two_delims. cbn [map]. rewrite PA, PB, PC. change (pval rnd m lo st (L s)) with (@Ok text [s]). cbn [bind cat join]. rewrite app_nil_r. reflexivity.
Qed.
Print Assumptions C88_locale_short_date.

(** Refuted: before year -100 (but for full centuries) %D prints the whole year, not the year of the century. *)
Theorem C88_locale_short_date_refuted : forall rnd m am pm x p lo a zi y mo d, Nearest rnd -> evening rnd m -> naw_ruz_order rnd m -> printable rnd m a zi y mo d ->
  y < -100 -> y mod 100 <> 0 -> locale_data am pm (str "%m/%d/%y") x p = Ok lo ->
  dt_strftime rnd m lo a zi (str "%D") = Ok (columns 2 mo ++ str "/" ++ columns 2 d ++ str "/" ++ str "-" ++ columns (if y <=? -1000 then 4 else 3) (- y)).
Proof.
  intros rnd m am pm x p lo a zi y mo d N E O P Y0 NZ LD. destruct (D_struct rnd m lo a zi y mo d N E O P) as (st & TT & -> & GY & MO & MD & RY & RM & RD).
  assert (E1 : lo_d lo = [109; 100; 121] /\ lo_dsep lo = [47]).
  { unfold locale_data in LD. destruct (find_time_order x p) as [tf|]; [|discriminate]. cbn [bind] in LD. unfold order_format in LD at 1. destruct (order_format tf _) as [ts tc]. injection LD as <-. split; reflexivity. }
  destruct E1 as [E1 E2]. unfold f_D. rewrite E1, E2, GY.
  assert (CE : y < century rnd y).
  { pose proof (floor_div_int rnd N y 100 ltac:(lia) ltac:(lia)) as FD. change (inject_Z 100) with 100%Q in FD.
    assert (LT : (inject_Z y / 100 - (1 # 2147483648) <= fdiv rnd (inject_Z y) 100 <= inject_Z y / 100 + (1 # 2147483648))%Q).
    { unfold fdiv. assert (B : (Qabs (inject_Z y / 100) <= 8388608)%Q).
      { assert (A1 : (-1842 <= inject_Z y)%Q) by (change (-1842)%Q with (inject_Z (-1842)); rewrite <- Zle_Qle; lia). assert (A2 : (inject_Z y <= 0)%Q) by (change 0%Q with (inject_Z 0); rewrite <- Zle_Qle; lia).
        apply Qabs_Qle_condition. split; [apply Qle_shift_div_l; [reflexivity|lra]|apply Qle_shift_div_r; [reflexivity|lra]]. }
      pose proof (near_err_23 rnd N _ B) as ER. apply Qabs_Qle_condition in ER. split; lra. }
    assert (HQ : (inject_Z y / 100 == inject_Z (y / 100) + inject_Z (y mod 100) * (1 # 100))%Q).
    { rewrite (Z.div_mod y 100) at 1 by lia. rewrite inject_Z_plus, inject_Z_mult. change (inject_Z 100) with 100%Q. field. }
    assert (M1 : (1 <= inject_Z (y mod 100))%Q) by (change 1%Q with (inject_Z 1); rewrite <- Zle_Qle; lia).
    assert (M2 : (inject_Z (y mod 100) <= 99)%Q) by (change 99%Q with (inject_Z 99); rewrite <- Zle_Qle; lia).
    assert (M3 : (inject_Z (y / 100) <= -2)%Q) by (change (-2)%Q with (inject_Z (-2)); rewrite <- Zle_Qle; lia).
    unfold century, Qtrunc. unfold Qleb. destruct (Qle_bool 0 (fdiv rnd (inject_Z y) 100)) eqn:LB; [apply Qle_bool_iff in LB; lra|].
    assert (CC : (y / 100 < Qceiling (fdiv rnd (inject_Z y) 100))%Z); [|lia].
    rewrite Zlt_Qlt. pose proof (Qle_ceiling (fdiv rnd (inject_Z y) 100)). lra. }
  replace (y <? century rnd y) with true by lia. cbn [map_res Z.eqb Pos.eqb orb].
  change (method0 rnd m lo st 109) with (@Ok text (f_m st 0)). change (method0 rnd m lo st 100) with (@Ok text (f_d st false 0)). cbn [bind]. unfold f_m, f_d. cbn [Z.eqb].
  rewrite MO, MD, !pad_two, !two by lia. cbn [bind join]. do 2 f_equal. change (str "/") with [47]. do 4 f_equal. 
  rewrite Z.sub_0_r. pose (Q := fun y => if list_eq_dec Z.eq_dec (fmt0 2 y) (str "-" ++ columns (if y <=? -1000 then 4 else 3) (- y)) then true else false).
  assert (A : Q y = true) by (apply (zforall Q (-1842) 1742); [vm_compute; reflexivity|lia]). unfold Q in A. destruct (list_eq_dec _ _ _); [assumption|discriminate].
Qed.
Print Assumptions C88_locale_short_date_refuted.

(** A German, an American and a Hungarian locale. *)
Definition german : res locale := locale_data [] [] (str "%d.%m.%Y") (str "14:05:09") [].
Definition american : res locale := locale_data (str "AM") (str "PM") (str "%m/%d/%Y") (str "02:05:09 PM") (str "PM").
Definition hungarian : res locale := locale_data [] [] (str "%Y-%m-%d.") (str "14:05:09") [].
Definition prints (l : res locale) (a : pdt) (f t : list Z) : Prop := exists lo, l = Ok lo /\ dt_strftime b64 sample_sun lo a None f = Ok t.
Definition in_181 (h : Z) : pdt := mk_dt 181 3 7 h 5 9 0 None.
Example C88_case :
  (forall rnd, Nearest rnd -> printable rnd sample_sun (in_181 13) None 181 3 7 /\ printable rnd sample_sun (mk_dt (-123) 3 7 13 5 9 0 None) None (-123) 3 7) /\
  format_text [D 100; L 46; D 109; L 46; D 89] = str "%d.%m.%Y" /\
  prints german (in_181 13) (str "%x") (str "07.03.0181") /\ prints german (in_181 13) (str "%D") (str "07.03.81") /\ prints german (in_181 13) (str "%X") (str "13:05:09") /\
  prints german (in_181 13) (str "%c") (u "Isj Jam 07 13:05:09 0181") /\
  prints german (mk_dt (-123) 3 7 13 5 9 0 None) (str "%c") (u "Isj Jam 07 13:05:09 -123") /\
  prints german (mk_dt (-123) 3 7 13 5 9 0 None) (str "%a %b %d %H:%M:%S %Y") (u "Isj Jam 07 13:05:09 -0123") /\
  prints american (mk_dt (-123) 3 7 13 5 9 0 None) (str "%D") (str "03/07/-123") /\ prints american (mk_dt (-123) 3 7 13 5 9 0 None) (str "%y") (str "-23") /\
  prints american (in_181 3) (str "%X") (str "03:05:09") /\ prints american (in_181 15) (str "%X") (str "03:05:09") /\
  prints american (in_181 3) (str "%p") (str "AM") /\ prints american (in_181 15) (str "%p") (str "PM") /\
  prints hungarian (in_181 13) (str "%x") (str "03/07/81").
Proof.
  split.
  { intros rnd N. split; (split; [split; [cbn; tauto|split; [lia|split; [lia|rewrite (leap_of_ok rnd N sample_sun) by (try apply sample_evening; try exact N; lia); vm_compute; split; discriminate]]]|]);
    (split; [repeat split; try discriminate; cbn; try lia; try tauto|split; [reflexivity|left; reflexivity]]). }
  split; [reflexivity|]. unfold prints. repeat split; (eexists; split; [reflexivity|vm_compute; reflexivity]).
Qed.
