(** PropertiesStrp.v -- C66: strptime reads back what strftime prints. *)
From Coq Require Import ZArith QArith Qround Qabs List Bool Lia Lqa String.
From Coq Require Import ZifyBool ZifyNat ZifyN.
From Verif Require Import Base Flt QUtil BaseModel MiscModel BadiModel BaseProofs SunProofs SpecBadi BadiProofs BadiProofs2 BadiProofs3 DecProofs BadiProofs4 LongYear LongProofs BadiProofs5 MeeusFloat
  ClockProofs3 ClockProofs4 TduModel DateModel SpecDate TduProofs TduProofs2 TduProofs3 DateProofs SampleSun PropertiesBadi PropertiesDate PropertiesDate2
  TimeModel SpecTime TimeProofs PropertiesTime PropertiesDt TextModel SpecText TextProofs PropertiesText StrfModel SpecStrf StrfProofs PropertiesStrf PropertiesStrf2 PropertiesStrf3 PropertiesStrf4 PropertiesStrf5
  SpecStrp StrpModel StrpProofs.
Import ListNotations.
Local Open Scope Z_scope.
Ltac Zify.zify_post_hook ::= Z.div_mod_to_equations.

(** ** Printing *)
(** a piece without a modifier *)
Definition plainp (p : piece) : Prop := match p with DM _ _ => False | _ => well_formed p end.
Lemma readable_plain p : readable p -> plainp p.
Proof. destruct p as [c|c|]; [exact (fun H => H)| |exact (fun H => H)]. cbn. clear. intuition (subst; tauto). Qed.
Definition expand (us : Z) (l : list piece) : list piece := flat_map (fun p => match p with D 102 => map L (columns 6 us) | _ => [p] end) l.
Lemma is102 c : {c = 102} + {c <> 102}.
Proof. apply Z.eq_dec. Qed.
Lemma expand_D us c l : c <> 102 -> expand us (D c :: l) = D c :: expand us l.
Proof.
  intro H. unfold expand. cbn [flat_map]. match goal with |- ?x ++ _ = _ => assert (E : x = [D c]) end.
  { destruct c as [|p|p]; try reflexivity. repeat (destruct p as [p|p|]; try reflexivity). congruence. }
  rewrite E. reflexivity.
Qed.
Lemma fl_D c l : c <> 102 -> f_as_literal (D c :: l) = D c :: f_as_literal l.
Proof.
  intro H. unfold f_as_literal. cbn [map]. f_equal. destruct c as [|p|p]; try reflexivity. repeat (destruct p as [p|p|]; try reflexivity). congruence.
Qed.
Lemma replace_pieces us l : Forall plainp l -> 0 <= us <= 999999 -> replace_f us (format_text l) = format_text (expand us l).
Proof.
  intros R U. induction R as [|p l P R IH]; [reflexivity|]. destruct p as [c|c|]; [| |destruct P].
  - cbn in P. change (format_text (L c :: l)) with (c :: format_text l). change (expand us (L c :: l)) with (L c :: expand us l). cbn [replace_f]. replace (c =? 37) with false by lia. rewrite IH. reflexivity.
  - change (format_text (D c :: l)) with (37 :: c :: format_text l). cbn [replace_f Z.eqb Pos.eqb]. destruct (is102 c) as [->|N].
    + cbn [Z.eqb Pos.eqb]. change (expand us (D 102 :: l)) with (map L (columns 6 us) ++ expand us l). unfold format_text at 2. rewrite flat_map_app. fold (format_text (expand us l)). rewrite IH. f_equal.
      rewrite fmt0_columns by (try lia; change (10 ^ Z.of_nat 6) with 1000000; lia). generalize (columns 6 us). intro t. induction t as [|x t IHt]; [reflexivity|]. cbn. f_equal. exact IHt.
    + rewrite expand_D by exact N. replace (c =? 102) with false by lia. rewrite IH. reflexivity.
Qed.
Lemma unmarked_ext p q l : is_mark p = is_mark q -> unmarked p l -> unmarked q l.
Proof. destruct l as [|x l]; [tauto|]. intros E [A B]. split; [|exact B]. destruct x; [rewrite <- E; exact A|exact A|exact A]. Qed.
Lemma digits_unmarked ds l : forallb is_digit ds = true -> ds <> [] -> forall p q, is_mark p = false -> is_mark q = false -> unmarked q l -> unmarked p (map L ds ++ l).
Proof.
  induction ds as [|c ds IH]; [congruence|]. intros D _ p q P Q U. cbn [forallb] in D. apply andb_true_iff in D as [D1 D2]. cbn [map app unmarked end_of]. split; [exact P|].
  assert (C : is_mark c = false) by (unfold is_digit, is_mark in *; lia). destruct ds as [|c' ds]; [apply (unmarked_ext q); [congruence|exact U]|]. apply (IH D2 ltac:(discriminate) c q); assumption.
Qed.
Lemma cols_ne us : columns 6 us <> [].
Proof. intro Q. apply (f_equal (@List.length Z)) in Q. rewrite columns_len in Q. discriminate. Qed.
Lemma expand_unmarked us l p : Forall plainp l -> unmarked p (f_as_literal l) -> unmarked p (expand us l).
Proof.
  intro R. revert p. induction R as [|x l P R IH]; intros p U; [exact I|]. destruct x as [c|c|]; [| |destruct P].
  - destruct U as [U1 U2]. split; [exact U1|apply IH, U2].
  - destruct (is102 c) as [->|N].
    + destruct U as [U1 U2]. change (expand us (D 102 :: l)) with (map L (columns 6 us) ++ expand us l). apply (digits_unmarked _ _ (columns_digits 6 us) (cols_ne us) p 48); [exact U1|reflexivity|apply IH, U2].
    + rewrite fl_D in U by exact N. rewrite expand_D by exact N. destruct U as [_ U]. split; [exact Logic.I|apply IH, U].
Qed.
Lemma expand_last us l p q : Forall plainp l -> is_mark p = is_mark q -> is_mark (last (map end_of (expand us l)) p) = is_mark (last (map end_of (f_as_literal l)) q).
Proof.
  intro R. revert p q. induction R as [|x l P R IH]; intros p q E; [exact E|]. destruct x as [c|c|]; [| |destruct P].
  - change (expand us (L c :: l)) with (L c :: expand us l). change (f_as_literal (L c :: l)) with (L c :: f_as_literal l). cbn [map end_of]. rewrite !last_cons. apply IH. reflexivity.
  - destruct (is102 c) as [->|N].
    + change (expand us (D 102 :: l)) with (map L (columns 6 us) ++ expand us l). change (f_as_literal (D 102 :: l)) with (L 48 :: f_as_literal l). cbn [map end_of]. rewrite last_cons, map_app.
      assert (A : forall t, forallb is_digit t = true -> t <> [] -> exists z, is_mark z = false /\ forall r, last (map end_of (map L t) ++ r) p = last r z).
      { clear. intros t. revert p. induction t as [|c t IHt]; intros p D NE; [congruence|]. cbn [forallb] in D. apply andb_true_iff in D as [D1 D2]. destruct t as [|c' t].
        - exists c. split; [unfold is_digit, is_mark in *; lia|]. intro r. cbn [map app end_of]. apply last_cons.
        - destruct (IHt c D2 ltac:(discriminate)) as (z & Z1 & Z2). exists z. split; [exact Z1|]. intro r. change (map end_of (map L (c :: c' :: t)) ++ r) with (c :: (map end_of (map L (c' :: t)) ++ r)). rewrite last_cons. apply Z2. }
      destruct (A (columns 6 us) (columns_digits 6 us) (cols_ne us)) as (z & Z1 & Z2). rewrite Z2. apply IH. rewrite Z1. reflexivity.
    + rewrite fl_D, expand_D by exact N. cbn [map end_of]. rewrite !last_cons. apply IH. reflexivity.
Qed.
Lemma expand_wf us l : Forall plainp l -> Forall well_formed (expand us l).
Proof.
  induction 1 as [|x l P R IH]; [constructor|]. destruct x as [c|c|]; [| |destruct P].
  - constructor; [exact P|exact IH].
  - destruct (is102 c) as [->|N].
    + change (expand us (D 102 :: l)) with (map L (columns 6 us) ++ expand us l). apply Forall_app. split; [|exact IH]. pose proof (columns_digits 6 us) as DG. rewrite forallb_forall in DG. apply Forall_forall. intros p I. apply in_map_iff in I as (c & <- & I). specialize (DG c I). unfold is_digit in DG. cbn. lia.
    + rewrite expand_D by exact N. constructor; [exact P|exact IH].
Qed.

Section Round.
Variable rnd : Q -> Q.
Hypothesis N : Nearest rnd.
Variable m : Q -> Q -> Q -> Q.
Hypothesis E : evening rnd m.
Hypothesis O : naw_ruz_order rnd m.
Lemma print_pieces lo s txt us l : Forall plainp l -> l <> [] -> faithful_format (f_as_literal l) -> txt 102 = columns 6 us -> 0 <= us <= 999999 ->
  (forall c, In c (letters l) -> c <> 102 -> directive rnd m lo s c 0 = Ok (txt c)) ->
  (let f := replace_f us (format_text l) in let* _ := check_format f in strftime_loop rnd m lo s (last f 0) f) = Ok (printed txt l).
Proof.
  intros R NE F T6 U T. cbv zeta. rewrite replace_pieces by assumption. pose proof (expand_wf us l R) as W.
  assert (XN : expand us l <> []). { destruct l as [|x l']; [congruence|]. destruct x as [c|c|c]; try discriminate. destruct (is102 c) as [->|N']; [|rewrite expand_D by exact N'; discriminate]. pose proof (cols_ne us). change (expand us (D 102 :: l')) with (map L (columns 6 us) ++ expand us l'). destruct (columns 6 us); [congruence|discriminate]. }
  assert (FE : faithful_format (expand us l)). { unfold faithful_format in *. apply (unmarked_ext (last (map end_of (f_as_literal l)) 0)); [symmetry; apply expand_last; [exact R|reflexivity]|]. apply expand_unmarked; assumption. }
  pose proof (format_general rnd m lo s (expand us l) [] W) as G. rewrite app_nil_r in G. rewrite G. rewrite (last_format _ 0 XN).
  destruct (format_text (expand us l)) eqn:FT; [exfalso; destruct (expand us l) as [|[]]; [congruence|discriminate..]|]. clear FT. cbv zeta. cbn [check_format_loop bind strftime_loop].
  rewrite surviving_all by exact FE.
  assert (C : cat (map (pval rnd m lo s) (expand us l)) = Ok (printed txt l)); [|rewrite C; cbn [bind]; rewrite app_nil_r; reflexivity].
  clear - R T T6. induction R as [|x l P R IH]; [reflexivity|]. assert (T' : forall c, In c (letters l) -> c <> 102 -> directive rnd m lo s c 0 = Ok (txt c)) by (intros c I; apply T; unfold letters; cbn [flat_map]; apply in_or_app; right; exact I).
  specialize (IH T'). destruct x as [c|c|]; [| |destruct P].
  - change (expand us (L c :: l)) with (L c :: expand us l). cbn [map]. rewrite cat_cons, IH. reflexivity.
  - destruct (is102 c) as [->|N'].
    + change (expand us (D 102 :: l)) with (map L (columns 6 us) ++ expand us l). change (printed txt (D 102 :: l)) with (txt 102 ++ printed txt l). rewrite T6, map_app.
      generalize (columns 6 us). intro t. induction t as [|y t IHt]; [exact IH|]. cbn [map app]. rewrite cat_cons, IHt. reflexivity.
    + rewrite expand_D by exact N'. cbn [map]. rewrite cat_cons, IH. cbn [pval]. rewrite T; [reflexivity|left; reflexivity|exact N'].
Qed.

(** ** The date found *)
Lemma misc_ok st y mo d : okd y mo d -> -1842 <= y -> st Year = Some y -> st IsoYear = None -> st WeekOfYear = None ->
  (st Julian = None /\ st Month = Some mo /\ st Day = Some d \/ st Julian = Some (bday_of_year (leap_of rnd m y) mo d) /\ (y <= 1160 \/ (mo = 1 /\ d = 1)) /\ ~ In (y, mo, d) refused_bdates /\ ~ In y stale_years) ->
  exists w j, miscellaneous rnd m st = Ok (y, mo, d, w, j).
Proof.
  intros K YL SY SI SW C. pose proof K as (KY & KM & KD).
  assert (K1 : okd y 1 1) by (split; [exact KY|]; split; [lia|]; unfold bmonth_len; cbn; lia).
  assert (WD : exists w, (match st Weekday with Some w => Ok w | None => let* a := date_new rnd m [y; mo; d] in weekday rnd m a end) = Ok w).
  { destruct (st Weekday) as [w|]; [exists w; reflexivity|]. rewrite (new_short rnd N m E y mo d K). cbn [bind]. rewrite (proj1 (weekday_ok rnd N m E O (DShort y mo d) y mo d ltac:(cbn; tauto) K)). eexists. reflexivity. }
  destruct WD as (w & WD). unfold miscellaneous. rewrite SY.
  destruct C as [(J & M & DD)|(J & L & RF & STY)].
  - rewrite J, M, DD. cbn [dflt1]. rewrite SI, SW. exists w.
    assert (S1 : (match st Weekday with Some _ => Ok (y, mo, d, @None Z) | None => Ok (y, mo, d, None) end) = Ok (y, mo, d, None)) by (destruct (st Weekday); reflexivity).
    destruct (st Weekday) as [w'|] eqn:W; cbn [bind]; rewrite (new_short rnd N m E y mo d K); cbn [bind]; rewrite (toord_ok rnd N m E O (DShort y mo d) y mo d ltac:(cbn; tauto) K); cbn [bind];
    rewrite (new_short rnd N m E y 1 1 K1); cbn [bind]; rewrite (toord_ok rnd N m E O (DShort y 1 1) y 1 1 ltac:(cbn; tauto) K1); cbn [bind].
    + injection WD as <-. eexists. reflexivity.
    + rewrite (new_short rnd N m E y mo d K) in WD |- *. cbn [bind] in WD |- *. rewrite WD. eexists. reflexivity.
  - rewrite J. cbn [bind]. rewrite (new_short rnd N m E y 1 1 K1). cbn [bind]. rewrite (toord_ok rnd N m E O (DShort y 1 1) y 1 1 ltac:(cbn; tauto) K1). cbn [bind].
    assert (Q : bday_of_year (leap_of rnd m y) mo d - 1 + zrd y 1 1 = zrd y mo d).
    { rewrite (leap_of_ok rnd N m E) by lia. rewrite <- (doy_eq (zleap y) mo d KM). unfold zrd. assert (Z1 : zdbm (zleap y) 1 = 0) by (unfold zdbm; destruct (zleap y); reflexivity). rewrite Z1. lia. }
    rewrite (zord_steady y 1 1 STY), Q. rewrite (fromord_ok rnd N m E) by (exact K || (apply late_bound; assumption)). destruct (inb (y, mo, d) refused_bdates) eqn:IB; [exfalso; apply RF, inb_in, IB|].
    cbn [form_of bind ymd]. exists w. rewrite WD. cbn [bind]. eexists. reflexivity.
Qed.
End Round.

(** ** The round trip *)
(** The text and the field of each directive. *)
Definition rt_txt (a : pdt) (y mo d w doy c : Z) : text :=
  if c =? 89 then signed_year y else if c =? 109 then columns 2 mo else if c =? 66 then nth (Z.to_nat mo) MONTHNAMES [] else if c =? 98 then nth (Z.to_nat mo) MONTHNAMES_ABV []
  else if c =? 100 then columns 2 d else if c =? 72 then columns 2 (dt_h a) else if c =? 77 then columns 2 (dt_mi a) else if c =? 83 then columns 2 (dt_s a)
  else if c =? 102 then columns 6 (dt_us a) else if c =? 65 then nth (Z.to_nat w) DAYNAMES [] else if c =? 97 then nth (Z.to_nat w) DAYNAMES_ABV [] else columns 3 doy.
Definition rt_fld (c : Z) : field :=
  if c =? 89 then Year else if (c =? 109) || (c =? 66) || (c =? 98) then Month else if c =? 100 then Day else if c =? 72 then Hour else if c =? 77 then Minute
  else if c =? 83 then Second else if c =? 102 then Fraction else if (c =? 65) || (c =? 97) then Weekday else Julian.
Definition rt_val (a : pdt) (y mo d w doy : Z) (f : field) : Z :=
  match f with Year => y | Month => mo | Day => d | Hour => dt_h a | Minute => dt_mi a | Second => dt_s a | Fraction => dt_us a | Weekday => w | Julian => doy | _ => 0 end.
Ltac twelve I := change (str "YmBbdHMSfAaj") with [89; 109; 66; 98; 100; 72; 77; 83; 102; 65; 97; 106] in I; cbn [In] in I; destruct I as [<-|[<-|[<-|[<-|[<-|[<-|[<-|[<-|[<-|[<-|[<-|[<-|I]]]]]]]]]]]]; [..|destruct I].
Lemma nth_of {A} (l : list A) n x dft : nth_error l n = Some x -> nth n l dft = x.
Proof. revert n. induction l as [|y l IH]; intros [|n] H; try discriminate; cbn in *; [congruence|apply IH, H]. Qed.
Lemma has_in l c : has l c = true <-> exists x, In x (letters l) /\ In x (str c).
Proof.
  unfold has. rewrite existsb_exists. split; intros (x & I & J); exists x; (split; [exact I|]).
  - apply existsb_exists in J as (z & J & K). apply Z.eqb_eq in K. subst. exact J.
  - apply existsb_exists. exists x. split; [exact J|apply Z.eqb_refl].
Qed.
Lemma has_not l c x : has l c = false -> In x (str c) -> ~ In x (letters l).
Proof. intros H I J. assert (T : has l c = true) by (apply has_in; exists x; tauto). congruence. Qed.
Lemma readable_in l c : Forall readable l -> In c (letters l) -> In c (str "YmBbdHMSfAaj").
Proof.
  induction 1 as [|p l P R IH]; [intros []|]. destruct p as [x|x|]; [exact IH| |destruct P]. intros [<-|I]; [exact P|apply IH, I].
Qed.

Lemma cols_head n z : exists x t, columns (S n) z = x :: t /\ is_space x = false.
Proof.
  pose proof (columns_len (S n) z) as L. pose proof (columns_digits (S n) z) as D. destruct (columns (S n) z) as [|x t]; [discriminate|]. exists x, t. split; [reflexivity|].
  cbn [forallb] in D. unfold is_digit, is_space in *. cbn. lia.
Qed.
Section Texts.
Variables (sl : sloc) (a : pdt) (y mo d w doy : Z).
Hypothesis SL : std sl.
Hypotheses (HY : -9999 <= y <= 9999) (HM : 0 <= mo <= 19) (HD : 1 <= d <= 19) (HW : 0 <= w <= 6) (HJ : 1 <= doy <= 366).
Hypothesis HC : valid_clock (dt_h a) (dt_mi a) (dt_s a) (dt_us a).
Let txt := rt_txt a y mo d w doy.
Lemma name_in (l : list text) i : (Z.to_nat i < List.length l)%nat -> In (nth (Z.to_nat i) l []) l.
Proof. intro H. apply nth_In, H. Qed.
Lemma tab_name l c names : table0 sl c = Some (seq_rx l c) -> table sl c = table0 sl c -> l = map lower_text names ->
  existsb (fun x => negb (List.length x =? 0)%nat) (map lower_text names) = true -> groups (alts (map lit_rx (by_length (map lower_text names)))) = [] ->
  table sl c = Some (RGrp c (inner sl c)) /\ groups (inner sl c) = [].
Proof. intros T T' -> X G. unfold inner. rewrite T', T. unfold seq_rx. rewrite X. split; [reflexivity|exact G]. Qed.
Lemma tab c : In c (str "YmBbdHMSfAaj") -> table sl c = Some (RGrp c (inner sl c)) /\ groups (inner sl c) = [] /\ special c = false /\ is_space c = false.
Proof.
  intro I. destruct SL as (A & B & C & D). enough (X : table sl c = Some (RGrp c (inner sl c)) /\ groups (inner sl c) = []) by (destruct X; repeat (split; [assumption|]); twelve I; split; reflexivity).
  twelve I; try (split; reflexivity).
  - apply (tab_name (sl_B sl) 66 MONTHNAMES eq_refl eq_refl C); vm_compute; reflexivity.
  - apply (tab_name (sl_b sl) 98 MONTHNAMES_ABV eq_refl eq_refl D); vm_compute; reflexivity.
  - apply (tab_name (sl_A sl) 65 DAYNAMES eq_refl eq_refl A); vm_compute; reflexivity.
  - apply (tab_name (sl_a sl) 97 DAYNAMES_ABV eq_refl eq_refl B); vm_compute; reflexivity.
Qed.
Lemma known_ok p : readable p -> known sl p.
Proof.
  destruct p as [c|c|]; [exact (fun H => H)| |intros []]. intro I. destruct (tab c I) as (T & G & SP & WS). split; [exact SP|]. split; [exact WS|]. exists (inner sl c). split; assumption.
Qed.
Lemma txt_head c : In c (str "YmBbdHMSfAaj") -> exists x t, txt c = x :: t /\ is_space x = false.
Proof.
  assert (NM : forall (l : list text) i, (Z.to_nat i < List.length l)%nat -> forallb (fun t => match t with x :: _ => negb (is_space x) | [] => false end) l = true -> exists x r, nth (Z.to_nat i) l [] = x :: r /\ is_space x = false).
  { intros l i L F. rewrite forallb_forall in F. specialize (F _ (name_in l i L)). destruct (nth (Z.to_nat i) l []) as [|x r]; [discriminate|]. exists x, r. split; [reflexivity|]. apply negb_true_iff, F. }
  intro I. twelve I; unfold txt, rt_txt; cbn [Z.eqb Pos.eqb].
  - unfold signed_year. destruct (y <? 0); [exists 45; eexists; split; reflexivity|apply cols_head].
  - apply cols_head.
  - apply NM; [change (List.length MONTHNAMES) with 20%nat; lia|]. vm_compute; reflexivity.
  - apply NM; [change (List.length MONTHNAMES_ABV) with 20%nat; lia|]. vm_compute; reflexivity.
  - apply cols_head.
  - apply cols_head.
  - apply cols_head.
  - apply cols_head.
  - apply cols_head.
  - apply NM; [change (List.length DAYNAMES) with 7%nat; lia|]. vm_compute; reflexivity.
  - apply NM; [change (List.length DAYNAMES_ABV) with 7%nat; lia|]. vm_compute; reflexivity.
  - apply cols_head.
Qed.
Lemma txt_first c s : In c (str "YmBbdHMSfAaj") -> (c = 72 -> dt_h a <= 23) -> first (inner sl c) (txt c ++ s) = Some ([], s).
Proof.
  unfold valid_clock in HC. intros I H24. twelve I; unfold txt, rt_txt; cbn [Z.eqb Pos.eqb].
  - apply Y_cols.
  - apply m_cols. lia.
  - pose proof (B_names sl s SL) as F. rewrite Forall_forall in F. apply F, name_in. change (List.length MONTHNAMES) with 20%nat. lia.
  - pose proof (b_names sl s SL) as F. rewrite Forall_forall in F. apply F, name_in. change (List.length MONTHNAMES_ABV) with 20%nat. lia.
  - apply d_cols. lia.
  - apply H_cols. specialize (H24 eq_refl). lia.
  - apply M_cols. lia.
  - apply S_cols. lia.
  - apply f_cols.
  - pose proof (A_names sl s SL) as F. rewrite Forall_forall in F. apply F, name_in. change (List.length DAYNAMES) with 7%nat. lia.
  - pose proof (a_names sl s SL) as F. rewrite Forall_forall in F. apply F, name_in. change (List.length DAYNAMES_ABV) with 7%nat. lia.
  - apply j_cols. lia.
Qed.
Lemma reads_ok l : Forall readable l -> (In 72 (letters l) -> dt_h a <= 23) -> Forall (reads sl txt) l.
Proof.
  induction 1 as [|p l P R IH]; intro H; [constructor|]. constructor.
  - destruct p as [c|c|]; [exact Logic.I| |destruct P]. destruct (tab c P) as (T & _). exists (inner sl c). split; [exact T|]. split; [|apply txt_head, P].
    intro s. apply txt_first; [exact P|]. intros ->. apply H. left. reflexivity.
  - apply IH. intro I. apply H. unfold letters. cbn [flat_map]. apply in_or_app. right. exact I.
Qed.
Lemma index_nth (names : list text) i : (Z.to_nat i < List.length names)%nat -> 0 <= i ->
  forallb (fun k => match index (lower_text (nth k names [])) (map lower_text names) with Ok v => v =? Z.of_nat k | Err _ => false end) (seq 0 (List.length names)) = true ->
  index (lower_text (nth (Z.to_nat i) names [])) (map lower_text names) = Ok i.
Proof.
  intros L P F. rewrite forallb_forall in F. specialize (F (Z.to_nat i)). rewrite in_seq in F. specialize (F ltac:(lia)). destruct (index _ _); [|discriminate]. f_equal. lia.
Qed.
Lemma step_ok g c st : In c (str "YmBbdHMSfAaj") -> (c = 98 -> mo <> 15) -> found_step sl g st (c, txt c) = Ok (put st (rt_fld c) (rt_val a y mo d w doy (rt_fld c))).
Proof.
  destruct SL as (SA & Sa & SB & Sb). unfold valid_clock in HC. intros I MB. twelve I; unfold txt, rt_txt; cbn [Z.eqb Pos.eqb orb]; unfold found_step; cbn [Z.eqb Pos.eqb orb]; cbn [rt_fld Z.eqb Pos.eqb orb rt_val].
  - unfold signed_year. destruct (Z.ltb_spec y 0); [change (str "-" ++ columns 4 (- y)) with (45 :: columns 4 (- y)); rewrite pyint_minus|rewrite pyint_columns]; try lia; try (change (10 ^ Z.of_nat 4) with 10000; lia); cbn [bind]; [replace (- - y) with y by lia|]; reflexivity.
  - rewrite pyint_columns by (try lia; change (10 ^ Z.of_nat 2) with 100; lia). reflexivity.
  - rewrite SB, index_nth; [reflexivity|change (List.length MONTHNAMES) with 20%nat; lia|lia|vm_compute; reflexivity].
  - specialize (MB eq_refl). rewrite Sb. 
    assert (X : index (lower_text (nth (Z.to_nat mo) MONTHNAMES_ABV [])) (map lower_text MONTHNAMES_ABV) = Ok mo); [|rewrite X; reflexivity].
    pose (P := fun z => (z =? 15) || match index (lower_text (nth (Z.to_nat z) MONTHNAMES_ABV [])) (map lower_text MONTHNAMES_ABV) with Ok v => v =? z | Err _ => false end).
    assert (A : P mo = true) by (apply (zforall P 0 20); [vm_compute; reflexivity|lia]). unfold P in A. replace (mo =? 15) with false in A by lia. destruct (index _ _); [f_equal; lia|discriminate].
  - rewrite pyint_columns by (try lia; change (10 ^ Z.of_nat 2) with 100; lia). reflexivity.
  - rewrite pyint_columns by (try lia; change (10 ^ Z.of_nat 2) with 100; lia). reflexivity.
  - rewrite pyint_columns by (try lia; change (10 ^ Z.of_nat 2) with 100; lia). reflexivity.
  - rewrite pyint_columns by (try lia; change (10 ^ Z.of_nat 2) with 100; lia). reflexivity.
  - rewrite columns_len. cbn [Nat.sub zeros repeat]. rewrite app_nil_r, pyint_columns by (try lia; change (10 ^ Z.of_nat 6) with 1000000; lia). reflexivity.
  - rewrite SA, index_nth; [reflexivity|change (List.length DAYNAMES) with 7%nat; lia|lia|vm_compute; reflexivity].
  - rewrite Sa, index_nth; [reflexivity|change (List.length DAYNAMES_ABV) with 7%nat; lia|lia|vm_compute; reflexivity].
  - rewrite pyint_columns by (try lia; change (10 ^ Z.of_nat 3) with 1000; lia). reflexivity.
Qed.
(** Which field is set. *)
Lemma set_fields l : Forall readable l -> NoDup (letters l) -> (In 98 (letters l) -> mo <> 15) ->
  exists st, parse_found sl (found txt l) = Ok st /\ forall f, st f = if existsb (fun c => field_eqb f (rt_fld c)) (letters l) then Some (rt_val a y mo d w doy f) else dots0 f.
Proof.
  intros R _ MB. unfold parse_found. apply (found_values sl txt rt_fld (rt_val a y mo d w doy) (found txt l) (letters l) dots0).
  intros c st I. apply step_ok; [apply (readable_in l c R I)|]. intros ->. apply MB, I.
Qed.
End Texts.

(** What strftime prints for such formats. *)
Lemma print_rt rnd m a zi y mo d : Nearest rnd -> evening rnd m -> naw_ruz_order rnd m -> printable rnd m a zi y mo d ->
  exists w, weekday rnd m (dt_d a) = Ok w /\ 0 <= w <= 6 /\ forall lo l, Forall readable l -> l <> [] -> faithful_format (f_as_literal l) ->
    dt_strftime rnd m lo a zi (format_text l) = Ok (printed (rt_txt a y mo d w (bday_of_year (leap_of rnd m y) mo d)) l).
Proof.
  intros N E O P.
  destruct (printable_struct rnd m a zi y mo d N E O P) as (s & w & _ & W & WR & GY & MO & MDD & SH & MI & SS & WD & YD & _ & _ & _ & X).
  destruct P as (SU & (C & _) & _). destruct (sup_ok rnd m (dt_d a) y mo d N E SU) as (DN & K & YL). pose proof K as (KY & KM & KD). pose proof (ok_small y mo d K) as (_ & DS).
  set (doy := bday_of_year (leap_of rnd m y) mo d) in *.
  assert (DR : 1 <= doy <= 366) by (pose proof (doy_range (leap_of rnd m y) mo d KM) as Q; unfold doy; rewrite (leap_of_ok rnd N m E) in * by lia; specialize (Q KD); destruct (zleap y); lia).
  unfold valid_clock in C. exists w. split; [exact W|]. split; [exact WR|]. intros lo l R LN F.
  rewrite X. apply print_pieces; try assumption; [apply (Forall_impl _ readable_plain R)|reflexivity|lia|]. intros c I NF. pose proof (readable_in l c R I) as J. clear I. 
  twelve J; unfold rt_txt; cbn [Z.eqb Pos.eqb].
  - change (directive rnd m lo s 89 0) with (@Ok text (f_G s)). unfold f_G. rewrite GY, year_minus by lia. reflexivity.
  - change (directive rnd m lo s 109 0) with (@Ok text (f_m s 0)). unfold f_m. cbn [Z.eqb]. rewrite MO, two by lia. reflexivity.
  - change (directive rnd m lo s 66 0) with (f_B s). unfold f_B. rewrite MO. destruct (name_month MONTHNAMES mo eq_refl KM) as (t & T1 & T2). rewrite T1, (nth_of _ _ _ _ T2). reflexivity.
  - change (directive rnd m lo s 98 0) with (f_b s). unfold f_b. rewrite MO. destruct (name_month MONTHNAMES_ABV mo eq_refl KM) as (t & T1 & T2). rewrite T1, (nth_of _ _ _ _ T2). reflexivity.
  - change (directive rnd m lo s 100 0) with (@Ok text (f_d s false 0)). unfold f_d. cbn [Z.eqb]. rewrite MDD, two by lia. reflexivity.
  - change (directive rnd m lo s 72 0) with (@Ok text (f_H s 0)). unfold f_H. cbn [Z.eqb]. rewrite SH, two by lia. reflexivity.
  - change (directive rnd m lo s 77 0) with (@Ok text (f_M s 0)). unfold f_M. cbn [Z.eqb]. rewrite MI, two by lia. reflexivity.
  - change (directive rnd m lo s 83 0) with (@Ok text (f_S s 0)). unfold f_S. cbn [Z.eqb]. rewrite SS, two by lia. reflexivity.
  - congruence.
  - change (directive rnd m lo s 65 0) with (f_A s). unfold f_A. rewrite WD. destruct (name_day DAYNAMES w eq_refl WR) as (t & T1 & T2). rewrite T1, (nth_of _ _ _ _ T2). reflexivity.
  - change (directive rnd m lo s 97 0) with (f_a s). unfold f_a. rewrite WD. destruct (name_day DAYNAMES_ABV w eq_refl WR) as (t & T1 & T2). rewrite T1, (nth_of _ _ _ _ T2). reflexivity.
  - change (directive rnd m lo s 106 0) with (@Ok text (f_j s 0)). unfold f_j. cbn [Z.eqb]. rewrite YD, fmt0_columns; [reflexivity|lia|]. change (10 ^ Z.of_nat 3) with 1000. lia.
Qed.
(** C66: whatever list of literals and directives a format is made of, provided it determines a date (a year, and the day of the
    year or a month and a day) and repeats no directive, strptime applied to what strftime printed gives back exactly that date and the
    printed part of the clock.  The hypotheses name the known defects: literals after a mark are lost by strftime, hour 24 and the
    ambiguous abbreviation of month 15 are not readable, and the days that no ordinal reaches, and those of the three years with wrong ordinals, cannot be read from a day of the year. *)
Theorem C66_roundtrip : forall rnd m lo sl zid a zi y mo d l, Nearest rnd -> evening rnd m -> naw_ruz_order rnd m -> printable rnd m a zi y mo d -> std sl ->
  Forall readable l -> NoDup (letters l) -> faithful_format (f_as_literal l) ->
  has l "Y" = true -> has l "j" = true \/ (has l "mBb" = true /\ has l "d" = true) ->
  (has l "H" = true -> dt_h a <= 23) -> (has l "b" = true -> mo <> 15) ->
  (has l "j" = true -> (y <= 1160 \/ (mo = 1 /\ d = 1)) /\ ~ In (y, mo, d) refused_bdates /\ ~ In y stale_years) ->
  exists t, dt_strftime rnd m lo a zi (format_text l) = Ok t /\
    strptime rnd m sl zid t (format_text l) =
    Ok {| dt_d := DShort y mo d; dt_h := if has l "H" then dt_h a else 0; dt_mi := if has l "M" then dt_mi a else 0; dt_s := if has l "S" then dt_s a else 0;
          dt_us := if has l "f" then dt_us a else 0; dt_tz := None; dt_fold := 0 |}.
Proof.
  intros rnd m lo sl zid a zi y mo d l N E O P SL R ND F HY HJ HH HB HR.
  destruct (print_rt rnd m a zi y mo d N E O P) as (w & W & WR & PR).
  destruct P as (SU & (C & _) & _). destruct (sup_ok rnd m (dt_d a) y mo d N E SU) as (DN & K & YL). pose proof K as (KY & KM & KD). pose proof (ok_small y mo d K) as (_ & DS).
  set (doy := bday_of_year (leap_of rnd m y) mo d) in *.
  assert (DR : 1 <= doy <= 366) by (pose proof (doy_range (leap_of rnd m y) mo d KM) as Q; unfold doy; rewrite (leap_of_ok rnd N m E) in * by lia; specialize (Q KD); destruct (zleap y); lia).
  assert (DY : -9999 <= y <= 9999) by lia. assert (DD : 1 <= d <= 19) by lia. pose proof C as C'. unfold valid_clock in C'.
  set (txt := rt_txt a y mo d w doy).
  assert (LN : l <> []) by (intros ->; discriminate).
  assert (I72 : In 72 (letters l) -> dt_h a <= 23) by (intro I; apply HH, has_in; exists 72; split; [exact I|left; reflexivity]).
  assert (I98 : In 98 (letters l) -> mo <> 15) by (intro I; apply HB, has_in; exists 98; split; [exact I|left; reflexivity]).
  exists (printed txt l). split.
  - apply PR; assumption.
  - unfold strptime, start. rewrite (find_pieces sl txt l); [|apply (Forall_impl _ (known_ok sl SL) R)|apply reads_ok; assumption|exact ND].
    cbn [bind]. destruct (set_fields sl a y mo d w doy SL DY KM DD WR DR C l R ND I98) as (st & PF & ST). fold txt in PF. rewrite PF. cbn [bind].
    assert (AB : forall f, (forall c, In c (str "YmBbdHMSfAaj") -> field_eqb f (rt_fld c) = false) -> st f = dots0 f).
    { intros f H. rewrite ST. destruct (existsb _ _) eqn:Q; [|reflexivity]. apply existsb_exists in Q as (c & I & Q). rewrite H in Q by (apply (readable_in l c R I)). discriminate. }
    assert (HAS : forall f cs, (forall c, In c (str "YmBbdHMSfAaj") -> field_eqb f (rt_fld c) = existsb (Z.eqb c) (str cs)) -> st f = if has l cs then Some (rt_val a y mo d w doy f) else dots0 f).
    { intros f cs H. rewrite ST. enough (QE : existsb (fun c => field_eqb f (rt_fld c)) (letters l) = has l cs) by (rewrite QE; reflexivity). unfold has. clear - R H. assert (Q : forall c, In c (letters l) -> In c (str "YmBbdHMSfAaj")) by (intros c I; apply (readable_in l c R I)).
      induction (letters l) as [|c r IH]; [reflexivity|]. cbn [existsb]. rewrite IH by (intros x I; apply Q; right; exact I). rewrite (H c (Q c (or_introl eq_refl))). reflexivity. }
    assert (S1 : st IsoYear = None) by (rewrite AB; [reflexivity|]; intros c I; twelve I; reflexivity).
    assert (S2 : st IsoWeek = None) by (rewrite AB; [reflexivity|]; intros c I; twelve I; reflexivity).
    assert (S3 : st WeekOfYear = None) by (rewrite AB; [reflexivity|]; intros c I; twelve I; reflexivity).
    assert (S4 : st Gmtoff = None) by (rewrite AB; [reflexivity|]; intros c I; twelve I; reflexivity).
    assert (SY : st Year = Some y) by (rewrite (HAS Year "Y"%string), HY; [reflexivity|]; intros c I; twelve I; reflexivity).
    assert (SJ : st Julian = if has l "j" then Some doy else None) by (rewrite (HAS Julian "j"%string); [reflexivity|]; intros c I; twelve I; reflexivity).
    assert (SM : st Month = if has l "mBb" then Some mo else Some 1) by (rewrite (HAS Month "mBb"%string); [reflexivity|]; intros c I; twelve I; reflexivity).
    assert (SD : st Day = if has l "d" then Some d else Some 1) by (rewrite (HAS Day "d"%string); [reflexivity|]; intros c I; twelve I; reflexivity).
    assert (Sh : st Hour = if has l "H" then Some (dt_h a) else Some 0) by (rewrite (HAS Hour "H"%string); [reflexivity|]; intros c I; twelve I; reflexivity).
    assert (Sm : st Minute = if has l "M" then Some (dt_mi a) else Some 0) by (rewrite (HAS Minute "M"%string); [reflexivity|]; intros c I; twelve I; reflexivity).
    assert (Ss : st Second = if has l "S" then Some (dt_s a) else Some 0) by (rewrite (HAS Second "S"%string); [reflexivity|]; intros c I; twelve I; reflexivity).
    assert (Sf : st Fraction = if has l "f" then Some (dt_us a) else Some 0) by (rewrite (HAS Fraction "f"%string); [reflexivity|]; intros c I; twelve I; reflexivity).
    unfold check_iso_week. rewrite S1, S2. cbn [bind].
    destruct (misc_ok rnd N m E O st y mo d K YL SY S1 S3) as (w' & j & MS).
    { rewrite SJ. destruct (has l "j"); [right; split; [reflexivity|apply HR; reflexivity]|]. destruct HJ as [?|(H1 & H2)]; [discriminate|]. left. rewrite SM, SD, H1, H2. tauto. }
    rewrite MS. cbn [bind]. rewrite S4. cbn [bind]. rewrite Sh, Sm, Ss, Sf. rewrite dt_new_eq, (new_short rnd N m E y mo d K).
    assert (CK : clock_ok (dflt1 (if has l "H" then Some (dt_h a) else Some 0)) (dflt1 (if has l "M" then Some (dt_mi a) else Some 0)) (dflt1 (if has l "S" then Some (dt_s a) else Some 0)) (dflt1 (if has l "f" then Some (dt_us a) else Some 0)) = true).
    { apply clock_ok_spec. destruct C' as (? & ? & ? & ?). unfold valid_clock. destruct (has l "H"), (has l "M"), (has l "S"), (has l "f"); cbn [dflt1]; lia. }
    rewrite CK. cbn [andb Z.eqb orb]. destruct (has l "H"), (has l "M"), (has l "S"), (has l "f"); reflexivity.
Qed.
Print Assumptions C66_roundtrip.

(** A date and a clock by names and numbers, and by the day of the year; hypotheses and conclusion on the computer's own floats. *)
Definition sample_sloc : sloc := {| sl_A := map lower_text DAYNAMES; sl_a := map lower_text DAYNAMES_ABV; sl_B := map lower_text MONTHNAMES; sl_b := map lower_text MONTHNAMES_ABV;
  sl_p := [str "am"; str "pm"]; sl_Z := ([str "utc"; str "gmt"; str "est"], [str "edt"]); sl_c := str "%a %b %d %H:%M:%S %Y"; sl_x := str "%m/%d/%Y"; sl_X := str "%H:%M:%S" |}.
Definition fmt_names : list piece := [D 65; L 44; L 32; D 100; L 32; D 66; L 32; D 89; L 32; D 72; L 58; D 77; L 58; D 83; L 46; D 102].
Definition fmt_doy : list piece := [D 89; L 47; D 106; L 32; D 72].
Lemma nodup_check (l : list Z) : no_dup l = true -> NoDup l.
Proof.
  induction l as [|x l IH]; [constructor|]. cbn [no_dup]. intro H. apply andb_true_iff in H as [H1 H2]. constructor; [|apply IH, H2]. intro I. apply in_mem in I. rewrite I in H1. discriminate.
Qed.
Example C66_case : forall rnd, Nearest rnd ->
  printable rnd sample_sun (before_noon 11) None (-1797) 19 18 /\ std sample_sloc /\ Forall readable fmt_names /\ NoDup (letters fmt_names) /\ faithful_format (f_as_literal fmt_names) /\
  Forall readable fmt_doy /\ NoDup (letters fmt_doy) /\ faithful_format (f_as_literal fmt_doy) /\ ~ In (-1797, 19, 18) refused_bdates /\ ~ In (-1797) stale_years /\
  dt_strftime b64 sample_sun sample_locale (before_noon 11) None (format_text fmt_names) = Ok (u "Kamál, 18 'Alá' -1797 11:55:00.000042") /\
  strptime b64 sample_sun sample_sloc 0 (u "Kamál, 18 'Alá' -1797 11:55:00.000042") (format_text fmt_names) = Ok (before_noon 11) /\
  strptime b64 sample_sun sample_sloc 0 (u "-1797/365 11") (format_text fmt_doy) = Ok {| dt_d := DShort (-1797) 19 18; dt_h := 11; dt_mi := 0; dt_s := 0; dt_us := 0; dt_tz := None; dt_fold := 0 |}.
Proof.
  intros rnd N. split; [split; [sup|split; [split; [cbn; unfold valid_clock; lia|split; [left; reflexivity|intros o OO; discriminate]]|split; [reflexivity|left; reflexivity]]]|].
  split; [repeat split|]. split; [repeat (constructor; [first [apply in_mem; reflexivity|discriminate]|]); constructor|]. split; [apply nodup_check; reflexivity|]. split; [cbn; tauto|].
  split; [repeat (constructor; [first [apply in_mem; reflexivity|discriminate]|]); constructor|]. split; [apply nodup_check; reflexivity|]. split; [cbn; tauto|].
  split; [cbn; intuition discriminate|]. split; [cbn; intuition discriminate|]. split; [vm_compute; reflexivity|]. split; vm_compute; reflexivity.
Qed.
