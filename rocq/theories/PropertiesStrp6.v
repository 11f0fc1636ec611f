(** PropertiesStrp6.v -- C74: offsets; C75: the clock of twelve hours. *)
From Coq Require Import ZArith QArith Qround Qabs List Bool Lia Lqa String.
From Coq Require Import ZifyBool ZifyNat ZifyN.
From Verif Require Import Base Flt QUtil BaseModel MiscModel BadiModel BaseProofs SunProofs SpecBadi BadiProofs BadiProofs2 BadiProofs3 DecProofs BadiProofs4 LongYear LongProofs BadiProofs5 MeeusFloat
  ClockProofs3 ClockProofs4 TduModel DateModel SpecDate TduProofs TduProofs2 TduProofs3 DateProofs SampleSun PropertiesBadi PropertiesDate PropertiesDate2
  TimeModel SpecTime TimeProofs PropertiesTime PropertiesDt TextModel SpecText TextProofs PropertiesText StrfModel SpecStrf StrfProofs PropertiesStrf PropertiesStrf2 PropertiesStrf3 PropertiesStrf4 PropertiesStrf5
  SpecStrp StrpModel StrpProofs PropertiesStrp PropertiesStrp2 PropertiesStrp3 PropertiesStrp4.
Import ListNotations.
Local Open Scope Z_scope.
Ltac Zify.zify_post_hook ::= Z.div_mod_to_equations.

(** ** C74: offsets *)
Lemma first_dg c s : is_digit c = true -> first dg (c :: s) = Some ([], s).
Proof. intro H. unfold first. cbn. rewrite H. reflexivity. Qed.
Lemma first_class p c s : p c = true -> first (RC p) (c :: s) = Some ([], s).
Proof. intro H. unfold first. cbn. rewrite H. reflexivity. Qed.
Lemma digit_58 c : is_digit c = true -> (lower c =? lower 58) = false.
Proof.
  intro H. unfold is_digit in H. unfold lower. replace ((65 <=? c) && (c <=? 90)) with false by lia. replace (192 <=? c) with false by lia. replace (c =? 256) with false by lia. replace (7680 <=? c) with false by lia. cbn [andb]. cbn. lia.
Qed.
Lemma opt_colon x c s : is_digit c = true -> first (opt (one 58)) (colon x ++ c :: s) = Some ([], c :: s).
Proof.
  intro H. destruct x; [reflexivity|]. apply first_alt2; [|reflexivity]. cbn [colon app rmatch one]. rewrite (digit_58 c H). reflexivity.
Qed.
Lemma tens z : 0 <= z < 60 -> (fun c => (48 <=? c) && (c <=? 53)) (48 + z / 10 mod 10) = true.
Proof. intro H. cbv beta. lia. Qed.
Lemma unit10 z : is_digit (48 + z mod 10) = true.
Proof. unfold is_digit. lia. Qed.
Lemma col2 z : columns 2 z = [48 + z / 10 mod 10; 48 + z mod 10].
Proof. unfold columns. cbn [rev seq map app]. change (10 ^ Z.of_nat 1) with 10. change (10 ^ Z.of_nat 0) with 1. rewrite Z.div_1_r. reflexivity. Qed.
Definition z_tail : rx := opt (seqs [opt (one 58); rng 48 53; dg; opt (seqs [one 46; upto 6])]).
Lemma first_z sl x o : Z.abs o < 86400000000 -> first (inner sl 122) (offset_form x o) = Some ([], []).
Proof.
  intro H. change (inner sl 122) with (RAlt (seqs [RC (fun x => (x =? 43) || (x =? 45)); dg; dg; opt (one 58); rng 48 53; dg; z_tail]) (RC (fun x => x =? 90))). apply first_alt.
  unfold offset_form. set (a := Z.abs o) in *. cbv zeta.
  set (tl := if a mod 60000000 =? 0 then [] else _).
  assert (TL : first z_tail tl = Some ([], [])).
  { unfold tl. destruct (a mod 60000000 =? 0); [reflexivity|]. apply first_alt. rewrite col2. cbn [app]. set (t2 := if a mod 1000000 =? 0 then [] else _).
    change (seqs [opt (one 58); rng 48 53; dg; opt (seqs [one 46; upto 6])]) with (RSeq (opt (one 58)) (RSeq (rng 48 53) (RSeq dg (opt (seqs [one 46; upto 6]))))).
    eapply (first_seq _ _ _ [] _ []); [apply opt_colon; unfold is_digit; lia|]. eapply (first_seq _ _ _ [] _ []); [apply first_class, tens; lia|]. eapply (first_seq _ _ _ [] _ []); [apply first_dg, unit10|].
    unfold t2. destruct (a mod 1000000 =? 0); [reflexivity|]. apply first_alt. change (seqs [one 46; upto 6]) with (RSeq (one 46) (upto 6)). eapply (first_seq _ _ _ [] _ []); [apply one_self|].
    rewrite <- (app_nil_r (columns 6 _)). apply (first_upto 5); [apply columns_digits|apply columns_len]. }
  rewrite !col2. cbn [seqs app].
  assert (SG : (if o <? 0 then str "-" else str "+") = [if o <? 0 then 45 else 43]) by (destruct (o <? 0); reflexivity). rewrite SG. cbn [app].
  eapply (first_seq _ _ _ [] _ []); [apply first_class; destruct (o <? 0); reflexivity|]. eapply (first_seq _ _ _ [] _ []); [apply first_dg; unfold is_digit; lia|]. eapply (first_seq _ _ _ [] _ []); [apply first_dg, unit10|].
  eapply (first_seq _ _ _ [] _ []); [apply opt_colon; unfold is_digit; lia|]. eapply (first_seq _ _ _ [] _ []); [apply first_class, tens; lia|]. eapply (first_seq _ _ _ [] _ []); [apply first_dg, unit10|]. exact TL.
Qed.
Lemma z_value x o : Z.abs o < 86400000000 -> exists s f, parse_z (offset_form x o) = Ok (s, f) /\ s * 1000000 + f = o.
Proof.
  intro H. set (a := Z.abs o). assert (P2 : forall z, 0 <= z < 100 -> pyint (columns 2 z) = Ok z) by (intros z Z0; apply pyint_columns; [lia|change (10 ^ Z.of_nat 2) with 100; lia]).
  assert (D58 : forall z, (48 + z mod 10 =? 58) = false) by (intro z; lia).
  assert (A : exists s f, parse_z (offset_form x o) = Ok (if o <? 0 then (- s, - f) else (s, f)) /\ s * 1000000 + f = a).
  { exists (a / 3600000000 * 60 * 60 + a / 60000000 mod 60 * 60 + a / 1000000 mod 60), (a mod 1000000). split; [|lia].
    unfold parse_z. destruct (list_eq_dec _ _ _) as [Q|_].
    { exfalso. apply (f_equal (@List.length Z)) in Q. unfold offset_form in Q. fold a in Q. cbv zeta in Q. rewrite !col2 in Q. destruct (o <? 0), x; cbn in Q; lia. }
    unfold offset_form. fold a. cbv zeta. assert (SG : (if o <? 0 then str "-" else str "+") = [if o <? 0 then 45 else 43]) by (destruct (o <? 0); reflexivity). rewrite SG.
    assert (R : forall t, (t = [] /\ a / 1000000 mod 60 = 0 /\ a mod 1000000 = 0) \/ (t = columns 2 (a / 1000000 mod 60) /\ a mod 1000000 = 0) \/ t = columns 2 (a / 1000000 mod 60) ++ str "." ++ columns 6 (a mod 1000000) ->
      let z' := [if o <? 0 then 45 else 43] ++ columns 2 (a / 3600000000) ++ columns 2 (a / 60000000 mod 60) ++ t in
      (let* h := pyint (slice 1 3 z') in let* mi := pyint (slice 3 5 z') in let* s := match slice 5 7 z' with [] => Ok 0 | t0 => pyint t0 end in
       let* fr := pyint (skipn 8 z' ++ zeros (6 - List.length (skipn 8 z'))) in
       Ok match z' with c :: _ => if c =? 45 then (- (h * 60 * 60 + mi * 60 + s), - fr) else (h * 60 * 60 + mi * 60 + s, fr) | [] => (h * 60 * 60 + mi * 60 + s, fr) end) =
      Ok (if o <? 0 then (- (a / 3600000000 * 60 * 60 + a / 60000000 mod 60 * 60 + a / 1000000 mod 60), - (a mod 1000000)) else (a / 3600000000 * 60 * 60 + a / 60000000 mod 60 * 60 + a / 1000000 mod 60, a mod 1000000))).
    { intros t T z'. change (slice 1 3 z') with (columns 2 (a / 3600000000)). change (slice 3 5 z') with (columns 2 (a / 60000000 mod 60)). rewrite !P2 by lia. cbn [bind].
      assert (SF : (match slice 5 7 z' with [] => Ok 0 | t0 => pyint t0 end) = Ok (a / 1000000 mod 60) /\ pyint (skipn 8 z' ++ zeros (6 - List.length (skipn 8 z'))) = Ok (a mod 1000000)).
      { unfold z'. destruct T as [(-> & S0 & F0)|[(-> & F0)| ->]].
        - rewrite S0, F0. split; reflexivity.
        - rewrite F0. split; [|reflexivity]. transitivity (pyint (columns 2 (a / 1000000 mod 60))); [reflexivity|apply P2; lia].
        - split; [transitivity (pyint (columns 2 (a / 1000000 mod 60))); [reflexivity|apply P2; lia]|]. transitivity (pyint (columns 6 (a mod 1000000) ++ [])); [reflexivity|]. rewrite app_nil_r. apply pyint_columns; [lia|change (10 ^ Z.of_nat 6) with 1000000; lia]. }
      destruct SF as (SF1 & SF2). rewrite SF1, SF2. cbn [bind]. unfold z'. cbn [app]. destruct (o <? 0); reflexivity. }
    destruct x; cbn [colon].
    - set (u := [if o <? 0 then 45 else 43] ++ columns 2 (a / 3600000000) ++ str ":" ++ columns 2 (a / 60000000 mod 60) ++ _).
      assert (N3 : (nth 3 u 0 =? 58) = true) by reflexivity. rewrite N3. unfold u.
      destruct (Z.eqb_spec (a mod 60000000) 0) as [A0|A0]; [|destruct (Z.eqb_spec (a mod 1000000) 0) as [B0|B0]].
      + apply (R []). left. split; [reflexivity|]. lia.
      + apply (R (columns 2 (a / 1000000 mod 60))). right. left. split; [reflexivity|exact B0].
      + apply (R (columns 2 (a / 1000000 mod 60) ++ str "." ++ columns 6 (a mod 1000000))). right. right. reflexivity.
    - set (u := [if o <? 0 then 45 else 43] ++ columns 2 (a / 3600000000) ++ [] ++ columns 2 (a / 60000000 mod 60) ++ _).
      assert (N3 : (nth 3 u 0 =? 58) = false) by (unfold u; rewrite !col2; cbn [app nth]; apply D58). rewrite N3. unfold u. cbn [bind].
      destruct (Z.eqb_spec (a mod 60000000) 0) as [A0|A0]; [|destruct (Z.eqb_spec (a mod 1000000) 0) as [B0|B0]].
      + apply (R []). left. split; [reflexivity|]. lia.
      + apply (R (columns 2 (a / 1000000 mod 60))). right. left. split; [reflexivity|exact B0].
      + apply (R (columns 2 (a / 1000000 mod 60) ++ str "." ++ columns 6 (a mod 1000000))). right. right. reflexivity. }
  destruct A as (s & f & -> & S). unfold a in S. destruct (Z.ltb_spec o 0); [exists (- s), (- f)|exists s, f]; (split; [reflexivity|lia]).
Qed.
Lemma loop_app lo g l1 l2 st : found_loop lo g (l1 ++ l2) st = let* st' := found_loop lo g l1 st in found_loop lo g l2 st'.
Proof. revert st. induction l1 as [|x l1 IH]; intro st; [reflexivity|]. cbn [app found_loop]. destruct (found_step lo g st x); [|reflexivity]. cbn [bind]. apply IH. Qed.
Lemma loop_groups lo g g' l st : ~ In 73 (map fst l) -> found_loop lo g l st = found_loop lo g' l st.
Proof.
  revert st. induction l as [|[c t] l IH]; intros st NI; [reflexivity|]. cbn [found_loop]. cbn [map fst In] in NI.
  assert (S : found_step lo g st (c, t) = found_step lo g' st (c, t)). { unfold found_step. destruct (Z.eqb_spec c 73) as [->|]; [tauto|reflexivity]. }
  rewrite S. destruct (found_step lo g' st (c, t)); [|reflexivity]. cbn [bind]. apply IH. tauto.
Qed.
Lemma not_readable l c : Forall readable l -> mem c (str "YmBbdHMSfAaj") = false -> ~ In c (letters l).
Proof. intros R M I. apply (readable_in l c R), in_mem in I. change (mem c (str "YmBbdHMSfAaj") = true) in I. congruence. Qed.
Definition set_tz (r : pdt) (tz : option tz) : pdt := {| dt_d := dt_d r; dt_h := dt_h r; dt_mi := dt_mi r; dt_s := dt_s r; dt_us := dt_us r; dt_tz := tz; dt_fold := dt_fold r |}.
Section ReadOffset.
Variable rnd : Q -> Q.
Variable m : Q -> Q -> Q -> Q.
Lemma offset_after sl zid a y mo d w doy l z s f : std sl -> -9999 <= y <= 9999 -> 0 <= mo <= 19 -> 1 <= d <= 19 -> 0 <= w <= 6 -> 1 <= doy <= 366 -> valid_clock (dt_h a) (dt_mi a) (dt_s a) (dt_us a) ->
  Forall readable l -> NoDup (letters l) -> (has l "H" = true -> dt_h a <= 23) -> (has l "b" = true -> mo <> 15) ->
  first (inner sl 122) z = Some ([], []) -> nosp z -> parse_z z = Ok (s, f) -> Z.abs (s * 1000000 + f) < 86400000000 ->
  let t := printed (rt_txt a y mo d w doy) l in
  strptime rnd m sl zid (t ++ z) (format_text (l ++ [D 122])) =
  match strptime rnd m sl zid t (format_text l) with Ok r => Ok (set_tz r (Some {| tz_id := zid; tz_off := Some (s * 1000000 + f) |})) | Err e => Err e end.
Proof.
  intros SL DY KM DD WR DR C R ND HH HB FZ NZ PZ OB t.
  destruct (read_rt sl a y mo d w doy l SL DY KM DD WR DR C R ND HH HB) as (st & FR & PF & S1 & S2 & S3 & S4 & SY & SJ & SM & SD & Sh & Sm & Ss & Sf). fold t in FR.
  set (txt := rt_txt a y mo d w doy) in *.
  assert (I72 : In 72 (letters l) -> dt_h a <= 23) by (intro I; apply HH, has_in; exists 72; split; [exact I|left; reflexivity]).
  assert (KN : Forall (known sl) (l ++ [D 122])). { apply Forall_app. split; [apply (Forall_impl _ (known_ok sl SL) R)|]. constructor; [|constructor]. split; [reflexivity|]. split; [reflexivity|]. exists (inner sl 122). split; reflexivity. }
  assert (LL : letters (l ++ [D 122]) = letters l ++ [122]) by (unfold letters; rewrite flat_map_app; reflexivity).
  assert (ND' : NoDup (letters (l ++ [D 122]))).
  { rewrite LL. apply nodup_check. pose proof (not_readable l 122 R eq_refl) as NI. pose proof (no_dup_ok _ ND) as NO. clear - NI NO. induction (letters l) as [|x r IH]; [reflexivity|]. cbn [app no_dup] in *. apply andb_true_iff in NO as [N1 N2]. rewrite IH; [|intro I; apply NI; right; exact I|exact N2].
    destruct (mem x (r ++ [122])) eqn:M; [|reflexivity]. apply in_mem, in_app_or in M as [M|[M|[]]]; [apply in_mem in M; change (mem x r = true) in M; rewrite M in N1; discriminate|]. exfalso. apply NI. left. congruence. }
  assert (FR' : find_regex sl (format_text (l ++ [D 122])) (t ++ z) = Ok (found txt l ++ [(122, z)])).
  { unfold find_regex, compile. rewrite (pattern_pieces sl _ KN false). cbn [bind]. rewrite (prx_groups sl _ KN), (no_dup_ok _ ND'). unfold run.
    assert (F2 : first (prx sl false [D 122]) z = Some ([(122, z)], [])).
    { change (prx sl false [D 122]) with (RSeq (RGrp 122 (inner sl 122)) REps). apply (first_seq _ _ _ [(122, z)] [] [] []); [|reflexivity].
      pose proof (first_grp 122 (inner sl 122) z [] []) as G. rewrite app_nil_r in G. apply G, FZ. }
    pose proof (proj1 (match_prefix sl txt l [D 122] z _ _ (reads_ok sl a y mo d w doy SL KM DD WR DR C l R I72) NZ F2 Logic.I)) as M. fold t in M. unfold first in M.
    destruct (rmatch _ _) as [|[g r'] rest]; [discriminate|]. cbn in M. injection M as -> ->. reflexivity. }
  unfold strptime, start. rewrite FR, FR'. cbn [bind]. rewrite PF. cbn [bind].
  assert (PF' : parse_found sl (found txt l ++ [(122, z)]) = Ok (put (put st Gmtoff s) GmtoffFraction f)).
  { unfold parse_found. rewrite loop_app, (loop_groups sl _ (found txt l)).
    2: { unfold found. rewrite map_map. cbn [fst]. rewrite map_id. apply (not_readable l 73 R eq_refl). }
    unfold parse_found in PF. rewrite PF. cbn [bind found_loop]. unfold found_step. cbn [Z.eqb Pos.eqb orb]. rewrite PZ. reflexivity. }
  rewrite PF'. cbn [bind]. set (st' := put (put st Gmtoff s) GmtoffFraction f).
  change (check_iso_week st') with (check_iso_week st). destruct (check_iso_week st); [|reflexivity]. cbn [bind].
  change (miscellaneous rnd m st') with (miscellaneous rnd m st). destruct (miscellaneous rnd m st) as [[[[[y1 mo1] d1] w1] j1]|]; [|reflexivity]. cbn [bind]. rewrite S4. cbn [bind].
  change (st' Gmtoff) with (Some s). change (st' GmtoffFraction) with (Some f). cbn [dflt1]. change DAY with 86400000000. replace ((- (86400000000 - 1) <=? s * 1000000 + f) && (s * 1000000 + f <=? 86400000000 - 1)) with true by lia. cbn [bind].
  change (st' Hour) with (st Hour). change (st' Minute) with (st Minute). change (st' Second) with (st Second). change (st' Fraction) with (st Fraction).
  rewrite !dt_new_eq. destruct (_ && _); [|destruct (date_new rnd m _); reflexivity]. destruct (date_new rnd m [y1; mo1; d1]); reflexivity.
Qed.
End ReadOffset.
(** C74: if a text is what strftime printed with a readable format, then the text followed by any offset of less than a day -- with or without
    colons, with seconds and microseconds if needed -- is read by the format followed by %z as the same datetime at that offset. *)
Theorem C74_offset_read : forall rnd m lo sl zid a zi y mo d l t r x o, Nearest rnd -> evening rnd m -> naw_ruz_order rnd m -> printable rnd m a zi y mo d -> std sl ->
  Forall readable l -> l <> [] -> NoDup (letters l) -> faithful_format (f_as_literal l) -> (has l "H" = true -> dt_h a <= 23) -> (has l "b" = true -> mo <> 15) ->
  dt_strftime rnd m lo a zi (format_text l) = Ok t -> strptime rnd m sl zid t (format_text l) = Ok r -> -86400000000 < o < 86400000000 ->
  strptime rnd m sl zid (t ++ offset_form x o) (format_text l ++ str "%z") =
  Ok {| dt_d := dt_d r; dt_h := dt_h r; dt_mi := dt_mi r; dt_s := dt_s r; dt_us := dt_us r; dt_tz := Some {| tz_id := zid; tz_off := Some o |}; dt_fold := 0 |}.
Proof.
  intros rnd m lo sl zid a zi y mo d l t r x o N E O P SL R LN ND F HH HB PT RT OB.
  destruct (print_rt rnd m a zi y mo d N E O P) as (w & W & WR & PR). rewrite (PR lo l R LN F) in PT. injection PT as <-.
  destruct P as (SU & (C & _) & _). destruct (sup_ok rnd m (dt_d a) y mo d N E SU) as (DN & K & YL). pose proof K as (KY & KM & KD). pose proof (ok_small y mo d K) as (_ & DS).
  set (doy := bday_of_year (leap_of rnd m y) mo d) in *.
  assert (DR : 1 <= doy <= 366) by (pose proof (doy_range (leap_of rnd m y) mo d KM) as Q; unfold doy; rewrite (leap_of_ok rnd N m E) in * by lia; specialize (Q KD); destruct (zleap y); lia).
  destruct (z_value x o ltac:(lia)) as (s & f & PZ & SF).
  assert (NZ : nosp (offset_form x o)) by (unfold offset_form; destruct (o <? 0); reflexivity).
  pose proof (offset_after rnd m sl zid a y mo d w doy l (offset_form x o) s f SL ltac:(lia) KM ltac:(lia) WR DR C R ND HH HB (first_z sl x o ltac:(lia)) NZ PZ ltac:(lia)) as A. cbv zeta in A. rewrite RT, SF in A.
  assert (FA : format_text (l ++ [D 122]) = format_text l ++ str "%z") by (unfold format_text; rewrite flat_map_app; reflexivity). rewrite FA in A. rewrite A. unfold set_tz. 
  destruct (C67_result rnd m sl zid _ _ r N E RT) as (_ & _ & _ & _ & _ & _ & _ & _ & _ & FO & _). rewrite FO. reflexivity.
Qed.
Print Assumptions C74_offset_read.

(** ** strftime by parts *)
Lemma print_by_parts rnd m lo a zi y mo d txt l : Nearest rnd -> evening rnd m -> naw_ruz_order rnd m -> printable rnd m a zi y mo d ->
  Forall plainp l -> l <> [] -> faithful_format (f_as_literal l) -> (forall c, In c (letters l) -> c <> 102 -> dt_strftime rnd m lo a zi (str "%" ++ [c]) = Ok (txt c)) -> txt 102 = columns 6 (dt_us a) ->
  dt_strftime rnd m lo a zi (format_text l) = Ok (printed txt l).
Proof.
  intros N E O P PL LN F T T6. destruct (printable_struct rnd m a zi y mo d N E O P) as (s & w & _ & W & WR & GY & MO & MDD & SH & MI & SS & WD & YD & _ & _ & _ & X).
  destruct P as (_ & (C & _) & _). unfold valid_clock in C. rewrite X. apply print_pieces; try assumption; [lia|]. intros c I NC. etransitivity; [symmetry; apply (one_directive rnd m lo a zi s X c NC)|exact (T c I NC)].
  clear - PL I. induction PL as [|p l PP PL IH]; [destruct I|]. destruct p as [x|x|]; [apply IH, I| |destruct PP]. destruct I as [<-|I]; [exact PP|apply IH, I].
Qed.
Lemma print_one rnd m a zi y mo d : Nearest rnd -> evening rnd m -> naw_ruz_order rnd m -> printable rnd m a zi y mo d ->
  exists w, weekday rnd m (dt_d a) = Ok w /\ 0 <= w <= 6 /\ forall lo c, In c (str "YmBbdHMSfAaj") -> c <> 102 -> dt_strftime rnd m lo a zi (str "%" ++ [c]) = Ok (rt_txt a y mo d w (bday_of_year (leap_of rnd m y) mo d) c).
Proof.
  intros N E O P. destruct (print_rt rnd m a zi y mo d N E O P) as (w & W & WR & PR). exists w. split; [exact W|]. split; [exact WR|]. intros lo c I NC. specialize (PR lo [D c]). change (format_text [D c]) with (str "%" ++ [c]) in PR.
  rewrite PR; [unfold printed; cbn [flat_map ptext]; rewrite app_nil_r; reflexivity|constructor; [exact I|constructor]|discriminate|].
  rewrite fl_D by exact NC. split; exact Logic.I.
Qed.
Lemma unmarked_then p q c l : unmarked p l -> is_mark q = false -> unmarked q (l ++ [D c]).
Proof.
  revert p q. induction l as [|x l IH]; intros p q U Q; [split; exact Logic.I|]. destruct U as [U1 U2]. cbn [app unmarked]. split; [destruct x; [exact Q|exact Logic.I|exact Logic.I]|].
  clear - U2. revert U2. generalize (end_of x). clear. induction l as [|x l IH]; intros e U; [split; exact Logic.I|]. destruct U as [U1 U2]. split; [exact U1|apply IH, U2].
Qed.
Lemma faithful_then l c : faithful_format (f_as_literal l) -> is_mark c = false -> c <> 102 -> faithful_format (f_as_literal (l ++ [D c])).
Proof.
  intros F M N. unfold faithful_format in *. assert (A : f_as_literal (l ++ [D c]) = f_as_literal l ++ [D c]) by (unfold f_as_literal; rewrite map_app; f_equal; apply (fl_D c []), N).
  rewrite A, map_app. cbn [map end_of]. rewrite last_last. eapply unmarked_then; [exact F|exact M].
Qed.
(** C74: an aware datetime with an offset of whole hours other than zero survives the round trip with %z at the end. *)
Theorem C74_hours_roundtrip : forall rnd m lo sl zid a zi y mo d l k, Nearest rnd -> evening rnd m -> naw_ruz_order rnd m -> printable rnd m a zi y mo d -> std sl ->
  offset (dt_tz a) = Some (3600000000 * k) -> k <> 0 ->
  Forall readable l -> l <> [] -> NoDup (letters l) -> faithful_format (f_as_literal l) ->
  has l "Y" = true -> has l "j" = true \/ (has l "mBb" = true /\ has l "d" = true) ->
  (has l "H" = true -> dt_h a <= 23) -> (has l "b" = true -> mo <> 15) ->
  (has l "j" = true -> (y <= 1160 \/ (mo = 1 /\ d = 1)) /\ ~ In (y, mo, d) refused_bdates /\ ~ In y stale_years) ->
  exists t, dt_strftime rnd m lo a zi (format_text l ++ str "%z") = Ok t /\
    strptime rnd m sl zid t (format_text l ++ str "%z") =
    Ok {| dt_d := DShort y mo d; dt_h := if has l "H" then dt_h a else 0; dt_mi := if has l "M" then dt_mi a else 0; dt_s := if has l "S" then dt_s a else 0;
          dt_us := if has l "f" then dt_us a else 0; dt_tz := Some {| tz_id := zid; tz_off := Some (3600000000 * k) |}; dt_fold := 0 |}.
Proof.
  intros rnd m lo sl zid a zi y mo d l k N E O P SL OF K0 R LN ND F HY HJ HH HB HR.
  destruct (C66_roundtrip rnd m lo sl zid a zi y mo d l N E O P SL R ND F HY HJ HH HB HR) as (t & PT & RT).
  pose proof P as (_ & (_ & _ & GO) & _). specialize (GO _ OF).
  pose proof (C74_offset_read rnd m lo sl zid a zi y mo d l t _ false (3600000000 * k) N E O P SL R LN ND F HH HB PT RT ltac:(lia)) as Z1. cbn [dt_d dt_h dt_mi dt_s dt_us] in Z1.
  exists (t ++ offset_form false (3600000000 * k)). split; [|exact Z1].
  destruct (C35_whole_hours rnd m lo a zi y mo d k N E O P OF K0) as (Z2 & _).
  assert (MT : minutes_text [] (60 * k) = offset_form false (3600000000 * k)).
  { unfold minutes_text, offset_form. cbv zeta. replace (Z.abs (3600000000 * k) / 3600000000) with (Z.abs (60 * k) / 60) by lia. replace (Z.abs (3600000000 * k) / 60000000 mod 60) with (Z.abs (60 * k) mod 60) by lia.
    replace (Z.abs (3600000000 * k) mod 60000000 =? 0) with true by lia. replace (3600000000 * k <? 0) with (60 * k <? 0) by lia. cbn [colon]. rewrite app_nil_r. destruct (60 * k <? 0); reflexivity. }
  rewrite MT in Z2. destruct (print_rt rnd m a zi y mo d N E O P) as (w & W & WR & PR). destruct (print_one rnd m a zi y mo d N E O P) as (w' & W' & _ & PO). assert (w' = w) by congruence. subst w'.
  rewrite (PR lo l R LN F) in PT. injection PT as <-. set (doy := bday_of_year (leap_of rnd m y) mo d) in *.
  set (txt := fun c => if c =? 122 then offset_form false (3600000000 * k) else rt_txt a y mo d w doy c).
  assert (PP : printed (rt_txt a y mo d w doy) l ++ offset_form false (3600000000 * k) = printed txt (l ++ [D 122])).
  { unfold printed. rewrite flat_map_app. cbn [flat_map ptext]. rewrite app_nil_r. change (txt 122) with (offset_form false (3600000000 * k)). f_equal. clear - R. induction R as [|p l PR R IH]; [reflexivity|]. cbn [flat_map]. f_equal; [|exact IH]. destruct p as [c|c|]; [reflexivity| |reflexivity].
    cbn [ptext]. unfold txt. destruct (Z.eqb_spec c 122) as [->|]; [exfalso; apply in_mem in PR; discriminate|reflexivity]. }
  rewrite PP. assert (FA : format_text l ++ str "%z" = format_text (l ++ [D 122])) by (unfold format_text; rewrite flat_map_app; reflexivity). rewrite FA.
  apply (print_by_parts rnd m lo a zi y mo d); try assumption.
  - apply Forall_app. split; [apply (Forall_impl _ readable_plain R)|]. constructor; [apply in_mem; reflexivity|constructor].
  - destruct l; discriminate.
  - apply faithful_then; [exact F|reflexivity|discriminate].
  - intros c I NC. unfold letters in I. rewrite flat_map_app in I. apply in_app_or in I as [I|[<-|[]]]; [|exact Z2]. fold (letters l) in I. pose proof (readable_in l c R I) as RI.
    etransitivity; [apply PO; assumption|]. unfold txt. destruct (Z.eqb_spec c 122) as [->|]; [exfalso; apply in_mem in RI; discriminate|reflexivity].
  - reflexivity.
Qed.
Print Assumptions C74_hours_roundtrip.
(** Z is the offset zero. *)
Theorem C74_capital_z : forall rnd m lo sl zid a zi y mo d l t r, Nearest rnd -> evening rnd m -> naw_ruz_order rnd m -> printable rnd m a zi y mo d -> std sl ->
  Forall readable l -> l <> [] -> NoDup (letters l) -> faithful_format (f_as_literal l) -> (has l "H" = true -> dt_h a <= 23) -> (has l "b" = true -> mo <> 15) ->
  dt_strftime rnd m lo a zi (format_text l) = Ok t -> strptime rnd m sl zid t (format_text l) = Ok r ->
  strptime rnd m sl zid (t ++ str "Z") (format_text l ++ str "%z") =
  Ok {| dt_d := dt_d r; dt_h := dt_h r; dt_mi := dt_mi r; dt_s := dt_s r; dt_us := dt_us r; dt_tz := Some {| tz_id := zid; tz_off := Some 0 |}; dt_fold := 0 |}.
Proof.
  intros rnd m lo sl zid a zi y mo d l t r N E O P SL R LN ND F HH HB PT RT.
  destruct (print_rt rnd m a zi y mo d N E O P) as (w & W & WR & PR). rewrite (PR lo l R LN F) in PT. injection PT as <-.
  destruct P as (SU & (C & _) & _). destruct (sup_ok rnd m (dt_d a) y mo d N E SU) as (DN & K & YL). pose proof K as (KY & KM & KD). pose proof (ok_small y mo d K) as (_ & DS).
  set (doy := bday_of_year (leap_of rnd m y) mo d) in *.
  assert (DR : 1 <= doy <= 366) by (pose proof (doy_range (leap_of rnd m y) mo d KM) as Q; unfold doy; rewrite (leap_of_ok rnd N m E) in * by lia; specialize (Q KD); destruct (zleap y); lia).
  pose proof (offset_after rnd m sl zid a y mo d w doy l (str "Z") 0 0 SL ltac:(lia) KM ltac:(lia) WR DR C R ND HH HB eq_refl eq_refl eq_refl ltac:(lia)) as A. cbv zeta in A. rewrite RT in A.
  assert (FA : format_text (l ++ [D 122]) = format_text l ++ str "%z") by (unfold format_text; rewrite flat_map_app; reflexivity). rewrite FA in A. rewrite A. unfold set_tz.
  destruct (C67_result rnd m sl zid _ _ r N E RT) as (_ & _ & _ & _ & _ & _ & _ & _ & _ & FO & _). rewrite FO. reflexivity.
Qed.
Print Assumptions C74_capital_z.
(** Refuted: the round trip of an aware datetime at offset zero.  strftime prints nothing for %z, and strptime does not read nothing. *)
Theorem C74_zero_refuted : forall rnd m lo sl zid a zi y mo d, Nearest rnd -> evening rnd m -> naw_ruz_order rnd m -> printable rnd m a zi y mo d -> offset (dt_tz a) = Some 0 -> dt_h a <= 23 ->
  exists t, dt_strftime rnd m lo a zi (str "%H%z") = Ok t /\ strptime rnd m sl zid t (str "%H%z") = Err ValueError.
Proof.
  intros rnd m lo sl zid a zi y mo d N E O P OF H23. exists (columns 2 (dt_h a)). split.
  - destruct (print_one rnd m a zi y mo d N E O P) as (w & _ & _ & PO). destruct (C35_zero_refuted rnd m lo a zi y mo d N E O P OF) as (Z0 & _).
    set (txt := fun c => if c =? 72 then columns 2 (dt_h a) else if c =? 102 then columns 6 (dt_us a) else []). assert (TE : columns 2 (dt_h a) = printed txt [D 72; D 122]) by reflexivity. rewrite TE.
    apply (print_by_parts rnd m lo a zi y mo d _ [D 72; D 122]); try assumption; [repeat (constructor; [apply in_mem; reflexivity|]); constructor|discriminate|cbn; tauto| |reflexivity].
    intros c [<-|[<-|[]]] _; [apply (PO lo 72); [apply in_mem; reflexivity|discriminate]|exact Z0].
  - destruct P as (_ & (C & _) & _). unfold valid_clock in C. unfold strptime, start.
    assert (FR : find_regex sl (str "%H%z") (columns 2 (dt_h a)) = Err ValueError); [|rewrite FR; reflexivity].
    apply (zmap (fun h => find_regex sl (str "%H%z") (columns 2 h)) _ 0 24); [vm_compute; reflexivity|lia].
Qed.
Print Assumptions C74_zero_refuted.
Definition fmt_date : list piece := [D 89; L 45; D 109; L 45; D 100; L 32; D 72].
Example C74_case : forall rnd, Nearest rnd ->
  printable rnd sample_sun (aware (-18000000000)) (zinfo_at (-18000000000)) 183 1 1 /\ offset (dt_tz (aware (-18000000000))) = Some (3600000000 * -5) /\
  Forall readable fmt_date /\ NoDup (letters fmt_date) /\ faithful_format (f_as_literal fmt_date) /\
  offset_form true (-19800000001) = str "-05:30:00.000001" /\ offset_form false 12600000000 = str "+0330" /\ offset_form false (-18000000000) = str "-0500".
Proof.
  intros rnd N. split; [apply aware_printable; [exact N|lia]|]. split; [reflexivity|]. split; [repeat (constructor; [first [apply in_mem; reflexivity|discriminate]|]); constructor|]. split; [apply nodup_check; reflexivity|].
  split; [cbn; tauto|]. repeat split.
Qed.
(** On the computer's own floats: the sample above, and an offset of minutes and seconds. *)
Example C74_values :
  strptime b64 sample_sun sample_sloc 7 (str "0183-01-01 12-0500") (format_text fmt_date ++ str "%z") = Ok (mk_dt 183 1 1 12 0 0 0 (Some {| tz_id := 7; tz_off := Some (-18000000000) |})) /\
  strptime b64 sample_sun sample_sloc 7 (str "0183-01-01 12-05:30:00.000001") (format_text fmt_date ++ str "%z") = Ok (mk_dt 183 1 1 12 0 0 0 (Some {| tz_id := 7; tz_off := Some (-19800000001) |})) /\
  strptime b64 sample_sun sample_sloc 7 (str "0183-01-01 12+2400") (format_text fmt_date ++ str "%z") = Err ValueError.
Proof. repeat split; vm_compute; reflexivity. Qed.
Print Assumptions C74_case. Print Assumptions C74_values.

(** ** C75: the clock of twelve hours *)
Definition readable12 (p : piece) : Prop := match p with L c => c <> 37 | D c => In c (str "YmBbdIpMSfAa") | DM _ _ => False end.
(** the texts of AM and PM that strftime prints and strptime knows, as in English *)
Definition english (lo : locale) (sl : sloc) : Prop := lo_am lo = str "AM" /\ lo_pm lo = str "PM" /\ sl_p sl = [str "am"; str "pm"].
Lemma in12 l c : Forall readable12 l -> In c (letters l) -> In c (str "YmBbdIpMSfAa").
Proof. induction 1 as [|p l P R IH]; [intros []|]. destruct p as [x|x|]; [exact IH| |destruct P]. intros [<-|I]; [exact P|apply IH, I]. Qed.
Lemma split12 c : In c (str "YmBbdIpMSfAa") -> c = 73 \/ c = 112 \/ (In c (str "YmBbdHMSfAaj") /\ c <> 72 /\ c <> 73 /\ c <> 112).
Proof.
  intro I. assert (X : forallb (fun c => (c =? 73) || (c =? 112) || (mem c (str "YmBbdHMSfAaj") && negb (c =? 72) && negb (c =? 73) && negb (c =? 112))) (str "YmBbdIpMSfAa") = true) by (vm_compute; reflexivity).
  rewrite forallb_forall in X. specialize (X c I). destruct (Z.eqb_spec c 73); [tauto|]. destruct (Z.eqb_spec c 112); [tauto|]. cbn [orb] in X. apply andb_true_iff in X as [X X3]. apply andb_true_iff in X as [X X2]. apply andb_true_iff in X as [X1 X4].
  right. right. split; [apply in_mem, X1|]. split; [lia|]. tauto.
Qed.
Lemma loop_skip lo g k l st : (forall st t, found_step lo g st (k, t) = Ok st) -> found_loop lo g l st = found_loop lo g (filter (fun x => negb (fst x =? k)) l) st.
Proof.
  intro S. revert st. induction l as [|[c t] l IH]; intro st; [reflexivity|]. cbn [found_loop filter fst]. destruct (Z.eqb_spec c k) as [->|].
  - rewrite S. cbn [bind negb]. apply IH.
  - cbn [negb found_loop]. destruct (found_step lo g st (c, t)); [|reflexivity]. cbn [bind]. apply IH.
Qed.
Lemma has_field ls U fld (tv : field -> Z) (st : dots) f cs : (forall c, In c ls -> In c U) -> (forall f, st f = if existsb (fun c => field_eqb f (fld c)) ls then Some (tv f) else dots0 f) ->
  forallb (fun c => Bool.eqb (field_eqb f (fld c)) (existsb (Z.eqb c) (str cs))) U = true -> st f = if existsb (fun x => existsb (Z.eqb x) (str cs)) ls then Some (tv f) else dots0 f.
Proof.
  intros I S F. rewrite S. enough (Q : existsb (fun c => field_eqb f (fld c)) ls = existsb (fun x => existsb (Z.eqb x) (str cs)) ls) by (rewrite Q; reflexivity). rewrite forallb_forall in F. clear - I F.
  induction ls as [|c r IH]; [reflexivity|]. cbn [existsb]. rewrite IH by (intros x X; apply I; right; exact X). specialize (F c (I c (or_introl eq_refl))). apply eqb_prop in F. rewrite F. reflexivity.
Qed.
Lemma get_found txt l c : In c (letters l) -> group_get (found txt l) c = Some (txt c).
Proof.
  unfold found. induction (letters l) as [|x r IH]; [intros []|]. intro I. cbn [map group_get]. destruct (Z.eqb_spec x c) as [->|]; [reflexivity|]. destruct I as [I|I]; [congruence|apply IH, I].
Qed.
(** C75: a clock printed as hour, minute, second with %I and %p is read back exactly in the hours 1..11 before and 13..23 after midday,
    in any format; year, month and day are those printed, or the defaults of C71. *)
Theorem C75_clock12 : forall rnd m lo sl zid a zi y mo d l p, Nearest rnd -> evening rnd m -> naw_ruz_order rnd m -> printable rnd m a zi y mo d -> std sl -> english lo sl ->
  Forall readable12 l -> NoDup (letters l) -> faithful_format (f_as_literal l) -> has l "I" = true -> has l "p" = true -> (has l "b" = true -> mo <> 15) ->
  dt_strftime rnd m lo a zi (str "%p") = Ok p -> (p = str "AM" /\ 1 <= dt_h a <= 11) \/ (p = str "PM" /\ 13 <= dt_h a <= 23) ->
  let mo' := if has l "mBb" then mo else 1 in
  let d' := if has l "d" then d else 1 in
  let y' := if has l "Y" then y else if (mo' =? 0) && (d' =? 5) then 1 else 2 in
  exists t, dt_strftime rnd m lo a zi (format_text l) = Ok t /\
    strptime rnd m sl zid t (format_text l) =
    Ok {| dt_d := DShort y' mo' d'; dt_h := dt_h a; dt_mi := if has l "M" then dt_mi a else 0; dt_s := if has l "S" then dt_s a else 0; dt_us := if has l "f" then dt_us a else 0; dt_tz := None; dt_fold := 0 |}.
Proof.
  intros rnd m lo sl zid a zi y mo d l p N E O P SL (EA & EP & ES) R ND F HI HP HB TP AP mo' d' y'.
  assert (HI' : In 73 (letters l)) by (apply has_in in HI as (x & I & [<-|[]]); exact I). assert (HP' : In 112 (letters l)) by (apply has_in in HP as (x & I & [<-|[]]); exact I).
  assert (LN : l <> []) by (intros ->; discriminate).
  destruct (print_one rnd m a zi y mo d N E O P) as (w & W & WR & PO).
  set (hh := if (dt_h a <=? 11) then dt_h a else dt_h a - 12).
  assert (TI : dt_strftime rnd m lo a zi (str "%I") = Ok (columns 2 hh)).
  { destruct (C62_clock12 rnd m lo a zi y mo d p N E O P TP) as (pm & t & PE & TI & T1 & T2 & _). rewrite TI. f_equal. unfold hh. destruct pm.
    - rewrite EP in PE. destruct AP as [(Q & _)|(_ & H)]; [exfalso; rewrite PE in Q; discriminate|]. rewrite (T2 eq_refl) by lia. replace (dt_h a <=? 11) with false by lia. reflexivity.
    - rewrite EA in PE. destruct AP as [(_ & H)|(Q & _)]; [|exfalso; rewrite PE in Q; discriminate]. rewrite (T1 eq_refl). replace (dt_h a <=? 11) with true by lia. reflexivity. }
  assert (HR : 1 <= hh <= 11) by (unfold hh; destruct (Z.leb_spec (dt_h a) 11); lia).
  pose proof P as (SU & (C & _) & _). destruct (sup_ok rnd m (dt_d a) y mo d N E SU) as (DN & K & YL). pose proof K as (KY & KM & KD). pose proof (ok_small y mo d K) as (_ & DS).
  set (doy := bday_of_year (leap_of rnd m y) mo d) in *.
  assert (DR : 1 <= doy <= 366) by (pose proof (doy_range (leap_of rnd m y) mo d KM) as Q; unfold doy; rewrite (leap_of_ok rnd N m E) in * by lia; specialize (Q KD); destruct (zleap y); lia).
  set (txt := fun c => if c =? 73 then columns 2 hh else if c =? 112 then p else rt_txt a y mo d w doy c).
  assert (PL : p = str "AM" \/ p = str "PM") by tauto.
  exists (printed txt l). split.
  { apply (print_by_parts rnd m lo a zi y mo d); try assumption; [| |reflexivity].
    - clear - R. induction R as [|q l Q R IH]; [constructor|]. constructor; [|exact IH]. destruct q as [c|c|]; [exact Q| |exact Q]. destruct (split12 c Q) as [->|[->|(J & _)]]; [apply in_mem; reflexivity|apply in_mem; reflexivity|apply (readable_plain (D c)), J].
    - intros c I NC. pose proof (in12 l c R I) as J. destruct (split12 c J) as [->|[->|(J' & N1 & N2 & N3)]]; [exact TI|exact TP|]. unfold txt. replace (c =? 73) with false by lia. replace (c =? 112) with false by lia. apply PO; assumption. }
  assert (DO : forall c, In c (letters l) -> dir_ok sl txt c).
  { intros c I. pose proof (in12 l c R I) as J. destruct (split12 c J) as [->|[->|(J' & N1 & N2 & N3)]].
    - apply (dir_cols sl _ 73 1 hh); try reflexivity. intro s. apply I_cols. lia.
    - assert (T0 : table0 sl 112 = Some (seq_rx [str "am"; str "pm"] 112)) by (change (table0 sl 112) with (Some (seq_rx (sl_p sl) 112)); rewrite ES; reflexivity).
      assert (IN : inner sl 112 = alts (map lit_rx (by_length [str "am"; str "pm"]))) by (unfold inner; rewrite T0; reflexivity).
      unfold dir_ok. change (table sl 112) with (table0 sl 112). rewrite T0, IN. change (txt 112) with p.
      split; [reflexivity|]. split; [reflexivity|]. split; [reflexivity|]. split; [reflexivity|]. split; [intro s; destruct PL as [-> | ->]; reflexivity|]. destruct PL as [-> | ->]; eexists; eexists; split; reflexivity.
    - apply (dir_rt sl a y mo d w doy); try assumption; try lia. unfold txt. replace (c =? 73) with false by lia. replace (c =? 112) with false by lia. reflexivity. }
  unfold strptime, start. rewrite (find_ok sl txt l); [| |exact DO|exact ND].
  2: { clear - R. induction R as [|q l Q R IH]; [constructor|]. constructor; [|exact IH]. destruct q as [c|c|]; [exact Q|exact Logic.I|exact Q]. }
  cbn [bind].
  set (ls := filter (fun c => negb (c =? 112)) (letters l)). set (fld := fun c => if c =? 73 then Hour else rt_fld c). set (tv := rt_val a y mo d w doy).
  assert (PF : exists st, parse_found sl (found txt l) = Ok st /\ forall f, st f = if existsb (fun c => field_eqb f (fld c)) ls then Some (tv f) else dots0 f).
  { unfold parse_found. rewrite (loop_skip sl _ 112) by (intros; reflexivity).
    assert (FE : filter (fun x => negb (fst x =? 112)) (found txt l) = map (fun c => (c, txt c)) ls) by (unfold found, ls; clear; induction (letters l) as [|c r IH]; [reflexivity|]; cbn [map filter fst]; destruct (c =? 112); cbn [negb]; [exact IH|cbn [map]; f_equal; exact IH]).
    rewrite FE. apply found_values. intros c st I. apply filter_In in I as [I I2]. pose proof (in12 l c R I) as J. destruct (split12 c J) as [->|[->|(J' & N1 & N2 & N3)]]; [|discriminate|].
    - unfold found_step. cbn [Z.eqb Pos.eqb orb]. change (txt 73) with (columns 2 hh). rewrite pyint_columns by (try lia; change (10 ^ Z.of_nat 2) with 100; lia). cbn [bind]. do 2 f_equal. change (tv (fld 73)) with (dt_h a).
      unfold hour12. rewrite (get_found txt l 112 HP'). change (txt 112) with p. rewrite ES. unfold hh. clear - AP. destruct AP as [(-> & H)|(-> & H)]; cbn [nth].
      + replace (dt_h a <=? 11) with true by lia. transitivity (if dt_h a =? 12 then 0 else dt_h a); [reflexivity|]. replace (dt_h a =? 12) with false by lia. reflexivity.
      + replace (dt_h a <=? 11) with false by lia. transitivity (if dt_h a - 12 =? 12 then dt_h a - 12 else dt_h a - 12 + 12); [reflexivity|]. replace (dt_h a - 12 =? 12) with false by lia. lia.
    - assert (TX : txt c = rt_txt a y mo d w doy c) by (unfold txt; replace (c =? 73) with false by lia; replace (c =? 112) with false by lia; reflexivity). rewrite TX. unfold fld. replace (c =? 73) with false by lia.
      apply step_ok; try assumption; try lia. intros ->. apply HB, has_in. exists 98. split; [exact I|left; reflexivity]. }
  destruct PF as (st & PF & ST). rewrite PF. cbn [bind].
  assert (LS : forall c, In c ls -> In c (str "YmBbdIMSfAa")).
  { intros c I. apply filter_In in I as [I I2]. pose proof (in12 l c R I) as J. change (str "YmBbdIpMSfAa") with (str "YmBbdI" ++ [112] ++ str "MSfAa") in J. change (str "YmBbdIMSfAa") with (str "YmBbdI" ++ str "MSfAa"). apply in_or_app. apply in_app_or in J as [J|J]; [tauto|]. destruct J as [<-|J]; [discriminate|tauto]. }
  assert (HL : forall cs, existsb (Z.eqb 112) (str cs) = false -> existsb (fun x => existsb (Z.eqb x) (str cs)) ls = has l cs).
  { intros cs X. unfold has, ls. clear - X. induction (letters l) as [|c r IH]; [reflexivity|]. cbn [filter existsb]. destruct (Z.eqb_spec c 112) as [->|]; cbn [negb existsb]; rewrite IH; [rewrite X|]; reflexivity. }
  pose proof (fun f cs X1 X2 => eq_trans (has_field ls (str "YmBbdIMSfAa") fld tv st f cs LS ST X1) (f_equal (fun b : bool => if b then Some (tv f) else dots0 f) (HL cs X2))) as HF.
  assert (H0 : has l "" = false) by (unfold has; clear; induction (letters l) as [|c r IH]; [reflexivity|exact IH]).
  assert (S1 : st IsoYear = None) by (rewrite (HF IsoYear ""%string eq_refl eq_refl), H0; reflexivity). assert (S2 : st IsoWeek = None) by (rewrite (HF IsoWeek ""%string eq_refl eq_refl), H0; reflexivity).
  assert (S3 : st WeekOfYear = None) by (rewrite (HF WeekOfYear ""%string eq_refl eq_refl), H0; reflexivity). assert (S4 : st Gmtoff = None) by (rewrite (HF Gmtoff ""%string eq_refl eq_refl), H0; reflexivity).
  assert (SJ : st Julian = None) by (rewrite (HF Julian ""%string eq_refl eq_refl), H0; reflexivity).
  assert (SY : st Year = if has l "Y" then Some y else None) by (rewrite (HF Year "Y"%string eq_refl eq_refl); reflexivity).
  assert (SM : st Month = Some mo') by (rewrite (HF Month "mBb"%string eq_refl eq_refl); unfold mo'; destruct (has l "mBb"); reflexivity).
  assert (SD : st Day = Some d') by (rewrite (HF Day "d"%string eq_refl eq_refl); unfold d'; destruct (has l "d"); reflexivity).
  assert (Sh : st Hour = Some (dt_h a)) by (rewrite (HF Hour "I"%string eq_refl eq_refl), HI; reflexivity).
  assert (Sm : st Minute = Some (if has l "M" then dt_mi a else 0)) by (rewrite (HF Minute "M"%string eq_refl eq_refl); destruct (has l "M"); reflexivity).
  assert (Ss : st Second = Some (if has l "S" then dt_s a else 0)) by (rewrite (HF Second "S"%string eq_refl eq_refl); destruct (has l "S"); reflexivity).
  assert (Sf : st Fraction = Some (if has l "f" then dt_us a else 0)) by (rewrite (HF Fraction "f"%string eq_refl eq_refl); destruct (has l "f"); reflexivity).
  destruct (default_okd y mo d (has l "Y") (has l "mBb") (has l "d") K YL) as (K' & YL'). fold mo' d' y' in K', YL'.
  unfold check_iso_week. rewrite S1, S2. cbn [bind].
  destruct (misc_default rnd N m E O st (has l "Y") y mo' d' K' YL' SY S1 S3 SJ SM SD) as (w' & j & MS). fold y' in MS. rewrite MS. cbn [bind]. rewrite S4. cbn [bind]. rewrite Sh, Sm, Ss, Sf. cbn [dflt1]. rewrite dt_new_eq, (new_short rnd N m E y' mo' d' K').
  assert (CK : clock_ok (dt_h a) (if has l "M" then dt_mi a else 0) (if has l "S" then dt_s a else 0) (if has l "f" then dt_us a else 0) = true).
  { apply clock_ok_spec. unfold valid_clock in C |- *. destruct (has l "M"), (has l "S"), (has l "f"); lia. }
  rewrite CK. reflexivity.
Qed.
Print Assumptions C75_clock12.
(** Refuted: the first hour after midnight and the one from midday, which strftime prints as 00, are refused. *)
Theorem C75_hour_00_refuted : forall rnd m lo sl zid a zi y mo d, Nearest rnd -> evening rnd m -> naw_ruz_order rnd m -> printable rnd m a zi y mo d -> english lo sl ->
  (dt_h a = 0 /\ dt_strftime rnd m lo a zi (str "%p") = Ok (str "AM")) \/ (dt_h a = 12 /\ dt_strftime rnd m lo a zi (str "%p") = Ok (str "PM")) ->
  exists t, dt_strftime rnd m lo a zi (str "%I%p") = Ok t /\ strptime rnd m sl zid t (str "%I%p") = Err ValueError.
Proof.
  intros rnd m lo sl zid a zi y mo d N E O P (EA & EP & ES) H. assert (AP : lo_am lo <> lo_pm lo) by (rewrite EA, EP; discriminate).
  destruct (C62_hour_refuted rnd m lo a zi y mo d N E O P AP) as (H1 & H2 & _). rewrite EA in H1. rewrite EP in H2.
  assert (X : exists p, (p = str "AM" \/ p = str "PM") /\ dt_strftime rnd m lo a zi (str "%p") = Ok p /\ dt_strftime rnd m lo a zi (str "%I") = Ok (str "00")) by (destruct H as [(A & B)|(A & B)]; eexists; (split; [|split; [exact B|auto]]); tauto).
  destruct X as (p & PP & TP & TI). exists (str "00" ++ p). split.
  - set (txt := fun c => if c =? 73 then str "00" else if c =? 102 then columns 6 (dt_us a) else p). assert (TE : str "00" ++ p = printed txt [D 73; D 112]) by (unfold printed; cbn [flat_map ptext]; rewrite app_nil_r; reflexivity). rewrite TE.
    apply (print_by_parts rnd m lo a zi y mo d _ [D 73; D 112]); try assumption; [repeat (constructor; [apply in_mem; reflexivity|]); constructor|discriminate|cbn; tauto| |reflexivity].
    intros c [<-|[<-|[]]] _; [exact TI|exact TP].
  - unfold strptime, start, find_regex, compile. cbn [str]. assert (FR : find_regex sl (str "%I%p") (str "00" ++ p) = Err ValueError); [|unfold find_regex, compile in FR; rewrite FR; reflexivity].
    unfold find_regex, compile. change (pattern (table sl) false (str "%I%p")) with (@Ok rx (RSeq (RGrp 73 (inner sl 73)) (RSeq (seq_rx (sl_p sl) 112) REps))). rewrite ES. cbn [bind].
    change (no_dup (groups (RSeq (RGrp 73 (inner sl 73)) (RSeq (seq_rx [str "am"; str "pm"] 112) REps)))) with true. unfold run. destruct PP as [-> | ->]; reflexivity.
Qed.
Print Assumptions C75_hour_00_refuted.
Definition fmt_12 : list piece := [D 109; L 47; D 100; L 32; D 73; L 58; D 77; L 32; D 112].
Example C75_case : forall rnd, Nearest rnd -> printable rnd sample_sun (before_noon 15) None (-1797) 19 18 /\ english sample_locale sample_sloc /\ Forall readable12 fmt_12 /\ NoDup (letters fmt_12) /\ faithful_format (f_as_literal fmt_12) /\
  dt_strftime b64 sample_sun sample_locale (before_noon 15) None (str "%p") = Ok (str "PM") /\ dt_strftime b64 sample_sun sample_locale (before_noon 0) None (str "%p") = Ok (str "AM") /\
  dt_strftime b64 sample_sun sample_locale (before_noon 15) None (format_text fmt_12) = Ok (str "19/18 03:55 PM") /\
  strptime b64 sample_sun sample_sloc 0 (str "19/18 03:55 PM") (format_text fmt_12) = Ok (mk_dt 2 19 18 15 55 0 0 None).
Proof.
  intros rnd N. split; [split; [sup|split; [split; [cbn; unfold valid_clock; lia|split; [left; reflexivity|intros o OO; discriminate]]|split; [reflexivity|left; reflexivity]]]|].
  split; [repeat split|]. split; [repeat (constructor; [first [apply in_mem; reflexivity|discriminate]|]); constructor|]. split; [apply nodup_check; reflexivity|]. split; [cbn; tauto|].
  split; [vm_compute; reflexivity|]. split; [vm_compute; reflexivity|]. split; vm_compute; reflexivity.
Qed.
Print Assumptions C75_case.
