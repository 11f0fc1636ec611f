(** PropertiesStrp5.v -- C72: upper and lower case; C73: white space; C36: the cache of strptime. *)
From Coq Require Import ZArith QArith Qround Qabs List Bool Lia Lqa String.
From Coq Require Import ZifyBool ZifyNat ZifyN.
From Verif Require Import Base Flt QUtil BaseModel MiscModel BadiModel BaseProofs SunProofs SpecBadi BadiProofs BadiProofs2 BadiProofs3 DecProofs BadiProofs4 LongYear LongProofs BadiProofs5 MeeusFloat
  ClockProofs3 ClockProofs4 TduModel DateModel SpecDate TduProofs TduProofs2 TduProofs3 DateProofs SampleSun PropertiesBadi PropertiesDate PropertiesDate2
  TimeModel SpecTime TimeProofs PropertiesTime PropertiesDt TextModel SpecText TextProofs PropertiesText StrfModel SpecStrf StrfProofs PropertiesStrf PropertiesStrf2 PropertiesStrf3 PropertiesStrf4 PropertiesStrf5
  SpecStrp StrpModel StrpProofs PropertiesStrp PropertiesStrp2 PropertiesStrp3 StateModel PropertiesState.
Import ListNotations.
Local Open Scope Z_scope.
Ltac Zify.zify_post_hook ::= Z.div_mod_to_equations.

(** ** C72: case *)
(** Two texts that differ in the case of letters only.  The letter Z is kept: %z reads a capital Z and no small z. *)
Definition same_letter (x y : Z) : Prop := lower x = lower y /\ (x = 90 <-> y = 90).
Definition same_but_case (s t : text) : Prop := Forall2 same_letter s t.

Lemma lower_small x : x < 65 -> lower x = x.
Proof. intro H. unfold lower. replace (65 <=? x) with false by lia. replace (192 <=? x) with false by lia. replace (7680 <=? x) with false by lia. replace (x =? 256) with false by lia. reflexivity. Qed.
Lemma lower_big x : 65 <= x -> 65 <= lower x.
Proof. intro H. unfold lower. repeat match goal with |- context [if ?b then _ else _] => destruct b end; lia. Qed.
Lemma letter_small x y : same_letter x y -> x < 65 \/ y < 65 -> x = y.
Proof.
  intros (H & _) S. destruct (Z.ltb_spec x 65), (Z.ltb_spec y 65); try lia.
  - rewrite !lower_small in H by lia. exact H.
  - pose proof (lower_big y ltac:(lia)). rewrite (lower_small x) in H by lia. lia.
  - pose proof (lower_big x ltac:(lia)). rewrite (lower_small y) in H by lia. lia.
Qed.
Lemma letter_eqb x y k : same_letter x y -> k < 65 -> (x =? k) = (y =? k).
Proof. intros H K. destruct (Z.eqb_spec x k) as [->|]; [|destruct (Z.eqb_spec y k) as [->|]]; try reflexivity; [rewrite <- (letter_small k y H) by lia; lia|rewrite (letter_small x k H) in * by lia; congruence]. Qed.
Lemma space_lower x : is_space (lower x) = is_space x.
Proof.
  unfold lower. destruct ((65 <=? x) && (x <=? 90)) eqn:A; [unfold is_space; lia|]. destruct ((192 <=? x) && (x <=? 222) && negb (x =? 215)) eqn:B; [unfold is_space; lia|].
  destruct (Z.eqb_spec x 256) as [->|]; [reflexivity|]. destruct ((7680 <=? x) && (x <=? 7828) && (x mod 2 =? 0)) eqn:D; [|reflexivity]. assert (7680 <= x <= 7828) by lia. clear - H. unfold is_space. lia.
Qed.
Lemma letter_space x y : same_letter x y -> is_space x = is_space y.
Proof. intros (H & _). rewrite <- (space_lower x), <- (space_lower y), H. reflexivity. Qed.
Lemma letter_digit x y : same_letter x y -> is_digit x = is_digit y.
Proof.
  intro H. unfold is_digit. destruct (Z.ltb_spec x 65); [rewrite (letter_small x y H) by lia; reflexivity|]. destruct (Z.ltb_spec y 65); [rewrite (letter_small x y H) by lia; reflexivity|]. lia.
Qed.
(** expressions that do not see the case *)
Inductive blind : rx -> Prop :=
| BEps : blind REps
| BC p : (forall x y, same_letter x y -> p x = p y) -> blind (RC p)
| BWs : blind RWs
| BSeq a b : blind a -> blind b -> blind (RSeq a b)
| BAlt a b : blind a -> blind b -> blind (RAlt a b)
| BGrp n a : blind a -> blind (RGrp n a).
Lemma blind_dg : blind dg.
Proof. constructor. exact letter_digit. Qed.
Lemma blind_one c : blind (one c).
Proof. constructor. intros x y (H & _). rewrite H. reflexivity. Qed.
Lemma blind_rng a b : b < 65 -> blind (rng a b).
Proof.
  intro B. constructor. intros x y H. destruct (Z.ltb_spec x 65); [rewrite (letter_small x y H) by lia; reflexivity|]. destruct (Z.ltb_spec y 65); [rewrite (letter_small x y H) by lia; reflexivity|]. lia.
Qed.
Lemma blind_opt a : blind a -> blind (opt a).
Proof. intro A. constructor; [exact A|constructor]. Qed.
Lemma blind_upto n : blind (upto n).
Proof. induction n as [|n IH]; [constructor|]. destruct n; [exact blind_dg|]. change (upto (S (S n))) with (RSeq dg (opt (upto (S n)))). constructor; [exact blind_dg|apply blind_opt, IH]. Qed.
Lemma blind_seqs l : Forall blind l -> blind (seqs l).
Proof. induction 1 as [|x l X _ IH]; [constructor|]. destruct l; [exact X|]. constructor; assumption. Qed.
Lemma blind_alts l : Forall blind l -> blind (alts l).
Proof. induction 1 as [|x l X _ IH]; [constructor|]. destruct l; [exact X|]. constructor; assumption. Qed.
Lemma blind_lit s : blind (lit_rx s).
Proof. apply blind_seqs. induction s; constructor; [apply blind_one|assumption]. Qed.
Lemma blind_names l c : blind (seq_rx l c).
Proof. unfold seq_rx. match goal with |- blind (if ?b then _ else _) => destruct b end; constructor. apply blind_alts. induction (by_length l); constructor; [apply blind_lit|assumption]. Qed.
Ltac blinds := repeat first [apply blind_dg | apply blind_one | apply blind_names | apply blind_upto | apply blind_rng; lia | apply blind_opt | apply blind_seqs | apply blind_alts
  | constructor; [intros ? ? ?; first [apply letter_eqb; [assumption|lia]|idtac]] | constructor].
Lemma blind_table0 lo c r : table0 lo c = Some r -> blind r.
Proof.
  unfold table0. repeat match goal with |- (if ?b then Some _ else _) = Some _ -> _ => destruct b; [intro H; injection H as <-|] end; [..|discriminate].
  16: { constructor. constructor.
    - constructor; [constructor; intros x y H; rewrite (letter_eqb x y 43 H), (letter_eqb x y 45 H) by lia; reflexivity|]. blinds.
    - constructor. intros x y (_ & H). destruct (Z.eqb_spec x 90), (Z.eqb_spec y 90); tauto. }
  all: blinds.
Qed.
Lemma blind_pattern tb : (forall c r, tb c = Some r -> blind r) -> forall f ws r, pattern tb ws f = Ok r -> blind r.
Proof.
  intro T. fix IH 1. intros f ws r. destruct f as [|ch f]; cbn [pattern]; [intro H; injection H as <-; constructor|]. destruct (ch =? 37).
  - destruct f as [|c f]; [discriminate|]. destruct (special c || is_space c); [discriminate|]. destruct (tb c) as [x|] eqn:X; [|discriminate]. destruct (pattern tb false f) as [y|] eqn:Y; [|discriminate].
    cbn [bind]. intro H. injection H as <-. constructor; [apply (T c x X)|apply (IH f false y Y)].
  - destruct (is_space ch).
    + destruct (pattern tb true f) as [y|] eqn:Y; [|discriminate]. cbn [bind]. intro H. injection H as <-. pose proof (IH f true y Y). destruct ws; [assumption|constructor; [constructor|assumption]].
    + destruct (pattern tb false f) as [y|] eqn:Y; [|discriminate]. cbn [bind]. intro H. injection H as <-. constructor; [apply blind_one|apply (IH f false y Y)].
Qed.
Lemma blind_table lo c r : table lo c = Some r -> blind r.
Proof.
  unfold table. repeat match goal with |- (if ?b then _ else _) = Some _ -> _ => destruct b end; try apply blind_table0;
  (match goal with |- match ?p with _ => _ end = _ -> _ => destruct p eqn:P; [|discriminate] end; intro H; injection H as <-; apply (blind_pattern _ (blind_table0 lo) _ _ _ P)).
Qed.
(** ** The matches *)
Definition same_group (g h : Z * text) : Prop := fst g = fst h /\ same_but_case (snd g) (snd h).
Definition same_match (a b : list (Z * text) * text) : Prop := Forall2 same_group (fst a) (fst b) /\ same_but_case (snd a) (snd b).
Lemma f2_map {A B C D} (R : A -> B -> Prop) (S : C -> D -> Prop) f g l l' : Forall2 R l l' -> (forall a b, R a b -> S (f a) (g b)) -> Forall2 S (map f l) (map g l').
Proof. intros H F. induction H; constructor; auto. Qed.
Lemma f2_flat {A B C D} (R : A -> B -> Prop) (S : C -> D -> Prop) f g l l' : Forall2 R l l' -> (forall a b, R a b -> Forall2 S (f a) (g b)) -> Forall2 S (flat_map f l) (flat_map g l').
Proof. intros H F. induction H; [constructor|]. cbn [flat_map]. apply Forall2_app; auto. Qed.
Lemma f2_firstn {A B} (R : A -> B -> Prop) n l l' : Forall2 R l l' -> Forall2 R (firstn n l) (firstn n l').
Proof. intro H. revert n. induction H; intros [|n]; constructor; auto. Qed.
Lemma f2_skipn {A B} (R : A -> B -> Prop) n l l' : Forall2 R l l' -> Forall2 R (skipn n l) (skipn n l').
Proof. intro H. revert n. induction H; intros [|n]; try constructor; cbn [skipn]; auto. Qed.
Lemma f2_length {A B} (R : A -> B -> Prop) l l' : Forall2 R l l' -> List.length l = List.length l'.
Proof. induction 1; cbn; congruence. Qed.
Lemma same_ws s t : same_but_case s t -> Forall2 same_but_case (ws_star s) (ws_star t).
Proof.
  induction 1 as [|x y s t X S IH]; [repeat constructor|]. cbn [ws_star]. rewrite (letter_space x y X). apply Forall2_app; [destruct (is_space y); [exact IH|constructor]|]. constructor; [constructor; assumption|constructor].
Qed.
Lemma same_rmatch r : blind r -> forall s t, same_but_case s t -> Forall2 same_match (rmatch r s) (rmatch r t).
Proof.
  induction 1 as [|p P| |a b _ IA _ IB|a b _ IA _ IB|n a _ IA]; intros s t S.
  - constructor; [split; [constructor|exact S]|constructor].
  - cbn [rmatch]. destruct S as [|x y s t X S]; [constructor|]. rewrite (P x y X). destruct (p y); [|constructor]. constructor; [split; [constructor|exact S]|constructor].
  - cbn [rmatch]. apply (f2_map same_but_case); [|intros u v U; split; [constructor|exact U]]. destruct S as [|x y s t X S]; [constructor|]. cbn [ws_plus]. rewrite (letter_space x y X). destruct (is_space y); [apply same_ws, S|constructor].
  - cbn [rmatch]. apply (f2_flat same_match); [apply IA, S|]. intros u v (U1 & U2). apply (f2_map same_match); [apply IB, U2|]. intros u' v' (V1 & V2). split; [apply Forall2_app; assumption|exact V2].
  - cbn [rmatch]. apply Forall2_app; [apply IA, S|apply IB, S].
  - cbn [rmatch]. apply (f2_map same_match); [apply IA, S|]. intros u v (U1 & U2). split; [|exact U2]. cbn [fst]. constructor; [|exact U1]. split; [reflexivity|]. cbn [snd].
    match goal with |- same_but_case (firstn ?i _) (firstn ?j _) => assert (ij : i = j) by (f_equal; [exact (f2_length _ _ _ S)|exact (f2_length _ _ _ U2)]); rewrite ij end. apply f2_firstn, S.
Qed.
Lemma same_find lo f s t : same_but_case s t ->
  match find_regex lo f s, find_regex lo f t with Ok g, Ok h => Forall2 same_group g h | Err e, Err e' => e = e' | _, _ => False end.
Proof.
  intro S. unfold find_regex. destruct (compile lo f) as [r|e] eqn:C; [|destruct e; reflexivity]. unfold compile in C. destruct (pattern (table lo) false f) as [r'|] eqn:P; [|discriminate]. cbn [bind] in C.
  destruct (no_dup _); [|discriminate]. injection C as <-. pose proof (same_rmatch r' (blind_pattern _ (blind_table lo) _ _ _ P) s t S) as M. unfold run. destruct M as [|[g x] [h y] l l' (M1 & M2) _]; [reflexivity|].
  cbn [fst snd] in M1, M2. destruct M2; [exact M1|reflexivity].
Qed.
(** ** The values *)
Lemma same_lower s t : same_but_case s t -> lower_text s = lower_text t.
Proof. induction 1 as [|x y s t (X & _) S IH]; [reflexivity|]. cbn. f_equal; [exact X|exact IH]. Qed.
Lemma same_lstrip s t : same_but_case s t -> same_but_case (lstrip s) (lstrip t).
Proof. induction 1 as [|x y s t X S IH]; [constructor|]. cbn [lstrip]. rewrite (letter_eqb x y 32 X) by lia. destruct (y =? 32); [exact IH|constructor; assumption]. Qed.
Lemma f2_rev {A B} (R : A -> B -> Prop) l l' : Forall2 R l l' -> Forall2 R (rev l) (rev l').
Proof. induction 1; [constructor|]. cbn [rev]. apply Forall2_app; [assumption|repeat constructor; assumption]. Qed.
Lemma same_digits s t : same_but_case s t -> digits_int s = digits_int t.
Proof.
  intro S. assert (D : forallb is_digit s = forallb is_digit t) by (induction S as [|x y s t X S IH]; [reflexivity|]; cbn [forallb]; rewrite (letter_digit x y X), IH; reflexivity).
  unfold digits_int. destruct S as [|x y s t X S]; [reflexivity|]. rewrite D. destruct (forallb is_digit (y :: t)) eqn:DT; [|reflexivity]. do 2 f_equal.
  assert (S' : same_but_case (x :: s) (y :: t)) by (constructor; assumption). clear - DT S'. revert DT S'. generalize (x :: s), (y :: t). intros s0 t0 DT S'. induction S' as [|x' y' s' t' X S'' IH]; [reflexivity|]. cbn [forallb] in DT. apply andb_true_iff in DT as [D1 D2].
  f_equal; [apply (letter_small x' y' X); unfold is_digit in D1; lia|apply IH, D2].
Qed.
Lemma same_pyint s t : same_but_case s t -> pyint s = pyint t.
Proof.
  intro S. assert (S' : same_but_case (strip s) (strip t)) by (unfold strip; apply f2_rev, same_lstrip, f2_rev, same_lstrip, S). unfold pyint. destruct S' as [|x y u v X U]; [reflexivity|].
  rewrite (letter_eqb x y 45 X), (letter_eqb x y 43 X) by lia. rewrite (same_digits u v U). rewrite (same_digits (x :: u) (y :: v)) by (constructor; assumption). reflexivity.
Qed.
Lemma same_nth s t n k : same_but_case s t -> k < 65 -> k <> 0 -> (nth n s 0 =? k) = (nth n t 0 =? k).
Proof. intros S K K0. revert n. induction S as [|x y s t X S IH]; intros [|n]; try reflexivity; cbn [nth]; [apply letter_eqb; assumption|apply IH]. Qed.
Lemma same_refl s : same_but_case s s.
Proof. induction s; constructor; [split; tauto|assumption]. Qed.
Lemma same_z s t : same_but_case s t -> parse_z s = parse_z t.
Proof.
  intro S. unfold parse_z. assert (Q : (if list_eq_dec Z.eq_dec s [90] then true else false) = (if list_eq_dec Z.eq_dec t [90] then true else false)).
  { destruct S as [|x y s t (X & Z1) S]; [reflexivity|]. destruct S as [|x' y' s t X' S].
    - destruct (list_eq_dec Z.eq_dec [x] [90]), (list_eq_dec Z.eq_dec [y] [90]); try reflexivity; exfalso; [apply n; f_equal; apply Z1; congruence|apply n; f_equal; apply Z1; congruence].
    - destruct (list_eq_dec Z.eq_dec (x :: x' :: s) [90]), (list_eq_dec Z.eq_dec (y :: y' :: t) [90]); congruence. }
  destruct (list_eq_dec Z.eq_dec s [90]), (list_eq_dec Z.eq_dec t [90]); try discriminate; [reflexivity|]. clear Q.
  rewrite (same_nth s t 3 58 S) by lia.
  set (z1 := firstn 3 s ++ skipn 4 s). set (z2 := firstn 3 t ++ skipn 4 t). assert (Z12 : same_but_case z1 z2) by (unfold z1, z2; apply Forall2_app; [apply f2_firstn, S|apply f2_skipn, S]).
  rewrite (f2_length _ _ _ Z12). cbv zeta. rewrite (same_nth z1 z2 5 58 Z12) by lia.
  assert (K : forall u v, same_but_case u v -> 
    (let* h := pyint (slice 1 3 u) in let* mi := pyint (slice 3 5 u) in let* s0 := match slice 5 7 u with [] => Ok 0 | t0 => pyint t0 end in
     let* fr := pyint (skipn 8 u ++ zeros (6 - List.length (skipn 8 u))) in
     Ok (match u with c :: _ => if c =? 45 then (- (h * 60 * 60 + mi * 60 + s0), - fr) else (h * 60 * 60 + mi * 60 + s0, fr) | [] => (h * 60 * 60 + mi * 60 + s0, fr) end)) =
    (let* h := pyint (slice 1 3 v) in let* mi := pyint (slice 3 5 v) in let* s0 := match slice 5 7 v with [] => Ok 0 | t0 => pyint t0 end in
     let* fr := pyint (skipn 8 v ++ zeros (6 - List.length (skipn 8 v))) in
     Ok (match v with c :: _ => if c =? 45 then (- (h * 60 * 60 + mi * 60 + s0), - fr) else (h * 60 * 60 + mi * 60 + s0, fr) | [] => (h * 60 * 60 + mi * 60 + s0, fr) end))).
  { intros u v U. assert (SL : forall a b, same_but_case (slice a b u) (slice a b v)) by (intros a b; apply f2_firstn, f2_skipn, U).
    rewrite (same_pyint _ _ (SL 1%nat 3%nat)), (same_pyint _ _ (SL 3%nat 5%nat)).
    assert (X : match slice 5 7 u with [] => Ok 0 | t0 => pyint t0 end = match slice 5 7 v with [] => Ok 0 | t0 => pyint t0 end).
    { pose proof (SL 5%nat 7%nat) as W. pose proof (same_pyint _ _ W) as WP. destruct W; [reflexivity|exact WP]. }
    rewrite X. rewrite (same_pyint (skipn 8 u ++ zeros (6 - List.length (skipn 8 u))) (skipn 8 v ++ zeros (6 - List.length (skipn 8 v)))).
    2: { rewrite (f2_length _ _ _ (f2_skipn _ 8 _ _ U)). apply Forall2_app; [apply f2_skipn, U|apply same_refl]. }
    destruct U as [|x y u v XY U]; [reflexivity|]. rewrite (letter_eqb x y 45 XY) by lia. reflexivity. }
  destruct (nth 3 t 0 =? 58).
  - destruct (5 <? List.length z2)%nat; [|cbn [bind]; apply K, Z12]. destruct (nth 5 z2 0 =? 58); [|reflexivity]. cbn [bind]. apply K. apply Forall2_app; [apply f2_firstn, Z12|apply f2_skipn, Z12].
  - cbn [bind]. apply K, S.
Qed.
Lemma same_get g h c : Forall2 same_group g h -> match group_get g c, group_get h c with Some s, Some t => same_but_case s t | None, None => True | _, _ => False end.
Proof. induction 1 as [|[k s] [k' t] g h (K & S) G IH]; [exact Logic.I|]. cbn [fst snd] in K, S. subst k'. cbn [group_get]. destruct (k =? c); [exact S|exact IH]. Qed.
Lemma same_hour lo g h v : Forall2 same_group g h -> hour12 lo g v = hour12 lo h v.
Proof.
  intro G. unfold hour12. pose proof (same_get g h 112 G) as X. destruct (group_get g 112) as [s|], (group_get h 112) as [t|]; try contradiction; [|reflexivity]. rewrite (same_lower s t X). reflexivity.
Qed.
Lemma same_step lo g h st x y : Forall2 same_group g h -> same_group x y -> found_step lo g st x = found_step lo h st y.
Proof.
  intros G. destruct x as [c s], y as [c' t]. intros (C & S). cbn [fst snd] in C, S. subst c'. unfold found_step. rewrite (same_pyint s t S), (same_lower s t S), (same_z s t S).
  rewrite (same_pyint (s ++ zeros (6 - List.length s)) (t ++ zeros (6 - List.length t))) by (rewrite (f2_length _ _ _ S); apply Forall2_app; [exact S|apply same_refl]).
  repeat (match goal with |- (if ?b then _ else _) = _ => destruct b; [try reflexivity|] end); [|reflexivity]. destruct (pyint t); [|reflexivity]. cbn [bind]. rewrite (same_hour lo g h _ G). reflexivity.
Qed.
Lemma same_loop lo g h : Forall2 same_group g h -> forall l l', Forall2 same_group l l' -> forall st, found_loop lo g l st = found_loop lo h l' st.
Proof.
  intros G l l' L. induction L as [|x y l l' X L IH]; intro st; [reflexivity|]. cbn [found_loop]. rewrite (same_step lo g h st x y G X). destruct (found_step lo h st y); [|reflexivity]. cbn [bind]. apply IH.
Qed.
(** C72: strptime gives the same datetime, or the same error, for two texts that differ in the case of letters only, with every format. *)
Theorem C72_case_blind : forall rnd m sl zid s t f, same_but_case s t -> strptime rnd m sl zid s f = strptime rnd m sl zid t f.
Proof.
  intros rnd m sl zid s t f S. unfold strptime, start. pose proof (same_find sl f s t S) as F. destruct (find_regex sl f s) as [g|e], (find_regex sl f t) as [h|e']; try contradiction; [|subst; reflexivity]. cbn [bind].
  unfold parse_found. rewrite (same_loop sl g h F g h F dots0). destruct (found_loop sl h h dots0) as [st|]; [|reflexivity]. cbn [bind]. destruct (check_iso_week st); [|reflexivity]. cbn [bind].
  destruct (miscellaneous rnd m st); reflexivity.
Qed.
Print Assumptions C72_case_blind.
(** The Z of %z is the one exception. *)
Theorem C72_small_z : forall rnd m sl zid, strptime rnd m sl zid (str "z") (str "%z") = Err ValueError.
Proof. intros. reflexivity. Qed.
Print Assumptions C72_small_z.
Example C72_case : same_but_case (u "KAMÁL, 18 'ALÁ' -1797") (u "Kamál, 18 'alá' -1797") /\
  strptime b64 sample_sun sample_sloc 0 (u "KAMÁL, 18 'ALÁ' -1797") (str "%A, %d %B %Y") = Ok (mk_dt (-1797) 19 18 0 0 0 0 None).
Proof.
  split; [|vm_compute; reflexivity].
  assert (F : forall s t, (List.length s =? List.length t)%nat && forallb (fun p => (lower (fst p) =? lower (snd p)) && Bool.eqb (fst p =? 90) (snd p =? 90)) (combine s t) = true -> same_but_case s t).
  { induction s as [|x s IH]; intros [|y t]; try discriminate; [constructor|]. cbn [List.length combine forallb fst snd]. intro H. apply andb_true_iff in H as [H1 H2]. apply andb_true_iff in H2 as [H2 H3]. apply andb_true_iff in H2 as [H2 H4]. constructor.
    - apply eqb_prop in H4. split; [lia|]. lia.
    - apply IH. cbn in H1. rewrite H1, H3. reflexivity. }
  apply F. vm_compute. reflexivity.
Qed.
Print Assumptions C72_case.

(** ** C73: white space *)
Definition white (w : text) : Prop := w <> [] /\ forallb is_space w = true.
Lemma space_37 : is_space 37 = false.
Proof. reflexivity. Qed.
Lemma pattern_run tb w f : forallb is_space w = true -> pattern tb true (w ++ f) = pattern tb true f.
Proof.
  induction w as [|c w IH]; [reflexivity|]. cbn [forallb app]. intro H. apply andb_true_iff in H as [H1 H2]. cbn [pattern]. destruct (Z.eqb_spec c 37) as [->|]; [discriminate|]. rewrite H1, IH by exact H2. destruct (pattern tb true f); reflexivity.
Qed.
Lemma pattern_space tb w w' f : white w -> white w' -> forall b, pattern tb b (w ++ f) = pattern tb b (w' ++ f).
Proof.
  intros (N & W) (N' & W') b. destruct w as [|c w], w' as [|c' w']; try congruence. cbn [forallb] in W, W'. apply andb_true_iff in W as [W1 W2]. apply andb_true_iff in W' as [W1' W2'].
  cbn [app pattern]. destruct (Z.eqb_spec c 37) as [->|]; [discriminate|]. destruct (Z.eqb_spec c' 37) as [->|]; [discriminate|]. rewrite W1, W1', !pattern_run by assumption. reflexivity.
Qed.
Lemma pattern_spaces tb w w' f : white w -> white w' -> forall f1 b, pattern tb b (f1 ++ w ++ f) = pattern tb b (f1 ++ w' ++ f).
Proof.
  intros W W' f1. remember (List.length f1) as n eqn:LN. assert (LE : (List.length f1 <= n)%nat) by lia. clear LN. revert f1 LE. induction n as [|n IH]; intros f1 LE b; (destruct f1 as [|ch f1]; [cbn [app]; apply pattern_space; assumption|]); cbn [List.length] in LE; [lia|]. cbn [app pattern]. destruct (ch =? 37).
  - destruct f1 as [|c f1]; cbn [app].
    + destruct W as (N & W), W' as (N' & W'). destruct w as [|c w], w' as [|c' w']; try congruence. cbn [forallb app] in *. apply andb_true_iff in W as [W1 _]. apply andb_true_iff in W' as [W1' _]. rewrite W1, W1', !orb_true_r. reflexivity.
    + destruct (special c || is_space c); [reflexivity|]. destruct (tb c); [|reflexivity]. cbn [List.length] in LE. rewrite (IH f1) by lia. reflexivity.
  - destruct (is_space ch); rewrite (IH f1) by lia; reflexivity.
Qed.
(** C73: a run of white space in a format may be replaced by any other: every text gives the same datetime or error. *)
Theorem C73_format_space : forall rnd m sl zid data f1 w w' f2, white w -> white w' -> strptime rnd m sl zid data (f1 ++ w ++ f2) = strptime rnd m sl zid data (f1 ++ w' ++ f2).
Proof. intros rnd m sl zid data f1 w w' f2 W W'. unfold strptime, start, find_regex, compile. rewrite (pattern_spaces (table sl) w w' f2 W W' f1 false). reflexivity. Qed.
Print Assumptions C73_format_space.
Example C73_case : white [32] /\ white [9; 32; 8232] /\
  strptime b64 sample_sun sample_sloc 0 ([49; 47; 50] ++ [9; 32; 8232] ++ [55]) (str "%m/%d %H") = Ok (mk_dt 2 1 2 7 0 0 0 None) /\
  strptime b64 sample_sun sample_sloc 0 (str "1/2 7") (str "%m/%d" ++ [9; 32; 8232] ++ str "%H") = Ok (mk_dt 2 1 2 7 0 0 0 None) /\
  strptime b64 sample_sun sample_sloc 0 (str "1/27") (str "%m/%d %H") = Err ValueError.
Proof. split; [split; [discriminate|reflexivity]|]. split; [split; [discriminate|reflexivity]|]. repeat split; vm_compute; reflexivity. Qed.
Print Assumptions C73_case.

(** ** C36: the cache *)
(** strptime as the module runs it, on the caches of its process: the environment and the text with the format of a call. *)
Definition cached_find (loc : senv -> sloc) := strp_call rx (list (Z * text)) (fun e => compile (loc e)) (fun _ => run).
Definition cached_after (loc : senv -> sloc) := strp_after rx (list (Z * text)) (fun e => compile (loc e)) (fun _ => run).
(** C36: after every history of calls of strptime, in whatever locales, a call finds what a call in a new process finds -- the same values or
    the same error; so everything proved of strptime holds in the middle of every history. *)
Theorem C36_strptime : forall loc e0 h e fmt data, snd (cached_find loc e fmt data (cached_after loc e0 h)) = find_regex (loc e) fmt data.
Proof.
  intros. unfold cached_find, cached_after. rewrite C36_transparent. unfold fresh_call, find_regex. destruct (compile (loc e) fmt) as [r|x]; [reflexivity|]. destruct x; reflexivity.
Qed.
Print Assumptions C36_strptime.
