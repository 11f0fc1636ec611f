(** BadiProofs.v -- the year table, the encoder on whole days, day of year arithmetic. *)
From Coq Require Import ZArith QArith Qround Qabs List Bool Lia Lqa Setoid Morphisms.
From Coq Require Import ZifyBool ZifyNat ZifyN.
From Verif Require Import Base Flt QUtil BaseModel MiscModel BadiModel BaseProofs BaseProofs2 SunProofs SpecBadi.
Import ListNotations.
Local Open Scope Z_scope.
Ltac Zify.zify_post_hook ::= Z.div_mod_to_equations.

(** ** integers of an interval *)
Fixpoint zlist (a : Z) (n : nat) : list Z := match n with O => [] | S k => a :: zlist (a + 1) k end.
Lemma zlist_in a n x : a <= x < a + Z.of_nat n -> In x (zlist a n).
Proof.
  revert a. induction n as [|n IH]; intros a H; [lia|]. cbn [zlist In].
  destruct (Z.eq_dec a x); [left; assumption|right; apply IH; lia].
Qed.
Lemma zforall (P : Z -> bool) a n : forallb P (zlist a n) = true -> forall x, a <= x < a + Z.of_nat n -> P x = true.
Proof. intros H x R. rewrite forallb_forall in H. apply H, zlist_in, R. Qed.

(** ** closed form of the year table *)
Definition ystart (y : Z) : Z := days_in_years false (y - 1) + 673222 + get_day_coeff y.
Definition zleap (y : Z) : bool := ystart (y + 1) - ystart y =? 366.

Lemma coeff_range y : -1843 <= y <= 1162 -> -2 <= get_day_coeff y <= 0.
Proof.
  intro H.
  assert (X : (-2 <=? get_day_coeff y) && (get_day_coeff y <=? 0) = true); [|lia].
  apply (zforall (fun y => (-2 <=? get_day_coeff y) && (get_day_coeff y <=? 0)) (-1843) 3006); [vm_compute; reflexivity|lia].
Qed.
Lemma year_len y : -1843 <= y <= 1161 -> ystart (y + 1) - ystart y = 365 + b2z (zleap y).
Proof.
  intro H. unfold zleap.
  assert (X : (ystart (y + 1) - ystart y =? 365) || (ystart (y + 1) - ystart y =? 366) = true).
  { apply (zforall (fun y => (ystart (y + 1) - ystart y =? 365) || (ystart (y + 1) - ystart y =? 366)) (-1843) 3005); [vm_compute; reflexivity|lia]. }
  destruct (Z.eqb_spec (ystart (y + 1) - ystart y) 366); cbn [b2z]; lia.
Qed.
Lemma ystart_mono_aux (n : nat) y : -1843 <= y -> y + Z.of_nat n <= 1162 ->
  ystart y + 365 * Z.of_nat n <= ystart (y + Z.of_nat n).
Proof.
  induction n as [|n IH]; intros A B; [replace (y + Z.of_nat 0) with y by lia; lia|].
  pose proof (year_len (y + Z.of_nat n) ltac:(lia)) as L. 
  replace (y + Z.of_nat (S n)) with (y + Z.of_nat n + 1) by lia.
  specialize (IH A ltac:(lia)). unfold b2z in L. destruct (zleap _); lia.
Qed.
Lemma ystart_mono y y' : -1843 <= y <= y' -> y' <= 1162 -> ystart y + 365 * (y' - y) <= ystart y'.
Proof.
  intros A B. pose proof (ystart_mono_aux (Z.to_nat (y' - y)) y ltac:(lia) ltac:(lia)) as H.
  replace (y + Z.of_nat (Z.to_nat (y' - y))) with y' in H by lia. lia.
Qed.
Lemma ystart_min : ystart (-1843) = -287. Proof. vm_compute. reflexivity. Qed.
Lemma ystart_max : ystart 1162 = 1097268. Proof. vm_compute. reflexivity. Qed.
Lemma ystart_1161 : ystart 1161 = 1096902. Proof. vm_compute. reflexivity. Qed.
Lemma ystart_range y : -1843 <= y <= 1162 -> -287 <= ystart y <= 1097268.
Proof.
  intro H. pose proof (ystart_mono (-1843) y ltac:(lia) ltac:(lia)). pose proof (ystart_mono y 1162 ltac:(lia) ltac:(lia)).
  rewrite ystart_min in *. rewrite ystart_max in *. lia.
Qed.
Lemma year_unique y y' r : -1843 <= y <= 1161 -> -1843 <= y' <= 1161 ->
  ystart y <= r < ystart (y + 1) -> ystart y' <= r < ystart (y' + 1) -> y = y'.
Proof.
  intros A B C D. destruct (Z.lt_trichotomy y y') as [L|[L|L]]; [|exact L|]; exfalso.
  - pose proof (ystart_mono (y + 1) y' ltac:(lia) ltac:(lia)). lia.
  - pose proof (ystart_mono (y' + 1) y ltac:(lia) ltac:(lia)). lia.
Qed.

(** days before the month, for a year of known length *)
Definition zdbm (leap : bool) (mo : Z) : Z :=
  if mo =? 0 then 342 else if mo <? 19 then (mo - 1) * 19 else 346 + b2z leap.
(** rata die of a date *)
Definition zrd (y mo d : Z) : Z := ystart y + zdbm (zleap y) mo + d - 1.

Lemma doy_range leap mo d : 0 <= mo <= 19 -> 1 <= d <= bmonth_len leap mo -> 1 <= zdbm leap mo + d <= 365 + b2z leap.
Proof. unfold zdbm, bmonth_len. intros A B. destruct leap; cbn [b2z] in *; destruct (Z.eqb_spec mo 0); destruct (Z.ltb_spec mo 19); lia. Qed.
Lemma doy_md leap mo d : 0 <= mo <= 19 -> 1 <= d <= bmonth_len leap mo ->
  month_day_of_doy (zdbm leap mo + d) (4 + b2z leap) = (mo, d).
Proof.
  unfold zdbm, bmonth_len, month_day_of_doy. intros A B.
  destruct leap; cbn [b2z] in *; destruct (Z.eqb_spec mo 0); [subst mo|destruct (Z.ltb_spec mo 19)| |destruct (Z.ltb_spec mo 19)]; zdecide; try (f_equal; lia).
Qed.
Lemma md_doy leap n mo d : 1 <= n <= 365 + b2z leap -> month_day_of_doy n (4 + b2z leap) = (mo, d) ->
  0 <= mo <= 19 /\ 1 <= d <= bmonth_len leap mo /\ zdbm leap mo + d = n.
Proof.
  unfold zdbm, bmonth_len, month_day_of_doy. intros A B.
  destruct (Z.leb_spec n 342); [|destruct (Z.leb_spec n (342 + (4 + b2z leap)))]; apply pair_equal_spec in B; destruct B as [<- <-].
  - destruct (Z.eqb_spec ((n - 1) / 19 + 1) 0); [exfalso; lia|]. destruct (Z.ltb_spec ((n - 1) / 19 + 1) 19); lia.
  - cbn [Z.eqb]. destruct leap; cbn [b2z] in *; lia.
  - cbn [Z.eqb]. change (19 <? 19) with false. cbv iota. destruct leap; cbn [b2z] in *; lia.
Qed.
Lemma rd_range y mo d : -1843 <= y <= 1161 -> 0 <= mo <= 19 -> 1 <= d <= bmonth_len (zleap y) mo ->
  ystart y <= zrd y mo d < ystart (y + 1).
Proof. intros A B C. pose proof (doy_range _ _ _ B C). pose proof (year_len y A). unfold zrd. lia. Qed.
Lemma rd_inj y mo d y' mo' d' : -1843 <= y <= 1161 -> 0 <= mo <= 19 -> 1 <= d <= bmonth_len (zleap y) mo ->
  -1843 <= y' <= 1161 -> 0 <= mo' <= 19 -> 1 <= d' <= bmonth_len (zleap y') mo' ->
  zrd y mo d = zrd y' mo' d' -> (y, mo, d) = (y', mo', d').
Proof.
  intros A B C A' B' C' E. assert (Y : y = y').
  { apply (year_unique y y' (zrd y mo d)); [exact A|exact A'|apply rd_range; assumption|rewrite E; apply rd_range; assumption]. }
  subst y'. pose proof (doy_md _ _ _ B C) as M. pose proof (doy_md _ _ _ B' C') as M'.
  unfold zrd in E. replace (zdbm (zleap y) mo' + d') with (zdbm (zleap y) mo + d) in M' by lia. rewrite M in M'.
  apply pair_equal_spec in M'. destruct M' as [-> ->]. reflexivity.
Qed.
(** the rata die advances by one per calendar day *)
Lemma rd_next p q : next_bday zleap p q -> let '(y, mo, d) := p in let '(y', mo', d') := q in
  -1843 <= y <= 1161 -> zrd y' mo' d' = zrd y mo d + 1.
Proof.
  intro H. destruct H; intro Y; unfold zrd, zdbm, bmonth_len.
  - lia.
  - destruct (Z.eqb_spec mo 0); destruct (Z.eqb_spec (mo + 1) 0); destruct (Z.ltb_spec mo 19); destruct (Z.ltb_spec (mo + 1) 19); lia.
  - cbn. lia.
  - cbn [Z.eqb]. change (19 <? 19) with false. cbv iota. destruct (zleap y); cbn [b2z]; lia.
  - change (19 =? 0) with false. change (19 <? 19) with false. change (1 =? 0) with false. change (1 <? 19) with true. cbv iota.
    pose proof (year_len y Y). lia.
Qed.

(** ** the encoder on civil days, in integers *)
(** exact civil day [E], coefficient [c]: the historical civil day whose sunset the encoder takes *)
Definition henc (E c : Z) : option Z :=
  let J := E - c in
  if zgap (2 * J) then None
  else let H := J + zdiff (2 * J) meeus_breaks + c in
       if zinvalid (2 * H) then None else Some H.
(** historical civil day of an exact civil day outside the gap *)
Definition HI (E : Z) : Z := E + zdiff (2 * E) meeus_breaks.
Lemma EX_HI E : zgap (2 * E) = false -> EX (HI E) = E /\ zinvalid (2 * HI E) = false.
Proof.
  intro G. unfold EX, HI. replace (2 * (E + zdiff (2 * E) meeus_breaks)) with (2 * E + 2 * zdiff (2 * E) meeus_breaks) by lia.
  destruct (m_e (2 * E) G) as [A B]. rewrite A, B. split; [lia|reflexivity].
Qed.

(** first exact civil day after each skipped historical leap day *)
Definition break_days : list Z :=
  [1757642; 1794166; 1830690; 1903739; 1940263; 1976787; 2049836; 2086360; 2122884; 2195933; 2232457; 2268981].
Definition GAP0 : Z := 2299149.
(** away from the breaks the encoder takes the sunset of exact civil day [E] *)
Lemma henc_regular E c : -2 <= c <= 0 -> (forall b, In b break_days -> E < b - 2 \/ b <= E) ->
  E < GAP0 - 2 \/ GAP0 + 10 <= E -> henc E c = Some (HI E) /\ zgap (2 * E) = false.
Proof.
  intros C B G. unfold GAP0 in G. unfold henc, HI, zgap.
  assert (D : zdiff (2 * (E - c)) meeus_breaks = zdiff (2 * E) meeus_breaks).
  { assert (B1 : forall b, In b break_days -> ~ (2 * E < 2 * b - 1 <= 2 * (E - c))) by (intros b I; specialize (B b I); lia).
    assert (G1 : ~ (2 * E < 4598297 <= 2 * (E - c))) by lia. clear B G.
    assert (L : 2 * E <= 2 * (E - c) <= 2 * E + 4) by lia. set (h := 2 * E) in *. set (h' := 2 * (E - c)) in *. clearbody h h'. clear E c C.
    pose proof (zdiff_m_cases h) as H. pose proof (zdiff_m_cases h') as H'. cbv zeta in H, H'.
    set (n := zdiff h meeus_breaks) in *. set (n' := zdiff h' meeus_breaks) in *. clearbody n n'.
    split_or H; split_or H'; try reflexivity; exfalso; try lia;
    match type of H' with ?k <= h' < _ => let b := eval compute in ((k + 1) / 2) in pose proof (B1 b ltac:(cbn; tauto)); lia end. }
  cbv zeta. rewrite D.
  assert (X : zgap (2 * (E - c)) = false) by (unfold zgap; lia). unfold zgap in X. rewrite X.
  assert (X' : zgap (2 * E) = false) by (unfold zgap; lia). 
  replace (E - c + zdiff (2 * E) meeus_breaks + c) with (E + zdiff (2 * E) meeus_breaks) by lia.
  destruct (EX_HI E X') as [_ I]. unfold HI in I. rewrite I. split; [reflexivity|]. exact X'.
Qed.

(** exact civil day of a date *)
Definition ED (y mo d : Z) : Z := zrd y mo d + 1721423.

(** every date except the listed ones is encoded as the sunset of its own civil day *)
Definition windows : list Z := flat_map (fun b => [b - 2; b - 1]) break_days ++ zlist (GAP0 - 2) 12.
Definition win_years : list Z := [-1744; -1644; -1544; -1344; -1244; -1144; -944; -844; -744; -544; -444; -344; -261].
Lemma window_year y E : -1843 <= y <= 1161 -> ystart y <= E - 1721423 < ystart (y + 1) -> In E windows -> In y win_years.
Proof.
  intros Y R W.
  assert (X : existsb (fun y' => (ystart y' <=? E - 1721423) && (E - 1721423 <? ystart (y' + 1))) win_years = true).
  { revert E W R. 
    assert (A : forallb (fun E => existsb (fun y' => (ystart y' <=? E - 1721423) && (E - 1721423 <? ystart (y' + 1))) win_years) windows = true)
      by (vm_compute; reflexivity).
    rewrite forallb_forall in A. intros E W _. exact (A E W). }
  apply existsb_exists in X. destruct X as (y' & I & X).
  assert (Y' : -1843 <= y' <= 1161).
  { assert (Z : (-1843 <=? y') && (y' <=? 1161) = true); [|lia]. revert y' I X.
    assert (A : forallb (fun y' => (-1843 <=? y') && (y' <=? 1161)) win_years = true) by reflexivity.
    rewrite forallb_forall in A. intros y' I _. exact (A y' I). }
  rewrite (year_unique y y' (E - 1721423)); [exact I|exact Y|exact Y'|exact R|lia].
Qed.
Definition tripleb (p q : Z * Z * Z) : bool :=
  let '(a, b, c) := p in let '(a', b', c') := q in (a =? a') && (b =? b') && (c =? c').
Lemma tripleb_eq p q : tripleb p q = true <-> p = q.
Proof.
  destruct p as [[a b] c], q as [[a' b'] c']. unfold tripleb. split.
  - intro H. assert (a = a' /\ b = b' /\ c = c') as (-> & -> & ->) by lia. reflexivity.
  - intro H. injection H as -> -> ->. lia.
Qed.
Definition inb (p : Z * Z * Z) (l : list (Z * Z * Z)) : bool := existsb (tripleb p) l.
Lemma inb_in p l : inb p l = true <-> In p l.
Proof.
  unfold inb. rewrite existsb_exists. split.
  - intros (q & I & E). apply tripleb_eq in E. subst q. exact I.
  - intro I. exists p. split; [exact I|apply tripleb_eq; reflexivity].
Qed.
Definition oeqb (a b : option Z) : bool := match a, b with Some x, Some y => x =? y | None, None => true | _, _ => false end.
Lemma oeqb_eq a b : oeqb a b = true -> a = b.
Proof. destruct a, b; cbn; intro H; try discriminate; [f_equal; lia|reflexivity]. Qed.

(** what the encoder does with each date *)
Definition henc_spec (y mo d : Z) : option Z :=
  let p := (y, mo, d) in
  if inb p skipped_bdates || inb p reform_bdates then None
  else if tripleb p after_reform then Some (HI (ED y mo d - 10))
  else Some (HI (ED y mo d)).
Definition win_check (y : Z) : bool :=
  forallb (fun mo => forallb (fun d => oeqb (henc (ED y mo d) (get_day_coeff y)) (henc_spec y mo d))
     (zlist 1 (Z.to_nat (bmonth_len (zleap y) mo)))) (zlist 0 20).
Lemma win_checked : forallb win_check win_years = true.
Proof. vm_compute. reflexivity. Qed.

Lemma not_window E : ~ In E windows -> (forall b, In b break_days -> E < b - 2 \/ b <= E) /\ (E < GAP0 - 2 \/ GAP0 + 10 <= E).
Proof.
  intro W. split.
  - intros b B. destruct (Z_lt_ge_dec E (b - 2)); [left; assumption|]. destruct (Z_lt_ge_dec E b); [|right; lia].
    exfalso. apply W. unfold windows. apply in_or_app. left. apply in_flat_map. exists b. split; [exact B|].
    cbn [In]. destruct (Z.eq_dec E (b - 2)); [left; lia|right; left; lia].
  - destruct (Z_lt_ge_dec E (GAP0 - 2)); [left; assumption|]. destruct (Z_lt_ge_dec E (GAP0 + 10)); [|right; lia].
    exfalso. apply W. unfold windows. apply in_or_app. right. apply zlist_in. lia.
Qed.
Lemma in_win_dec E : {In E windows} + {~ In E windows}.
Proof. apply in_dec, Z.eq_dec. Qed.
Lemma not_win_year_list y mo d : ~ In y win_years -> inb (y, mo, d) skipped_bdates || inb (y, mo, d) reform_bdates = false
  /\ tripleb (y, mo, d) after_reform = false.
Proof.
  intro W.
  assert (X : inb (y, mo, d) (after_reform :: skipped_bdates ++ reform_bdates) = false).
  { destruct (inb _ _) eqn:E; [|reflexivity]. exfalso. apply W. apply inb_in in E.
    assert (A : forallb (fun p => existsb (Z.eqb (fst (fst p))) win_years) (after_reform :: skipped_bdates ++ reform_bdates) = true) by reflexivity.
    rewrite forallb_forall in A. apply A in E. cbn [fst] in E. apply existsb_exists in E. destruct E as (z & I & E). 
    assert (y = z) by lia. subst z. exact I. }
  unfold inb in *. cbn [existsb] in X. rewrite existsb_app in X. apply orb_false_iff in X. destruct X as [X1 X2]. split; assumption.
Qed.
Lemma henc_date y mo d : -1843 <= y <= 1161 -> 0 <= mo <= 19 -> 1 <= d <= bmonth_len (zleap y) mo ->
  henc (ED y mo d) (get_day_coeff y) = henc_spec y mo d.
Proof.
  intros Y M D. destruct (in_dec Z.eq_dec y win_years) as [W|W].
  - pose proof win_checked as K. rewrite forallb_forall in K. specialize (K y W). unfold win_check in K.
    rewrite forallb_forall in K. specialize (K mo (zlist_in 0 20 mo ltac:(lia))). rewrite forallb_forall in K.
    apply oeqb_eq, K, zlist_in. rewrite Z2Nat.id; [lia|]. unfold bmonth_len. destruct (mo =? 0); destruct (zleap y); lia.
  - destruct (in_win_dec (ED y mo d)) as [I|I].
    + exfalso. apply W. apply (window_year y (ED y mo d)); [exact Y| |exact I]. unfold ED.
      pose proof (rd_range y mo d Y M D). lia.
    + destruct (not_window _ I) as [A B]. destruct (henc_regular _ _ (coeff_range y ltac:(lia)) A B) as [E _]. rewrite E.
      destruct (not_win_year_list y mo d W) as [L1 L2]. unfold henc_spec. rewrite L1, L2. reflexivity.
Qed.
