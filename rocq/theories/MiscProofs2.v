From Coq Require Import ZArith QArith Qround Qabs List Bool Lia Lqa Setoid Morphisms Ascii String.
From Coq Require Import ZifyBool ZifyNat ZifyN.
From Verif Require Import Base Flt QUtil BaseModel GregModel SpecGreg SpecMisc GregProofs GregProofs2 BaseProofs MiscModel.
Import ListNotations.
Local Open Scope Q_scope.
Ltac Zify.zify_post_hook ::= Z.div_mod_to_equations.

(** C50 *)
Lemma split_60 (x : Q) (u v : Z) : 0 <= x -> u = Qfloor x -> v = Qfloor ((x - inject_Z u) * 60) ->
  (0 <= u)%Z /\ (0 <= v <= 59)%Z /\ 0 <= (x - inject_Z u - inject_Z v / 60) * 3600 < 60 /\
  inject_Z u + inject_Z v / 60 + (x - inject_Z u - inject_Z v / 60) * 3600 / 3600 == x.
Proof.
  intros H0 Hu Hv.
  pose proof (Qfloor_le x) as A. pose proof (Qlt_floor x) as B. rewrite <- Hu in A, B.
  pose proof (Qfloor_le ((x - inject_Z u) * 60)) as C. pose proof (Qlt_floor ((x - inject_Z u) * 60)) as D.
  rewrite <- Hv in C, D. rewrite inject_Z_plus in B, D. change (inject_Z 1) with 1 in B, D. clear Hu Hv.
  assert (E : inject_Z v / 60 == inject_Z v * (1 # 60)) by (unfold Qdiv; reflexivity).
  split; [byQ; qlra|]. split; [split; byQ; qlra|]. split; [rewrite E; lra|]. field.
Qed.
Lemma word_cases w : (3 <= String.length w)%nat ->
  (String.prefix w "LATITUDE" || String.prefix w "LONGITUDE")%bool = true ->
  w = "LAT"%string \/
  (exists t, t <> ""%string /\ w = ("LAT" ++ t)%string /\ String.prefix t "ITUDE" = true) \/
  (exists t, w = ("LON" ++ t)%string /\ String.prefix t "GITUDE" = true).
Proof.
  intros L P. destruct w as [|a [|b [|c w]]]; cbn [String.length] in L; try lia. clear L.
  cbn [String.prefix] in P.
  destruct (ascii_dec a "L"); [subst a|cbn [orb] in P; discriminate].
  destruct (ascii_dec b "A"); [subst b|].
  - replace (if ascii_dec "A" "O" then _ else _) with false in P by reflexivity.
    rewrite orb_false_r in P. destruct (ascii_dec c "T"); [subst c|discriminate].
    destruct w as [|d w]; [left; reflexivity|]. right; left. exists (String d w). split; [discriminate|]. split; [reflexivity|exact P].
  - cbn [orb] in P. destruct (ascii_dec b "O"); [subst b|discriminate].
    destruct (ascii_dec c "N"); [subst c|discriminate]. right; right. exists w. split; [reflexivity|exact P].
Qed.

Lemma dms_spec c w dg mi s l : dms_from_decimal c w = Ok (dg, mi, s, l) ->
  (0 <= dg)%Z /\ (0 <= mi <= 59)%Z /\ 0 <= s < 60 /\
  (exists v, decimal_from_dms dg mi s l = Ok v /\ v == c) /\
  (upper w = "LAT"%string -> l = if Qltb c 0 then "S"%string else "N"%string) /\
  (upper w <> "LAT"%string -> l = if Qltb c 0 then "W"%string else "E"%string).
Proof.
  unfold dms_from_decimal. destruct (_ && _)%bool; cbn [passert bind]; [|discriminate]. intro H. injection H as <- <- <- <-.
  destruct (split_60 (Qabs c) _ _ (Qabs_nonneg c) eq_refl eq_refl) as (A & B & C & D).
  split; [exact A|]. split; [exact B|]. split; [exact C|].
  set (dg := Qfloor (Qabs c)) in *. set (mi := Qfloor ((Qabs c - inject_Z dg) * 60)) in *.
  assert (Ab : Z.abs dg = dg) by lia.
  split.
  - destruct (Qltb c 0) eqn:S.
    + apply Qltb_lt in S. exists (- (inject_Z (Z.abs dg) + inject_Z mi / 60 + (Qabs c - inject_Z dg - inject_Z mi / 60) * 3600 / 3600)).
      split; [destruct (String.eqb (upper w) "LAT"); reflexivity|]. rewrite Ab. setoid_rewrite D. rewrite Qabs_neg by lra. ring.
    + apply Qltb_ge in S. exists (inject_Z (Z.abs dg) + inject_Z mi / 60 + (Qabs c - inject_Z dg - inject_Z mi / 60) * 3600 / 3600).
      split; [destruct (String.eqb (upper w) "LAT"); reflexivity|]. rewrite Ab. setoid_rewrite D. apply Qabs_pos; lra.
  - destruct (String.eqb_spec (upper w) "LAT") as [E|E]; split; intro F; try contradiction; reflexivity.
Qed.
Lemma dms_ok_iff c w : (exists r, dms_from_decimal c w = Ok r) <->
  exists t, upper w = ("LAT" ++ t)%string /\ String.prefix t "ITUDE" = true \/
            upper w = ("LON" ++ t)%string /\ String.prefix t "GITUDE" = true.
Proof.
  unfold dms_from_decimal. split.
  - intros [r H]. destruct ((3 <=? String.length (upper w))%nat) eqn:L; cbn [andb passert bind] in H; [|discriminate].
    destruct (_ || _)%bool eqn:P; cbn [passert bind] in H; [|discriminate].
    apply Nat.leb_le in L. destruct (word_cases _ L P) as [E|[(t & _ & E & Q)|(t & E & Q)]].
    + exists ""%string. left. rewrite E. split; reflexivity.
    + exists t. left. split; assumption.
    + exists t. right. split; assumption.
  - assert (P1 : forall t, String.prefix ("LAT" ++ t) "LATITUDE" = String.prefix t "ITUDE") by reflexivity.
    assert (P2 : forall t, String.prefix ("LON" ++ t) "LONGITUDE" = String.prefix t "GITUDE") by reflexivity.
    assert (L3 : forall a t, String.length a = 3%nat -> (3 <=? String.length (a ++ t))%nat = true).
    { intros a t La. destruct a as [|? [|? [|? [|]]]]; try discriminate La. reflexivity. }
    intros [t [[E Q]|[E Q]]]; rewrite E, L3 by reflexivity; [rewrite P1|rewrite P2]; rewrite Q, ?orb_true_r; cbn [orb andb passert bind]; eexists; reflexivity.
Qed.

Lemma hms_degrees_ok deg h m s : hms_from_degrees deg = (h, m, s) ->
  degrees_from_hms h m s == deg /\ (0 <= m <= 59)%Z /\ 0 <= s < 60 /\
  (0 <= deg < 360 -> (0 <= h <= 23)%Z).
Proof.
  unfold hms_from_degrees. set (x := deg / 15). intro H. apply pair_equal_spec in H as [H <-]. apply pair_equal_spec in H as [<- <-].
  assert (Ed : deg == x * 15) by (unfold x; field).
  set (h := Qfloor x). set (m := Qfloor ((x - inject_Z h) * 60)).
  pose proof (Qfloor_le x) as A. pose proof (Qlt_floor x) as B. fold h in A, B.
  pose proof (Qfloor_le ((x - inject_Z h) * 60)) as C. pose proof (Qlt_floor ((x - inject_Z h) * 60)) as D. fold m in C, D.
  rewrite inject_Z_plus in B, D. change (inject_Z 1) with 1 in B, D. clearbody h m x.
  assert (E : inject_Z m / 60 == inject_Z m * (1 # 60)) by (unfold Qdiv; reflexivity).
  split; [unfold degrees_from_hms; apply Qeq_trans with (x * 15); [field|symmetry; exact Ed]|]. split; [split; byQ; qlra|]. split; [rewrite E; lra|].
  intro R. split; byQ; qlra.
Qed.

(** C52 *)
Lemma ds_gday n g : days_since_1970 n g -> let '(y, m, d) := g in
  valid_gdate (leap_rule false) y m d /\ (1970 <= y)%Z /\ n = (gday false y m d - gday false 1970 1 1)%Z.
Proof.
  induction 1 as [|n [[y m] d] [[y' m'] d'] H IH N].
  - split; [|split; [lia|reflexivity]]. exists 31%Z. split; [apply ml31; cbn; tauto|lia].
  - destruct IH as (V & Y & E). pose proof (gday_next false _ _ N) as G. cbn beta iota in G.
    split; [|split].
    + inversion N; subst.
      * exists n0. split; [assumption|lia].
      * destruct (Z.eq_dec m 1) as [->|]; [|].
        -- destruct (is_leap_g false y') eqn:L.
           ++ exists 29%Z. split; [apply ml29, is_leap_g_rule, L|lia].
           ++ exists 28%Z. split; [apply ml28; rewrite <- is_leap_g_rule, L; discriminate|lia].
        -- assert (1 <= m)%Z by (match goal with M : month_len _ m _ |- _ => destruct M as [? I|? I| |]; cbn [In] in I || idtac; lia end).
           assert (C : In (m + 1)%Z [1;3;5;7;8;10;12]%Z \/ In (m + 1)%Z [4;6;9;11]%Z) by (cbn [In]; lia).
           destruct C; [exists 31%Z; split; [apply ml31; assumption|lia]|exists 30%Z; split; [apply ml30; assumption|lia]].
      * exists 31%Z. split; [apply ml31; cbn; tauto|lia].
    + inversion N; subst; lia.
    + lia.
Qed.

Lemma posix_year_ok k y : forall Y days, (Z.of_nat k = y - Y)%Z -> (Y <= y)%Z -> forall rest,
  days = (days_in_years false (y - 1) - days_in_years false (Y - 1) + rest)%Z ->
  (1 <= rest < 365 + b2z (is_leap_g false y))%Z -> forall fuel, (k < fuel)%nat ->
  posix_year fuel Y days = Some (y, rest).
Proof.
  induction k as [|k IH]; intros Y days K L rest D R fuel F; (destruct fuel as [|fuel]; [lia|]); cbn [posix_year].
  - assert (Y = y) by lia. subst Y. replace (days <? _)%Z with true by lia. f_equal. f_equal. lia.
  - pose proof (diy_succ false (Y - 1)) as S. replace (Y - 1 + 1)%Z with Y in S by lia.
    pose proof (diy_mono false Y (y - 1) ltac:(lia)) as M.
    replace (days <? _)%Z with false by lia. apply (IH (Y + 1)%Z); try lia.
    replace (Y + 1 - 1)%Z with Y by lia. lia.
Qed.
Lemma posix_year_last k y : forall Y days, (Z.of_nat k = y - Y)%Z -> (Y <= y)%Z ->
  days = (days_in_years false y - days_in_years false (Y - 1))%Z ->
  forall fuel, (S k < fuel)%nat -> posix_year fuel Y days = Some ((y + 1)%Z, 0%Z).
Proof.
  induction k as [|k IH]; intros Y days K L D fuel F; (destruct fuel as [|fuel]; [lia|]); cbn [posix_year];
  pose proof (diy_succ false (Y - 1)) as S; replace (Y - 1 + 1)%Z with Y in S by lia.
  - assert (Y = y) by lia. subst Y. replace (days <? _)%Z with false by lia.
    destruct fuel as [|fuel]; [lia|]. cbn [posix_year]. replace (_ <? _)%Z with true by (destruct (is_leap_g false (y + 1)); cbn [b2z]; lia).
    f_equal. f_equal. lia.
  - pose proof (diy_mono false Y y ltac:(lia)) as M.
    replace (days <? _)%Z with false by lia. apply (IH (Y + 1)%Z); try lia.
    replace (Y + 1 - 1)%Z with Y by lia. lia.
Qed.
Lemma posix_month_ok b m d : (1 <= m <= 12)%Z -> (1 <= d <= mlen b m)%Z ->
  posix_month (mbefore b m + d) 0 1 (month_days b) = (m, d).
Proof.
  intros M D. destruct b; months M;
  repeat match goal with
  | |- context [mbefore ?b ?k] => let v := eval vm_compute in (mbefore b k) in change (mbefore b k) with v
  | H : context [mlen ?b ?k] |- _ => let v := eval vm_compute in (mlen b k) in change (mlen b k) with v in H
  end; unfold month_days; cbn [posix_month b2z];
  repeat match goal with |- context [(?a <? ?b)%Z] => destruct (Z.ltb_spec a b); try lia end; apply pair_equal_spec; lia.
Qed.
Lemma check_int h y m d hh mi s : (1 <= m <= 12)%Z -> (1583 <= y)%Z -> (0 <= hh < 24)%Z -> (0 <= mi < 60)%Z -> (0 <= d)%Z ->
  check_greg (fun x => x) h y m (inject_Z d) (inject_Z hh) (inject_Z mi) (inject_Z s) =
  if ((1 <=? d) && (d <=? mlen (is_leap_g false y) m))%Z then Ok tt else Err AssertionError.
Proof.
  intros M Y H1 H2 D. unfold check_greg. replace (y <? 1583)%Z with false by lia. rewrite andb_false_r.
  replace (Z.abs m) with m by lia. replace ((1 <=? m) && (m <=? 12))%Z with true by lia. cbn [passert bind].
  assert (Fl : Qfloor (Qabs (inject_Z d)) = d).
  { rewrite <- (Qfloor_Z d) at 2. apply Qfloor_comp. apply Qabs_pos. change 0 with (inject_Z 0). rewrite <- Zle_Qle. lia. }
  rewrite Fl.
  replace (nth _ _ _ + _)%Z with (mlen (is_leap_g false y) m) by (destruct (is_leap_g false y); months M; reflexivity).
  destruct ((1 <=? d) && (d <=? _))%Z; cbn [passert bind]; [|reflexivity].
  assert (L : forall a b, (a < b)%Z -> Qltb (inject_Z a) (inject_Z b) = true) by (intros a b Hab; apply Qltb_lt; rewrite <- Zlt_Qlt; exact Hab).
  change 24 with (inject_Z 24). change 60 with (inject_Z 60). rewrite !L by lia. cbn [passert bind].
  assert (Z0 : forall q z, q == inject_Z z -> Qeqb (fmod1 (fun x => x) q) 0 = true).
  { intros q z E. apply Qeqb_eq. unfold fmod1. assert (T : Qtrunc q = z).
    { unfold Qtrunc. destruct (Qleb 0 q); [rewrite (Qfloor_comp _ _ E); apply Qfloor_Z|rewrite (Qceiling_comp _ _ E); apply Qceiling_Z]. }
    rewrite T. assert (X : q - inject_Z z == 0) by (rewrite E; ring).
    destruct (Qltb (q - inject_Z z) 0) eqn:C; [apply Qltb_lt in C; lra|exact X]. }
  rewrite (Z0 _ d), (Z0 _ hh), (Z0 _ mi); [|reflexivity|reflexivity|apply Qabs_pos; change 0 with (inject_Z 0); rewrite <- Zle_Qle; lia].
  cbn [passert bind]. destruct (_ || _ || _)%bool; cbn [bind]; destruct (_ || _)%bool; cbn [bind]; destruct (negb _); reflexivity.
Qed.

Lemma posix_ok n y m d t : days_since_1970 n (y, m, d) -> (86400 * n <= t < 86400 * (n + 1))%Z ->
  exists fuel0, forall fuel, (fuel0 <= fuel)%nat ->
  ((m, d) <> (12, 31)%Z -> exists hh mi s, posix_timestamp fuel t = Some (Ok (y, m, d, hh, mi, s)) /\
     (0 <= hh < 24 /\ 0 <= mi < 60 /\ 0 <= s < 60 /\ hh * 3600 + mi * 60 + s = t - 86400 * n)%Z) /\
  ((m, d) = (12, 31)%Z -> posix_timestamp fuel t = Some (Err AssertionError)).
Proof.
  intros H T. destruct (ds_gday _ _ H) as (V & Y & E). exists (S (S (Z.to_nat (y - 1970)))). intros fuel F.
  destruct (proj1 (valid_gdate_iff false y m d) V) as [M D].
  unfold posix_timestamp.
  assert (En : (t / 86400 = n)%Z) by lia. rewrite En.
  pose proof (mbefore_range (is_leap_g false y) m M) as MR. pose proof (mbefore_total (is_leap_g false y) m M) as MT.
  pose proof (diy_mono false 1969 (y - 1) ltac:(lia)) as DM.
  assert (N0 : (0 <= n)%Z). { subst n. unfold gday. rewrite mbefore_1. change (1970 - 1)%Z with 1969%Z. lia. }
  replace (Z.abs n) with n by lia.
  assert (Dn : (n + 1 = days_in_years false (y - 1) - days_in_years false (1970 - 1) + (mbefore (is_leap_g false y) m + d))%Z).
  { subst n. unfold gday. rewrite (mbefore_1 (is_leap_g false 1970)). lia. }
  split.
  - intro NL.
    assert (R : (mbefore (is_leap_g false y) m + d < 365 + b2z (is_leap_g false y))%Z).
    { destruct (Z.eq_dec m 12) as [->|].
      - pose proof (mbefore_12 (is_leap_g false y)). assert (mlen (is_leap_g false y) 12 = 31%Z) by reflexivity.
        assert (d <> 31%Z) by congruence. lia.
      - pose proof (mbefore_succ (is_leap_g false y) m ltac:(lia)) as S1.
        pose proof (mbefore_total (is_leap_g false y) (m + 1) ltac:(lia)). pose proof (mlen_range (is_leap_g false y) (m + 1) ltac:(lia)). lia. }
    rewrite (posix_year_ok (Z.to_nat (y - 1970)) y 1970 (n + 1) ltac:(lia) Y _ Dn ltac:(lia) fuel ltac:(lia)).
    rewrite (posix_month_ok _ _ _ M D). rewrite check_int by lia.
    replace ((1 <=? d) && (d <=? _))%Z with true by lia. cbn [bind].
    do 3 eexists. split; [reflexivity|]. lia.
  - intro Lst. injection Lst as -> ->.
    rewrite (posix_year_last (Z.to_nat (y - 1970)) y 1970 (n + 1)); [|lia|lia| |lia].
    + assert (PM : posix_month 0 0 1 (month_days (is_leap_g false (y + 1))) = (1, 0)%Z) by (destruct (is_leap_g false (y + 1)); reflexivity).
      rewrite PM. rewrite check_int by lia. reflexivity.
    + pose proof (mbefore_12 (is_leap_g false y)). pose proof (diy_succ false (y - 1)) as S. replace (y - 1 + 1)%Z with y in S by lia. lia.
Qed.
