From Coq Require Import ZArith QArith Qround Qabs List Bool Lia Lqa Setoid Morphisms Ascii String.
From Coq Require Import ZifyBool ZifyNat ZifyN.
From Verif Require Import Base Flt QUtil BaseModel GregModel SpecGreg SpecMisc GregProofs GregProofs2 BaseProofs MiscModel.
Import ListNotations.
Local Open Scope Q_scope.
Ltac Zify.zify_post_hook ::= Z.div_mod_to_equations.

(** C40 *)
Lemma divide_and_round_ok a b : b <> 0%Z -> exists q, divide_and_round a b = Ok q /\
  (2 * Z.abs (a - q * b) <= Z.abs b)%Z /\ (2 * Z.abs (a - q * b) = Z.abs b -> Z.even q = true)%Z.
Proof.
  intro Hb. unfold divide_and_round. replace (b =? 0)%Z with false by lia.
  eexists. split; [reflexivity|].
  pose proof (Z.div_mod a b Hb) as D. set (q := (a / b)%Z) in *. set (r := (a mod b)%Z) in *.
  assert (R : (0 <= r < b \/ b < r <= 0)%Z).
  { subst r. destruct (Z_lt_ge_dec 0 b); [left; apply Z.mod_pos_bound; lia|right; apply Z.mod_neg_bound; lia]. }
  clearbody q r.
  assert (E : forall z, Z.even z = (z mod 2 =? 0)%Z) by (intro z; apply Zmod_even_eqb || (rewrite Zmod_even; destruct (Z.even z); reflexivity)).
  rewrite E.
  destruct (0 <? b)%Z eqn:B.
  - destruct (b <? r * 2)%Z eqn:G; cbn [orb].
    + subst a. replace (b * q + r - (q + 1) * b)%Z with (r - b)%Z by ring. split; lia.
    + destruct ((r * 2 =? b)%Z && (q mod 2 =? 1)%Z)%bool eqn:T.
      * subst a. replace (b * q + r - (q + 1) * b)%Z with (r - b)%Z by ring. split; lia.
      * subst a. replace (b * q + r - (q + 0) * b)%Z with r by ring. split; lia.
  - destruct (r * 2 <? b)%Z eqn:G; cbn [orb].
    + subst a. replace (b * q + r - (q + 1) * b)%Z with (r - b)%Z by ring. split; lia.
    + destruct ((r * 2 =? b)%Z && (q mod 2 =? 1)%Z)%bool eqn:T.
      * subst a. replace (b * q + r - (q + 1) * b)%Z with (r - b)%Z by ring. split; lia.
      * subst a. replace (b * q + r - (q + 0) * b)%Z with r by ring. split; lia.
Qed.

Lemma divide_and_round_nearest a b : b <> 0%Z -> exists q, divide_and_round a b = Ok q /\ nearest_even a b q.
Proof.
  intro Hb. destruct (divide_and_round_ok a b Hb) as (q & E & A & T). exists q. split; [exact E|].
  assert (X : forall q', q' <> q -> (Z.abs b <= Z.abs (a - q * b) + Z.abs (a - q' * b))%Z).
  { intros q' N. assert (Z.abs ((q - q') * b) = (Z.abs (q - q') * Z.abs b)%Z) by apply Z.abs_mul.
    assert (Z.abs b <= Z.abs (q - q') * Z.abs b)%Z by nia. 
    assert ((q - q') * b = (a - q' * b) - (a - q * b))%Z by ring. lia. }
  split.
  - intro q'. destruct (Z.eq_dec q' q) as [->|N]; [lia|]. specialize (X q' N). lia.
  - intros q' N Eq. specialize (X q' N). apply Z.even_spec, T. lia.
Qed.

(** C46 *)
Lemma xor_boolean_count l : xor_boolean l = true <->
  (count_occ bool_dec l true = 0 \/ Nat.Odd (count_occ bool_dec l true))%nat.
Proof.
  unfold xor_boolean. 
  assert (E : fold_right (fun b n => (b2z b + n)%Z) 0%Z l = Z.of_nat (count_occ bool_dec l true)).
  { induction l as [|b l IH]; [reflexivity|]. cbn [fold_right count_occ]. rewrite IH.
    destruct b; cbn [b2z]; destruct (bool_dec _ true); try discriminate; try congruence; lia. }
  rewrite E. set (n := count_occ bool_dec l true). clearbody n. split.
  - intro H. destruct (Z.eq_dec (Z.of_nat n) 0); [left; lia|right].
    exists (Nat.div n 2). lia.
  - intros [->|[k ->]]; lia.
Qed.

(** C49 *)
Lemma power_sum_shift x a : forall n, power_sum_from (S n) x a == x * power_sum_from n x a.
Proof. induction a as [|c a IH]; intro n; cbn [power_sum_from]; [ring|]. rewrite (IH (S n)). cbn [qpow]. ring. Qed.
Lemma poly_ok x a : poly idr x a == power_sum x a.
Proof.
  unfold power_sum. induction a as [|c a IH]; [reflexivity|].
  cbn [poly power_sum_from qpow]. rewrite power_sum_shift. unfold fadd, fmul, idr in *. rewrite IH. ring.
Qed.
Lemma fmod360_ok v : exists k, v == fmod360 v + 360 * inject_Z k /\ Qabs (fmod360 v) < 360 /\ (0 <= v -> 0 <= fmod360 v) /\ (v < 0 -> fmod360 v <= 0).
Proof.
  exists (Qtrunc (v / 360)). unfold fmod360. split; [ring|]. unfold Qtrunc.
  assert (S : v == v / 360 * 360) by field.
  destruct (Qleb 0 (v / 360)) eqn:E.
  - apply Qleb_le in E. pose proof (Qfloor_le (v / 360)) as A. pose proof (Qlt_floor (v / 360)) as B.
    set (q := v / 360) in *. rewrite inject_Z_plus in B. change (inject_Z 1) with 1 in B.
    split; [apply Qabs_case; intro; lra|split; intro; lra].
  - apply Qleb_gt in E. pose proof (Qle_ceiling (v / 360)) as A. pose proof (Qceiling_lt (v / 360)) as B.
    set (q := v / 360) in *. unfold Zminus in B. rewrite inject_Z_plus in B. change (inject_Z (- (1))) with (-1) in B.
    split; [apply Qabs_case; intro; lra|split; intro; lra].
Qed.
Lemma coterminal_ok v : 0 <= coterminal_angle idr v < 360 /\ exists k, coterminal_angle idr v == v + 360 * inject_Z k.
Proof.
  destruct (fmod360_ok v) as (k & A & B & C & D). unfold coterminal_angle, fadd, idr.
  assert (B' : - (360) < fmod360 v < 360). { revert B. apply Qabs_case; intros; lra. }
  destruct (Qltb (fmod360 v) 0) eqn:E.
  - apply Qltb_lt in E. split; [lra|]. exists (1 - k)%Z. unfold Zminus. rewrite inject_Z_plus, inject_Z_opp. change (inject_Z 1) with 1. lra.
  - apply Qltb_ge in E. split; [lra|]. exists (- k)%Z. rewrite inject_Z_opp. lra.
Qed.
Lemma interpolation_ok a b c t n :
  let p x := a + b * x + c * x * x in
  interpolation_from_three idr (p (t - 1)) (p t) (p (t + 1)) n false == p (t + n).
Proof. unfold interpolation_from_three, fadd, fsub, fmul, fdiv, idr. cbn zeta. field. Qed.

(** C53 *)
Lemma trim_scan_true l : trim_scan true l = l.
Proof. induction l as [|v l IH]; [reflexivity|]. cbn [trim_scan]. rewrite andb_false_r, IH. reflexivity. Qed.
Lemma trim_scan_ok l : exists z, l = z ++ trim_scan false l /\ Forall (fun x => x == 0) z /\ (trim_scan false l = [] \/ exists x l', trim_scan false l = x :: l' /\ ~ x == 0).
Proof.
  induction l as [|v l (z & A & B & C)].
  - exists []. repeat split; [constructor|left; reflexivity].
  - cbn [trim_scan]. destruct (Qeqb v 0) eqn:E; cbn [andb negb].
    + exists (v :: z). cbn [app]. rewrite <- A. repeat split; [constructor; [apply Qeqb_eq; exact E|exact B]|exact C].
    + exists []. rewrite trim_scan_true. repeat split; [constructor|]. right. exists v, l. split; [reflexivity|]. apply Qeqb_neq; exact E.
Qed.
Lemma trim_ok l : trimmed l (trim_hms l).
Proof.
  unfold trim_hms. destruct (trim_scan_ok (rev l)) as (z & A & B & C). split.
  - exists (rev z). split.
    + rewrite <- rev_app_distr, <- A. symmetry. apply rev_involutive.
    + apply Forall_rev. exact B.
  - destruct C as [->|(x & l' & -> & H)]; [left; reflexivity|]. right. exists (rev l'), x. split; [reflexivity|exact H].
Qed.

(** C51 *)
Lemma dhms_ok s d h mi sec : dhms_from_seconds idr s 0 = (d, h, mi, sec) ->
  inject_Z (d * 86400 + h * 3600 + mi * 60) + sec == s /\ (0 <= mi <= 59)%Z /\ 0 <= sec < 60 /\
  (d = 0 \/ d = 1)%Z /\ (d = 0%Z <-> s < 86400) /\ (0 <= s -> (0 <= h)%Z) /\ (s < 172800 -> (h <= 23)%Z) /\
  (172800 <= s -> (24 <= h)%Z) /\ (s < 0 -> (h < 0)%Z).
Proof.
  unfold dhms_from_seconds, fadd, fsub, fmul, fdiv, idr. intro H.
  set (s' := s + 0 * 3600) in *. assert (Es : s' == s) by (unfold s'; ring). clearbody s'.
  set (hh := Qfloor (s' / 3600)) in *. set (mm := Qfloor ((s' - inject_Z (hh * 3600)) / 60)) in *.
  assert (A : inject_Z hh * 3600 <= s' < inject_Z hh * 3600 + 3600).
  { pose proof (Qfloor_le (s' / 3600)) as A. pose proof (Qlt_floor (s' / 3600)) as B. fold hh in A, B.
    rewrite inject_Z_plus in B. change (inject_Z 1) with 1 in B. assert (s' == s' / 3600 * 3600) by field.
    set (q := s' / 3600) in *. lra. }
  assert (B : inject_Z mm * 60 <= s' - inject_Z hh * 3600 < inject_Z mm * 60 + 60).
  { pose proof (Qfloor_le ((s' - inject_Z (hh * 3600)) / 60)) as P. pose proof (Qlt_floor ((s' - inject_Z (hh * 3600)) / 60)) as R. fold mm in P, R.
    rewrite inject_Z_plus in R. change (inject_Z 1) with 1 in R. 
    assert (s' - inject_Z hh * 3600 == (s' - inject_Z (hh * 3600)) / 60 * 60) by (rewrite inject_Z_mult; change (inject_Z 3600) with 3600; field).
    set (q := (s' - inject_Z (hh * 3600)) / 60) in *. lra. }
  clearbody hh mm.
  assert (M : (0 <= mm <= 59)%Z) by (split; byQ; qlra).
  assert (H86 : s < 86400 -> (hh < 24)%Z) by (intro L; byQ; qlra).
  assert (H86' : 86400 <= s -> (24 <= hh)%Z) by (intro L; byQ; qlra).
  assert (H0 : 0 <= s -> (0 <= hh)%Z) by (intro L; byQ; qlra).
  assert (H0' : s < 0 -> (hh < 0)%Z) by (intro L; byQ; qlra).
  assert (H2 : s < 172800 -> (hh <= 47)%Z) by (intro L; byQ; qlra).
  assert (H2' : 172800 <= s -> (48 <= hh)%Z) by (intro L; byQ; qlra).
  assert (X86 : s < 86400 \/ 86400 <= s) by (destruct (Qlt_le_dec s 86400); tauto).
  assert (X0 : s < 0 \/ 0 <= s) by (destruct (Qlt_le_dec s 0); tauto).
  assert (X2 : s < 172800 \/ 172800 <= s) by (destruct (Qlt_le_dec s 172800); tauto).
  destruct (hh <? 24)%Z eqn:L; injection H as <- <- <- <-.
  - assert (s < 86400) by (destruct X86 as [|X]; [assumption|specialize (H86' X); lia]).
    repeat split; try tauto; try lia; try (intro; (lia || (exfalso; lra))); qlra.
  - assert (86400 <= s) by (destruct X86 as [X|]; [specialize (H86 X); lia|assumption]).
    repeat split; try tauto; try lia; try (intro; (lia || (exfalso; lra))); try qlra.
    all: intro Y; try (specialize (H2 Y)); try (specialize (H2' Y)); try (specialize (H0 Y)); lia || (exfalso; lra) || (exfalso; lia).
Qed.
Lemma dhms_recombine s d h mi sec : dhms_from_seconds idr s 0 = (d, h, mi, sec) ->
  exists v, seconds_from_dhms idr d h mi sec 0 0 = Ok v /\ v == s.
Proof.
  intro H. destruct (dhms_ok _ _ _ _ _ H) as [E _]. unfold seconds_from_dhms. cbn [Z.ltb Z.compare bind].
  eexists. split; [reflexivity|]. unfold fadd, fmul, idr. lra.
Qed.
Lemma dhms_hour_range s d h mi sec : dhms_from_seconds idr s 0 = (d, h, mi, sec) ->
  ((0 <= h <= 23)%Z <-> 0 <= s < 172800).
Proof.
  intro H. destruct (dhms_ok _ _ _ _ _ H) as (_ & A & B & C & D & E & F & G & I). split.
  - intro X. destruct (Qlt_le_dec s 0) as [Y|Y]; [specialize (I Y); lia|].
    destruct (Qlt_le_dec s 172800) as [Y'|Y']; [tauto|specialize (G Y'); lia].
  - intros [X Y]. specialize (E X). specialize (F Y). lia.
Qed.
