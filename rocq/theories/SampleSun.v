(** SampleSun.v -- a concrete sunset function meeting both hypotheses on sunsets, evening and naw_ruz_order,
    for every admissible rounding; used by the examples beside the theorems about dates. *)
From Coq Require Import ZArith QArith Qround Qabs List Bool Lia Lqa Setoid Morphisms.
From Coq Require Import ZifyBool ZifyNat ZifyN.
From Verif Require Import Base Flt QUtil BaseModel BadiModel BaseProofs BaseProofs2 SunProofs SpecBadi BadiProofs BadiProofs2 DecProofs BadiProofs4 TduModel SpecDate TduProofs TduProofs2.
Import ListNotations.
Local Open Scope Q_scope.
Ltac Zify.zify_post_hook ::= Z.div_mod_to_equations.

(** 18:00 local mean time every day, except 17:45:36 on the three Naw-Ruz singled out by _ymd2ord and 17:38:24
    on (-1843, 19, 19) *)
Definition sample_sun (jd _ _ : Q) : Q :=
  let day := Qfloor (jd + 1) in
  if existsb (Z.eqb day) [1738303; 1739764; 1741225]%Z then 74 # 100
  else if (day =? 1721500)%Z then 735 # 1000 else 3 # 4.
Lemma sample_evening rnd : evening rnd sample_sun.
Proof. intros H jd _ _. unfold sample_sun. destruct (existsb _ _); [split; discriminate|]. destruct (_ =? _)%Z; split; discriminate. Qed.

Definition sday (H : Z) : Q :=
  if existsb (Z.eqb H) [1738303; 1739764; 1741225]%Z then 74 # 100 else if (H =? 1721500)%Z then 735 # 1000 else 3 # 4.

Section Sample.
Variable rnd : Q -> Q.
Hypothesis N : Nearest rnd.
Notation m := sample_sun.
Let EV := sample_evening rnd.
Let band := band rnd N m EV.

Lemma sample_mu H : (1700001 < H < 2900000)%Z -> mu rnd m H = sday H.
Proof.
  intro R. unfold mu, sample_sun. pose proof (arg_near rnd N H R) as A. unfold lf in A.
  assert (F : Qfloor (arg rnd H + 1) = H) by (apply Qfloor_spec; zpush; lra). rewrite F. reflexivity.
Qed.
Lemma sample_AE H : (1700001 < H < 2900000)%Z -> Qabs (AE rnd m H - inject_Z (EX H) - (sday H - (1#2) - (51288701 # 360000000))) <= 1 # 100000000.
Proof.
  intro R. destruct (AE_eq rnd N m band H R) as [E _]. pose proof (SS_near rnd N m band H R) as S. rewrite (sample_mu H R) in S. rewrite E. unfold EX, lf in *.
  rewrite inject_Z_sub. apply Qabs_le_iff in S. apply Qabs_le_iff. split; lra.
Qed.

Definition listed (y : Z) : bool := existsb (Z.eqb y) [-1796; -1792; -1788]%Z.
Lemma listed_days : forallb (fun y => Bool.eqb (existsb (Z.eqb (HI (ystart y + 1721423))) [1738303; 1739764; 1741225]%Z) (listed y)
   && negb (HI (ystart y + 1721423) =? 1721500)%Z) (zlist (-1843) 3006) = true.
Proof. vm_compute. reflexivity. Qed.
Lemma sday_naw_ruz y : (-1843 <= y <= 1162)%Z -> sday (HI (ystart y + 1721423)) = if listed y then 74 # 100 else 3 # 4.
Proof.
  intro Y. pose proof (proj1 (forallb_forall _ _) listed_days y (zlist_in (-1843) 3006 y ltac:(lia))) as K. cbv beta in K.
  apply andb_prop in K. destruct K as [K1 K2]. apply eqb_prop in K1. apply negb_true_iff in K2. unfold sday. rewrite K1, K2. reflexivity.
Qed.
Lemma day0_AE : exists j, to_jd rnd m (bd (-1843) 19 19) = Ok j /\ j == AE rnd m 1721500.
Proof.
  pose proof (to_jd_henc rnd N m EV (-1843) 19 19 ltac:(lia) ltac:(lia) ltac:(vm_compute; split; discriminate)) as K.
  assert (E : henc_spec (-1843) 19 19 = Some 1721500%Z) by (vm_compute; reflexivity). rewrite E in K.
  destruct K as (_ & j & J & Q & _). exists j. tauto.
Qed.

Theorem sample_order : naw_ruz_order rnd m.
Proof.
  intros y Y. destruct (naw_ruz_AE rnd N m EV y Y) as (j & J & _ & E & R & X). destruct day0_AE as (j0 & J0 & E0).
  pose proof (sample_AE _ R) as A. rewrite X, (sday_naw_ruz y Y) in A. set (H := HI (ystart y + 1721423)) in *.
  pose proof (sample_AE 1721500 ltac:(lia)) as A0. change (EX 1721500) with 1721500%Z in A0. change (sday 1721500) with (735 # 1000) in A0. change (inject_Z 1721500) with 1721500 in A0.
  rewrite <- E in A. rewrite <- E0 in A0. apply Qabs_le_iff in A, A0. set (e := inject_Z (ystart y + 1721423)) in *.
  assert (FJ : Qfloor j = (ystart y + 1721423)%Z) by (apply Qfloor_spec; zpush; unfold e in A; destruct (listed y); zpush; lra).
  assert (FJ0 : Qfloor j0 = 1721500%Z) by (apply Qfloor_spec; [change (inject_Z 1721500) with 1721500|change (inject_Z (1721500 + 1)) with 1721501]; lra).
  intros (f & f0 & (k & K & ->) & (k0 & K0 & ->) & LT). assert (k = j) by congruence. assert (k0 = j0) by congruence. subst k k0.
  rewrite FJ, FJ0 in LT. fold e in LT. change (inject_Z 1721500) with 1721500 in LT. destruct (listed y); lra.
Qed.
End Sample.
