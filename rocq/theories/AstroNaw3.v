(** AstroNaw3.v -- with the sunsets the code computes, no Naw-Ruz opens earlier in the day than (-1843, 19, 19) (proof support). *)
From Coq Require Import ZArith QArith Qround Qabs Qreals Lqa Reals Lra Lia List Bool.
From Verif Require Import Base Flt QUtil BaseModel BaseProofs BadiModel SunProofs SpecMisc SpecBadi BadiProofs BadiProofs2 BadiProofs4 SpecDate TduModel TduProofs2
  AstroModel SpecAstro AstroReal AstroFlt AstroApx AstroSun AstroRA AstroRise5 AstroBall AstroNaw AstroNaw2 PropertiesAstro.
Import ListNotations.
Local Open Scope R_scope.

(** thousandths *)
Definition mil (c r : Z) : ball := (c * SZ / 1000, r * SZ / 1000)%Z.
(** the first year after each block, the centuries of the block, the mean longitudes of the sun at its Naw-Ruz *)
Definition blocks : list (Z * (ball * list ball)) := [
  (-1743, (mil (-19503) 496, [mil (-5774) 243; mil (-5291) 244]));
  (-1543, (mil (-18003) 996, [mil (-4036) 984]));
  (-943, (mil (-14003) 2996, [mil (-993) 2031]));
  (-260, (mil (-7588) 3411, [mil (4086) 3019]));
  (440, (mil (-673) 3496, [mil (-3106) 541]));
  (1140, (mil (6322) 3502, [mil (-2945) 575]));
  (1163, (mil (9942) 111, [mil (-2504) 828]))]%Z.
Definition day0_t : ball := mil (-19988) 1.
Definition day0_l : ball := mil (-6973) 3.
Fixpoint block (y : Z) (l : list (Z * (ball * list ball))) : ball * list ball :=
  match l with [] => ((0, 0)%Z, []) | (e, b) :: l' => if (y <? e)%Z then b else block y l' end.
Definition placed (y : Z) : bool := let (t, ls) := block y blocks in existsb (in_cell (HI (ystart y + 1721423)) t) ls.
Lemma blocks_above : forallb (fun b => forallb (above 755800 (fst (snd b))) (snd (snd b))) blocks = true.
Proof. vm_compute. reflexivity. Qed.
Lemma day0_below : in_cell 1721500 day0_t day0_l && below 755770 day0_t day0_l = true.
Proof. vm_compute. reflexivity. Qed.
Lemma years_placed : forallb placed (zlist (-1843) 3006) = true.
Proof. vm_compute. reflexivity. Qed.
Lemma block_in y l t ls : block y l = (t, ls) -> ls <> [] -> exists e, In (e, (t, ls)) l.
Proof.
  induction l as [|[e b] l IH]; cbn; intros E NE; [injection E as <- <-; congruence|].
  destruct (y <? e)%Z; [exists e; left; congruence|]. destruct (IH E NE) as [e' H]. exists e'. right. exact H.
Qed.
Lemma year_cell y : (-1843 <= y <= 1162)%Z -> exists t l, in_cell (HI (ystart y + 1721423)) t l = true /\ above 755800 t l = true.
Proof.
  intro Y. pose proof (zforall placed (-1843) 3006 years_placed y ltac:(lia)) as P. unfold placed in P. destruct (block y blocks) as [t ls] eqn:E.
  apply existsb_exists in P. destruct P as [l [I C]]. exists t, l. split; [exact C|].
  destruct (block_in y blocks t ls E ltac:(intros ->; exact I)) as [e B]. pose proof blocks_above as F. rewrite forallb_forall in F. specialize (F _ B). cbn [fst snd] in F.
  rewrite forallb_forall in F. exact (F l I).
Qed.

Section Order.
Variable rnd : Q -> Q.
Hypothesis N : Nearest rnd.
Variable lm : libm.
Hypothesis A : accurate lm.
Notation m := (astro_set rnd lm).
Let EV : evening rnd m := C86_evening rnd lm N A.
Let band := band rnd N m EV.

Lemma mu_side (H x : Z) t l : (1700001 < H < 2900000)%Z -> in_cell H t l = true ->
  (above x t l = true -> IZR x / 1000000 < Q2R (mu rnd m H)) /\ (below x t l = true -> Q2R (mu rnd m H) < IZR x / 1000000).
Proof.
  intros R HC. pose proof (arg_near rnd N H R) as [A1 A2]. apply Qle_Rle in A1. apply Qle_Rle in A2. unfold lf in *.
  rewrite !Q2R_minus, Q2R_Z in A1. rewrite Q2R_plus, !Q2R_minus, Q2R_Z in A2.
  assert (C1 : Q2R (1 # 2) = 1 / 2) by (unfold Q2R; cbn [Qnum Qden]; lra).
  assert (C2 : Q2R (51288701 # 360000000) = 51.288701 / 360) by (unfold Q2R; cbn [Qnum Qden]; lra).
  assert (C3 : Q2R (1 # 1000000000) = 1 / 1000000000) by (unfold Q2R; cbn [Qnum Qden]; lra).
  rewrite C1, C2, C3 in A1, A2.
  assert (LON : apx (TEHRAN_LON rnd) 51.288701 52 (1 / 1000000000000)).
  { eapply apx_eq; [eapply apx_weaken; [apply (apx_litc rnd 51288701 1000000 N)| |]|]; cbn [Z.abs]; unfold u; lra. }
  assert (LAT : apx (TEHRAN_LAT rnd) 35.69435 36 (1 / 1000000000000)).
  { eapply apx_eq; [eapply apx_weaken; [apply (apx_litc rnd 3569435 100000 N)| |]|]; cbn [Z.abs]; unfold u; lra. }
  destruct LON as [LO _]. destruct LAT as [LA _].
  destruct (sunset_side rnd N lm A H x (arg rnd H) (TEHRAN_LAT rnd) (TEHRAN_LON rnd) t l ltac:(lia) ltac:(lra) ltac:(lra) ltac:(apply Rabs_le_iff; lra) HC) as [v [E S]].
  unfold mu, astro_set. rewrite E. exact S.
Qed.
Lemma day0_AE : exists j, to_jd rnd m (bd (-1843) 19 19) = Ok j /\ (j == AE rnd m 1721500)%Q.
Proof.
  assert (V : (1 <= 19 <= bmonth_len (zleap (-1843)) 19)%Z) by (vm_compute; split; discriminate).
  pose proof (to_jd_henc rnd N m EV (-1843) 19 19 ltac:(lia) ltac:(lia) V) as H.
  assert (E : henc_spec (-1843) 19 19 = Some 1721500%Z) by (vm_compute; reflexivity). rewrite E in H. destruct H as (_ & j & J & F & _). exists j. tauto.
Qed.
Lemma none_earlier y : (-1843 <= y <= 1162)%Z -> ~ opens_earlier rnd m y.
Proof.
  intros Y (f & f0 & (j & J & F) & (j0 & J0 & F0) & L).
  destruct (naw_ruz_AE rnd N m EV y Y) as (k & K & _ & KE & KR & KX). assert (k = j) by congruence. subst k.
  destruct day0_AE as (k0 & K0 & KE0). assert (k0 = j0) by congruence. subst k0.
  set (H := HI (ystart y + 1721423)) in *. assert (R0 : (1700001 < 1721500 < 2900000)%Z) by lia.
  assert (G : forall H j, (1700001 < H < 2900000)%Z -> (j == AE rnd m H)%Q -> (Qabs (j - inject_Z (Qfloor j) - (mu rnd m H - (1 # 2) - lf)) <= 1 # 100000000)%Q).
  { clear - N EV band. intros H j R E. pose proof (AE_range rnd N m band H R) as B. destruct (AE_eq rnd N m band H R) as [X _].
    pose proof (SS_near rnd N m band H R) as S. rewrite <- E in B, X.
    assert (FJ : Qfloor j = EX H) by (apply Qfloor_spec; zpush; Lqa.lra). rewrite FJ. unfold EX in *. rewrite inject_Z_sub in *.
    apply Qabs_le_iff in S. apply Qabs_le_iff. split; Lqa.lra. }
  pose proof (G _ _ KR KE) as G1. pose proof (G _ _ R0 KE0) as G2. rewrite <- F in G1. rewrite <- F0 in G2.
  destruct (year_cell y Y) as (t & l & IC & AB). pose proof day0_below as DB. apply andb_prop in DB. destruct DB as [DB1 DB2].
  destruct (mu_side H 755800 t l KR IC) as [M1 _]. destruct (mu_side 1721500 755770 _ _ R0 DB1) as [_ M2]. specialize (M1 AB). specialize (M2 DB2).
  apply Qabs_R in G1. apply Qabs_R in G2. apply Qlt_Rlt in L. rewrite !Q2R_minus in G1, G2.
  assert (C4 : Q2R (1 # 100000000) = 1 / 100000000) by (unfold Q2R; cbn [Qnum Qden]; lra). rewrite C4 in G1, G2.
  apply Rabs_le_iff in G1. apply Rabs_le_iff in G2. lra.
Qed.
End Order.
