(** EquinoxYears.v -- the equinoxes of all the years against their Naw-Ruz (proof support). *)
From Coq Require Import ZArith QArith Qround Qabs Qreals Lqa Reals Lra Lia List Bool.
From Verif Require Import Base Flt QUtil BaseModel BaseProofs BadiModel SunProofs SpecBadi BadiProofs BadiProofs2 SpecDate TduProofs2 GregModel GregProofs MeeusProofs MeeusFloat ConvModel
  AstroModel SpecAstro AstroReal AstroFlt AstroApx AstroSun AstroRise5 AstroDt AstroBall AstroNaw AstroNaw2 AstroNaw3 PropertiesAstro EquinoxModel SpecSeason EquinoxProofs EquinoxBall.
Import ListNotations.
Local Open Scope R_scope.

Definition inside (y : Z) : bool := if Before y 1 then After y 2 else false.
(** the years from [y] on, those of [l] apart *)
Fixpoint sweep (n : nat) (y : Z) (l : list Z) : bool :=
  match n with
  | O => match l with [] => true | _ => false end
  | S n => match l with
           | a :: l' => if (y =? a)%Z then (if Before y 2 then sweep n (y + 1) l' else false) else if inside y then sweep n (y + 1) l else false
           | [] => if (y =? 18)%Z then sweep n (y + 1) l else if inside y then sweep n (y + 1) l else false
           end
  end.
Lemma sweep_ok n : forall y l, sweep n y l = true ->
  (forall x, In x l -> (y <= x)%Z) /\ (forall x, In x l -> Before x 2 = true) /\
  (forall x, (y <= x < y + Z.of_nat n)%Z -> ~ In x l -> x <> 18%Z -> inside x = true).
Proof.
  induction n as [|n IH]; intros y l S; cbn [sweep] in S.
  - destruct l; [|discriminate]. repeat split; [intros x []|intros x []|intros; lia].
  - destruct l as [|a l'].
    + assert (I : (y = 18%Z \/ inside y = true) /\ sweep n (y + 1) [] = true).
      { destruct (Z.eqb_spec y 18); [tauto|]. destruct (inside y); [tauto|discriminate]. }
      destruct I as [I1 I2]. destruct (IH _ _ I2) as (A & B & C). repeat split; [intros x []|intros x []|].
      intros x X NI N18. destruct (Z.eq_dec x y) as [->|]; [tauto|]. apply C; [lia|exact NI|exact N18].
    + destruct (Z.eqb_spec y a) as [<-|NE].
      * destruct (Before y 2) eqn:B2; [|discriminate]. destruct (IH _ _ S) as (A & B & C). repeat split.
        -- intros x [<-|I]; [lia|]. specialize (A x I). lia.
        -- intros x [<-|I]; [exact B2|apply B, I].
        -- intros x X NI N18. apply C; [|intro I; apply NI; right; exact I|exact N18]. assert (x <> y) by (intros ->; apply NI; left; reflexivity). lia.
      * destruct (inside y) eqn:IN; [|discriminate]. destruct (IH _ _ S) as (A & B & C). repeat split.
        -- intros x I. specialize (A x I). lia.
        -- exact B.
        -- intros x X NI N18. destruct (Z.eq_dec x y) as [->|]; [exact IN|]. apply C; [lia|exact NI|exact N18].
Qed.
Lemma swept : sweep 3004 (-1842) early_years = true.
Proof. vm_compute. reflexivity. Qed.
(** the last year *)
Lemma after_1162 : after 3005 (HI (ystart 1162 + 1721423)) (EX (HI (ystart 1162 + 1721423))) = true.
Proof. vm_compute. reflexivity. Qed.
(** year 18, the equinox and the sunset being seconds apart *)
Definition H18 : Z := 2400855.
Definition d18 : ball := bsub (bmoment 1861) (bbase 2400853).
Lemma day_18 : day_of 18 1 = Some (H18, 2400853%Z). Proof. vm_compute. reflexivity. Qed.
Lemma dvs_18 : bdvs_ok 1861 = true. Proof. vm_compute. reflexivity. Qed.
Lemma cell_18 : in_cell H18 (cell_t H18) (cell_l H18) = true. Proof. vm_compute. reflexivity. Qed.
Lemma above_18 : above 758000 (cell_t H18) (cell_l H18) = true. Proof. vm_compute. reflexivity. Qed.
Lemma below_18 : below 758200 (cell_t H18) (cell_l H18) = true. Proof. vm_compute. reflexivity. Qed.
Lemma past_18 : past d18 757985 = true. Proof. vm_compute. reflexivity. Qed.
Lemma short_18 : short d18 758145 = true. Proof. vm_compute. reflexivity. Qed.
Lemma years_greg : forallb (fun y => (fst (fst (dm (ystart y + 1721423))) =? y + 1843)%Z) (zlist (-1843) 3006) = true.
Proof. vm_compute. reflexivity. Qed.

Section Y.
Variable rnd : Q -> Q.
Hypothesis N : Nearest rnd.
Variable lm : libm.
Hypothesis A : accurate lm.
Notation m := (astro_set rnd lm).
Let EV : evening rnd m := C86_evening rnd lm N A.

Lemma naw_ruz_greg y : (-1843 <= y <= 1162)%Z -> exists j, to_jd rnd m (bd y 1 1) = Ok j /\ gregorian_year_from_jd rnd j = (y + 1843)%Z.
Proof.
  intro Y. destruct (naw_ruz_AE rnd N m EV y Y) as (j & J & _ & F & R & X). exists j. split; [exact J|].
  pose proof (AE_range rnd N m (BadiProofs2.band rnd N m EV) _ R) as [B1 B2]. rewrite <- F, X in B1, B2. set (E := (ystart y + 1721423)%Z) in *.
  assert (RE : (0 <= E <= 3000000)%Z) by (pose proof (ystart_range y Y); unfold E; lia).
  assert (Z : Qfloor (fadd rnd j (1 # 2)) = E).
  { destruct RE as [RE1 RE2]. toQ RE1. toQ RE2. change (inject_Z 0) with 0%Q in RE1. change (inject_Z 3000000) with 3000000%Q in RE2.
    assert (Q : (Qabs (fadd rnd j (1 # 2) - (j + (1 # 2))) <= 1 # 1000000)%Q).
    { eapply Qle_trans; [apply (near_err_23 rnd N); apply Qabs_le_iff; split; Lqa.lra|discriminate]. }
    apply Qabs_le_iff in Q. apply Qfloor_spec; zpush; Lqa.lra. }
  unfold gregorian_year_from_jd. rewrite (meeus_ym rnd N j E Z) by lia.
  pose proof (zforall _ (-1843) 3006 years_greg y ltac:(lia)) as G. apply Z.eqb_eq in G. exact G.
Qed.
Lemma year_18 e : Rabs (e - season_date 1861 0 code_divisor) <= 0.000075 -> exists j, to_jd rnd m (bd 18 1 1) = Ok j /\ Rabs (e - (Q2R j + 2)) <= 0.00023.
Proof.
  intro E. destruct (day_of_R rnd N lm A 18 1 ltac:(lia) ltac:(lia) ltac:(rewrite day_18; discriminate)) as (H & j & K & R & J & F).
  rewrite day_18 in K. assert (KH : H = H18) by congruence. assert (KE : EX H = 2400853%Z) by congruence. clear K. subst H.
  exists j. split; [exact J|]. destruct (day_R rnd N lm A H18 j R F) as [J1 _]. rewrite KE in J1. apply Rabs_le_iff in J1.
  pose proof (bsub_in _ _ _ _ (bmoment_in 1861 e dvs_18 E) (bbase_in 2400853)) as C. pose proof (past_R _ _ _ C past_18). pose proof (short_R _ _ _ C short_18).
  pose proof (proj1 (mu_side rnd N lm A H18 _ _ _ R cell_18) above_18). pose proof (proj2 (mu_side rnd N lm A H18 _ _ _ R cell_18) below_18).
  apply Rabs_le_iff. lra.
Qed.
Lemma year_1162 e : Rabs (e - season_date 3005 0 code_divisor) <= 0.000075 -> exists j, to_jd rnd m (bd 1162 1 1) = Ok j /\ e < Q2R j + 2.
Proof.
  intro E. destruct (naw_ruz_AE rnd N m EV 1162 ltac:(lia)) as (j & J & _ & F & R & X). exists j. split; [exact J|].
  exact (after_R rnd N lm A 3005 _ j e ltac:(lia) R F E after_1162).
Qed.
Lemma years y e : (-1842 <= y <= 1161)%Z -> Rabs (e - season_date (y + 1843) 0 code_divisor) <= 0.000075 ->
  (In y early_years -> exists j', to_jd rnd m (bd y 1 2) = Ok j' /\ Q2R j' + 2 < e) /\
  (~ In y early_years -> y <> 18%Z -> exists j j', to_jd rnd m (bd y 1 1) = Ok j /\ to_jd rnd m (bd y 1 2) = Ok j' /\ Q2R j + 2 < e < Q2R j' + 2).
Proof.
  intros Y E. destruct (sweep_ok _ _ _ swept) as (_ & B & C). split.
  - intro I. exact (Before_R rnd N lm A y 2 e Y ltac:(lia) E (B y I)).
  - intros NI N18. specialize (C y ltac:(lia) NI N18). unfold inside in C. destruct (Before y 1) eqn:B1; [|discriminate].
    destruct (Before_R rnd N lm A y 1 e Y ltac:(lia) E B1) as (j & J & L). destruct (After_R rnd N lm A y 2 e Y ltac:(lia) E C) as (j' & J' & L').
    exists j, j'. tauto.
Qed.
End Y.
