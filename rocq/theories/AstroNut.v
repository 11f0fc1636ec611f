(** AstroNut.v -- bounds of the nutation and of the obliquity of the ecliptic (proof support). *)
From Coq Require Import ZArith QArith Qabs Qreals Lqa Reals Lra Lia List Bool.
From Verif Require Import Base Flt QUtil BaseModel BaseProofs AstroModel SpecAstro AstroReal AstroReal2 AstroFlt AstroApx AstroSun.
Import ListNotations.
Local Open Scope R_scope.

Section Nut.
Variable rnd : Q -> Q.
Hypothesis N : Nearest rnd.
Variable lm : libm.
Hypothesis A : accurate lm.

Section InQ.
Local Open Scope Q_scope.
Lemma rnd_le x B : Qabs x <= B -> Qabs (rnd x) <= B * (1 + uq).
Proof.
  intro H. pose proof (flq rnd N x) as F. setoid_replace (rnd x) with (x + (rnd x - x)) by ring.
  eapply Qle_trans; [apply Qabs_triangle|]. unfold uq in *. Lqa.lra.
Qed.
Lemma mul_le x y X Y : Qabs x <= X -> Qabs y <= Y -> Qabs (x * y) <= X * Y.
Proof. intros. rewrite Qabs_Qmult. apply Qmult_le_compat_nonneg; split; auto using Qabs_nonneg. Qed.
Lemma add_le x y X Y : Qabs x <= X -> Qabs y <= Y -> Qabs (x + y) <= X + Y.
Proof. intros. eapply Qle_trans; [apply Qabs_triangle|]. apply Qplus_le_compat; assumption. Qed.

Definition rowb (a at_ : Z) : Q := (Qabs (inject_Z a) + Qabs (at_ # 10) * TX) * (100001 # 100000).
Lemma term_le a at_ tc s : Qabs tc <= TX -> Qabs s <= 1000001 # 1000000 ->
  Qabs (fmul rnd (fadd rnd (inject_Z a) (fmul rnd (lit rnd at_ 10) tc)) s) <= rowb a at_.
Proof.
  intros T S. unfold fmul, fadd, lit, rowb. set (p := Qabs (inject_Z a)). set (q := Qabs (at_ # 10)).
  assert (P0 : 0 <= p) by apply Qabs_nonneg. assert (Q0 : 0 <= q) by apply Qabs_nonneg.
  pose proof (rnd_le (at_ # 10) q (Qle_refl _)) as E1.
  pose proof (rnd_le _ _ (mul_le _ _ _ _ E1 T)) as E2.
  pose proof (rnd_le _ _ (add_le (inject_Z a) _ p _ (Qle_refl _) E2)) as E3.
  pose proof (rnd_le _ _ (mul_le _ _ _ _ E3 S)) as E4. eapply Qle_trans; [exact E4|].
  unfold TX, uq. Lqa.lra.
Qed.
Definition row : Type := (Z * Z * Z * Z * Z * Z * Z * Z * Z)%type.
Fixpoint nb (f : row -> Q) (l : list row) (B : Q) : Q := match l with [] => B | r :: l' => nb f l' (qup ((B + f r) * (1 + uq))) end.
Definition f1 (r : row) : Q := let '(_, _, _, _, _, psi, psit, _, _) := r in rowb psi psit.
Definition f2 (r : row) : Q := let '(_, _, _, _, _, _, _, eps, epst) := r in rowb eps epst.
Lemma fold_le tc a b c d e l : Qabs tc <= TX -> forall s B1 B2, Qabs (fst s) <= B1 -> Qabs (snd s) <= B2 ->
  Qabs (fst (fold_left (nut_step rnd lm tc a b c d e) l s)) <= nb f1 l B1 /\
  Qabs (snd (fold_left (nut_step rnd lm tc a b c d e) l s)) <= nb f2 l B2.
Proof.
  intro T. induction l as [|r l IH]; intros s B1 B2 H1 H2; cbn [fold_left nb]; [split; assumption|].
  destruct r as [[[[[[[[? ?] ?] ?] ?] psi] psit] eps] epst]. apply IH; cbn [nut_step fst snd f1 f2].
  - eapply Qle_trans; [|apply qup_le]. unfold fadd at 1. apply rnd_le, add_le; [exact H1|]. apply term_le; [exact T|apply (sin_deg_1 rnd lm A)].
  - eapply Qle_trans; [|apply qup_le]. unfold fadd at 1. apply rnd_le, add_le; [exact H2|]. apply term_le; [exact T|apply (cos_deg_1 rnd lm A)].
Qed.
Lemma nutation_le tc : Qabs tc <= TX ->
  Qabs (nutation_longitude rnd lm tc) <= 6 # 1000 /\ Qabs (nutation_obliquity rnd lm tc) <= 29 # 10000.
Proof.
  intro T. unfold nutation_longitude, nutation_obliquity, nutation_obliquity_longitude. cbv zeta. cbn [fst snd].
  match goal with |- context [fold_left (nut_step rnd lm tc ?a ?b ?c ?d ?e) NUT _] =>
    destruct (fold_le tc a b c d e NUT T (0, 0) 0 0 ltac:(discriminate) ltac:(discriminate)) as [H1 H2];
    revert H1 H2; generalize (fold_left (nut_step rnd lm tc a b c d e) NUT (0, 0)) end.
  intros s H1 H2.
  assert (N1 : nb f1 NUT 0 <= 205000) by (vm_compute; discriminate). assert (N2 : nb f2 NUT 0 <= 104000) by (vm_compute; discriminate).
  assert (D : forall x B, Qabs x <= B -> Qabs (fdiv rnd x 36000000) <= (B * (1 # 36000000)) * (1 + uq)).
  { intros x B H. unfold fdiv. apply rnd_le. setoid_replace (x / 36000000) with (x * (1 # 36000000)) by field.
    apply mul_le; [exact H|vm_compute; discriminate]. }
  split.
  - eapply Qle_trans; [exact (D _ 205000 (Qle_trans _ _ _ H1 N1))|vm_compute; discriminate].
  - eapply Qle_trans; [exact (D _ 104000 (Qle_trans _ _ _ H2 N2))|vm_compute; discriminate].
Qed.
End InQ.
End Nut.
