(** QUtil.v -- setoid instances and small lemmas on rationals (proof support only). *)
From Coq Require Import ZArith QArith Qround Qabs List Bool Lia Lqa Setoid Morphisms.
From Verif Require Import Base Flt.
Local Open Scope Q_scope.

Global Instance Qltb_comp : Proper (Qeq ==> Qeq ==> eq) Qltb.
Proof. intros a b E c d F. unfold Qltb. rewrite E, F. reflexivity. Qed.
Global Instance Qleb_comp' : Proper (Qeq ==> Qeq ==> eq) Qleb.
Proof. intros a b E c d F. unfold Qleb. rewrite E, F. reflexivity. Qed.
Global Instance Qeqb_comp : Proper (Qeq ==> Qeq ==> eq) Qeqb.
Proof. intros a b E c d F. unfold Qeqb. rewrite E, F. reflexivity. Qed.
Global Instance Qtrunc_comp : Proper (Qeq ==> eq) Qtrunc.
Proof. intros a b E. unfold Qtrunc. rewrite (Qfloor_comp _ _ E), (Qceiling_comp _ _ E), E. reflexivity. Qed.
Global Instance rne_comp' : Proper (Qeq ==> eq) rne.
Proof.
  intros a b E. unfold rne. cbv zeta. rewrite (Qfloor_comp _ _ E).
  assert (F : a - inject_Z (Qfloor b) == b - inject_Z (Qfloor b)) by (rewrite E; reflexivity).
  rewrite !F. reflexivity.
Qed.
Global Instance qround_comp n : Proper (Qeq ==> Qeq) (qround n).
Proof. intros a b E. unfold qround. rewrite E. reflexivity. Qed.

Lemma rne_Z z : rne (inject_Z z) = z.
Proof.
  unfold rne. rewrite Qfloor_Z.
  destruct (Qltb_lt (inject_Z z - inject_Z z) (1#2)) as [_ H]. rewrite H; [reflexivity|]. lra.
Qed.

(** decimal rounding leaves numbers with that many decimals alone *)
Lemma qround_grid n x k : x * inject_Z (10 ^ Zpos n) == inject_Z k -> qround n x == x.
Proof.
  intro H. unfold qround. rewrite H, rne_Z, <- H.
  field. intro C. assert (10 ^ Zpos n > 0)%Z by (apply Z.lt_gt, Z.pow_pos_nonneg; lia).
  unfold Qeq in C. cbn in C. lia.
Qed.

Lemma half_Z z : (z # 2) == inject_Z z * (1#2).
Proof. unfold Qeq, Qmult, inject_Z; cbn [Qnum Qden Pos.mul]. lia. Qed.
Lemma twice_half z : (2 * z # 2) == inject_Z z.
Proof. unfold Qeq, inject_Z; cbn [Qnum Qden]. lia. Qed.

(** push [inject_Z] to the leaves everywhere, constants become rational literals *)
Ltac zconsts :=
  repeat match goal with
  | |- context [inject_Z (Zpos ?p)] => change (inject_Z (Zpos p)) with (Zpos p # 1)
  | |- context [inject_Z (Zneg ?p)] => change (inject_Z (Zneg p)) with (Zneg p # 1)
  | |- context [inject_Z Z0] => change (inject_Z Z0) with (0 # 1)
  | H : context [inject_Z (Zpos ?p)] |- _ => change (inject_Z (Zpos p)) with (Zpos p # 1) in H
  | H : context [inject_Z (Zneg ?p)] |- _ => change (inject_Z (Zneg p)) with (Zneg p # 1) in H
  | H : context [inject_Z Z0] |- _ => change (inject_Z Z0) with (0 # 1) in H
  end.
Ltac zpush :=
  repeat match goal with
  | |- context [inject_Z (?a + ?b)%Z] => rewrite (inject_Z_plus a b)
  | |- context [inject_Z (?a - ?b)%Z] => rewrite (inject_Z_sub a b)
  | |- context [inject_Z (?a * ?b)%Z] => rewrite (inject_Z_mult a b)
  | |- context [inject_Z (- ?a)%Z] => rewrite (inject_Z_opp a)
  | H : context [inject_Z (?a + ?b)%Z] |- _ => rewrite (inject_Z_plus a b) in H
  | H : context [inject_Z (?a - ?b)%Z] |- _ => rewrite (inject_Z_sub a b) in H
  | H : context [inject_Z (?a * ?b)%Z] |- _ => rewrite (inject_Z_mult a b) in H
  | H : context [inject_Z (- ?a)%Z] |- _ => rewrite (inject_Z_opp a) in H
  end; zconsts.
(** turn a Z (in)equality hypothesis into a Q one *)
Lemma Zlt_Q1 a b : (a < b)%Z -> inject_Z a + 1 <= inject_Z b.
Proof. intro H. assert (A : (a + 1 <= b)%Z) by lia. rewrite Zle_Qle, inject_Z_plus in A. exact A. Qed.
Lemma Zeq_Q a b : (a = b)%Z -> inject_Z a == inject_Z b.
Proof. intros ->. reflexivity. Qed.
Ltac toQ H :=
  match type of H with
  | (_ <= _)%Z => rewrite Zle_Qle in H
  | (_ < _)%Z => apply Zlt_Q1 in H
  | (_ >= _)%Z => apply Z.ge_le in H; rewrite Zle_Qle in H
  | (_ > _)%Z => apply Z.gt_lt in H; apply Zlt_Q1 in H
  | @eq Z _ _ => apply Zeq_Q in H
  end.
Ltac qlra := zpush; lra.
(** prove a Z inequality through Q: negate it and let lra refute *)
Ltac byQ :=
  match goal with
  | |- (?a <= ?b)%Z => let H := fresh "N" in destruct (Z_le_gt_dec a b) as [H|H]; [exact H | exfalso; toQ H; qlra]
  | |- (?a < ?b)%Z => let H := fresh "N" in destruct (Z_lt_ge_dec a b) as [H|H]; [exact H | exfalso; toQ H; qlra]
  | |- (?a >= ?b)%Z => apply Z.le_ge; byQ
  end.
Ltac byQeq := apply Z.le_antisymm; byQ.
(** rewrite symbolic half-integers *)
Ltac hz :=
  repeat match goal with
  | |- context [Qmake ?z 2] =>
      lazymatch z with Zpos _ => fail | Zneg _ => fail | Z0 => fail | _ => rewrite (half_Z z) end
  | H : context [Qmake ?z 2] |- _ =>
      lazymatch z with Zpos _ => fail | Zneg _ => fail | Z0 => fail | _ => rewrite (half_Z z) in H end
  end.

Lemma Qeqb_eq x y : Qeqb x y = true <-> x == y.
Proof. unfold Qeqb. apply Qeq_bool_iff. Qed.
Lemma Qeqb_neq x y : Qeqb x y = false <-> ~ x == y.
Proof. rewrite <- Qeqb_eq. destruct (Qeqb x y); split; congruence. Qed.
