(** Flt.v -- binary floating point with 53-bit significands, abstractly.

    Python [float] is IEEE binary64.  A float value is modelled by the rational it denotes; every
    inexact operation is the exact rational operation followed by [rnd].  [Nearest rnd] says that
    [rnd] rounds to a nearest number of the form m * 2^e with |m| <= 2^53.  Simplification: the
    exponent range is unbounded (no overflow, underflow, NaN or infinity; every quantity in the
    modelled code lies between 1e-20 and 1e20), and the tie-breaking rule is left free. *)
From Coq Require Import ZArith QArith Qround Qabs Qpower Lqa Lia Bool.
From Verif Require Import Base.
Local Open Scope Q_scope.

Definition is_float (x : Q) : Prop :=
  exists m e : Z, (Z.abs m <= 2 ^ 53)%Z /\ x == inject_Z m * (2 ^ e).

Definition Nearest (rnd : Q -> Q) : Prop :=
  (forall x y, x == y -> rnd x == rnd y) /\
  (forall x, is_float (rnd x)) /\
  (forall x f, is_float f -> Qabs (rnd x - x) <= Qabs (f - x)).

(** ** Nearest integer *)
Lemma rne_err x : Qabs (inject_Z (rne x) - x) <= 1#2.
Proof.
  unfold rne.
  pose proof (Qfloor_le x) as A. pose proof (Qlt_floor x) as B.
  rewrite inject_Z_plus in B. change (inject_Z 1) with 1 in B.
  apply Qabs_Qle_condition.
  destruct (Qltb (x - inject_Z (Qfloor x)) (1#2)) eqn:E1.
  - apply Qltb_lt in E1. split; lra.
  - apply Qltb_ge in E1.
    destruct (Qltb (1#2) (x - inject_Z (Qfloor x))) eqn:E2.
    + apply Qltb_lt in E2. rewrite inject_Z_plus. change (inject_Z 1) with 1. split; lra.
    + apply Qltb_ge in E2. destruct (Z.even _).
      * split; lra.
      * rewrite inject_Z_plus. change (inject_Z 1) with 1. split; lra.
Qed.

Lemma inject_Z_sub a b : inject_Z (a - b) == inject_Z a - inject_Z b.
Proof. unfold Z.sub, Qminus. rewrite inject_Z_plus, inject_Z_opp. reflexivity. Qed.

Lemma inject_Z_abs z : Qabs (inject_Z z) == inject_Z (Z.abs z).
Proof. reflexivity. Qed.

(** The nearest integer is at least as near as any other integer. *)
Lemma rne_nearest x (z : Z) : Qabs (inject_Z (rne x) - x) <= Qabs (inject_Z z - x).
Proof.
  destruct (Z.eq_dec z (rne x)) as [->|N]; [apply Qle_refl|].
  pose proof (rne_err x) as H.
  assert (D : 1 <= Qabs (inject_Z z - inject_Z (rne x))).
  { rewrite <- inject_Z_sub. rewrite inject_Z_abs.
    change 1 with (inject_Z 1). rewrite <- Zle_Qle. lia. }
  pose proof (Qabs_triangle (inject_Z z - x) (x - inject_Z (rne x))) as T.
  setoid_replace (inject_Z z - x + (x - inject_Z (rne x)))
    with (inject_Z z - inject_Z (rne x)) in T by ring.
  rewrite (Qabs_Qminus x (inject_Z (rne x))) in T.
  lra.
Qed.

(** ** Powers of two *)
Lemma two_pow_pos (e : Z) : 0 < 2 ^ e.
Proof. apply Qpower_0_lt. reflexivity. Qed.

Lemma two_pow_plus (a b : Z) : 2 ^ (a + b) == 2 ^ a * 2 ^ b.
Proof. apply Qpower_plus. discriminate. Qed.

Lemma two_pow_Z (n : Z) : (0 <= n)%Z -> 2 ^ n == inject_Z (2 ^ n).
Proof. intro H. rewrite Zpower_Qpower by exact H. reflexivity. Qed.

Lemma Qabs_mult_pos u x : 0 < u -> Qabs (x * u) == Qabs x * u.
Proof.
  intro H. rewrite Qabs_Qmult. rewrite (Qabs_pos u) by (apply Qlt_le_weak; exact H). reflexivity.
Qed.

Lemma abs_round_bound (n b : Z) (y : Q) :
  Qabs y <= inject_Z b -> Qabs (inject_Z n - y) <= 1#2 -> (Z.abs n <= b)%Z.
Proof.
  intros H1 H2.
  apply Qabs_Qle_condition in H1. apply Qabs_Qle_condition in H2.
  destruct H1 as [A1 A2]. destruct H2 as [B1 B2].
  assert (U : inject_Z n < inject_Z (b + 1)).
  { rewrite inject_Z_plus. change (inject_Z 1) with 1. lra. }
  assert (L : inject_Z (- (b + 1)) < inject_Z n).
  { rewrite inject_Z_opp, inject_Z_plus. change (inject_Z 1) with 1. lra. }
  rewrite <- Zlt_Qlt in U, L. lia.
Qed.

(** ** Consequences of [Nearest] *)
Section Cons.
Variable rnd : Q -> Q.
Hypothesis N : Nearest rnd.

Lemma near_proper x y : x == y -> rnd x == rnd y.
Proof. destruct N as [P _]. apply P. Qed.

Lemma near_float x : is_float (rnd x).
Proof. destruct N as (_ & P & _). apply P. Qed.

Lemma near_exact x : is_float x -> rnd x == x.
Proof.
  intro F. destruct N as (_ & _ & P). specialize (P x x F).
  setoid_replace (x - x) with 0 in P by ring. change (Qabs 0) with 0 in P.
  apply Qabs_Qle_condition in P. destruct P. lra.
Qed.

Lemma near_err (k : Z) x : Qabs x <= 2 ^ k -> Qabs (rnd x - x) <= 2 ^ (k - 54).
Proof.
  intro H.
  pose (u := 2 ^ (k - 53)).
  assert (U : 0 < u) by apply two_pow_pos.
  pose (n := rne (x / u)).
  assert (E : Qabs (inject_Z n - x / u) <= 1#2) by apply rne_err.
  assert (B : Qabs (x / u) <= inject_Z (2 ^ 53)).
  { unfold Qdiv. rewrite Qabs_Qmult.
    rewrite (Qabs_pos (/u)) by (apply Qlt_le_weak; apply Qinv_lt_0_compat; exact U).
    apply Qle_shift_div_r; [exact U|].
    eapply Qle_trans; [exact H|]. apply Qle_lteq. right.
    rewrite <- two_pow_Z by lia. unfold u. rewrite <- two_pow_plus.
    replace (53 + (k - 53))%Z with k by lia. reflexivity. }
  assert (M : (Z.abs n <= 2 ^ 53)%Z) by (eapply abs_round_bound; eassumption).
  assert (F : is_float (inject_Z n * u)).
  { exists n, (k - 53)%Z. split; [exact M | reflexivity]. }
  destruct N as (_ & _ & P). specialize (P x _ F).
  eapply Qle_trans; [exact P|].
  setoid_replace (inject_Z n * u - x) with ((inject_Z n - x / u) * u)
    by (field; intro C; rewrite C in U; discriminate U).
  rewrite Qabs_mult_pos by exact U.
  setoid_replace (2 ^ (k - 54)) with ((1#2) * u).
  - apply Qmult_le_compat_r; [exact E | apply Qlt_le_weak; exact U].
  - unfold u. replace (k - 53)%Z with (1 + (k - 54))%Z by lia.
    rewrite two_pow_plus. change (2 ^ 1) with 2. ring.
Qed.

Lemma near_mono x y : x <= y -> rnd x <= rnd y.
Proof.
  intro H. apply Qnot_lt_le. intro C.
  destruct N as (P & Fl & Nr).
  pose proof (Nr x _ (Fl y)) as A. pose proof (Nr y _ (Fl x)) as B.
  set (a := rnd y) in *. set (b := rnd x) in *.
  assert (X : (a + b) * (1#2) <= x).
  { apply Qnot_lt_le. intro D.
    assert (Qabs (b - x) == b - x) as E by (apply Qabs_pos; lra).
    rewrite E in A. destruct (Qlt_le_dec a x).
    - rewrite Qabs_neg in A by lra. lra.
    - rewrite Qabs_pos in A by lra. lra. }
  assert (Y : y <= (a + b) * (1#2)).
  { apply Qnot_lt_le. intro D.
    assert (Qabs (a - y) == y - a) as E by (rewrite Qabs_neg by lra; ring).
    rewrite E in B. destruct (Qlt_le_dec b y).
    - rewrite Qabs_neg in B by lra. lra.
    - rewrite Qabs_pos in B by lra. lra. }
  assert (EQ : x == y) by lra.
  apply P in EQ. fold a b in EQ. rewrite EQ in C. apply (Qlt_irrefl _ C).
Qed.

Lemma near_int (z : Z) : (Z.abs z <= 2 ^ 53)%Z -> rnd (inject_Z z) == inject_Z z.
Proof.
  intro H. apply near_exact. exists z, 0%Z. split; [exact H|].
  change (2 ^ 0) with 1. ring.
Qed.

(** Multiples of [2^-k] in range are exact. *)
Lemma near_dyadic (x : Q) (m e : Z) :
  (Z.abs m <= 2 ^ 53)%Z -> x == inject_Z m * 2 ^ e -> rnd x == x.
Proof. intros H E. apply near_exact. exists m, e. split; assumption. Qed.

Lemma near_nonneg x : 0 <= x -> 0 <= rnd x.
Proof.
  intro H. apply near_mono in H.
  rewrite (near_int 0) in H by (vm_compute; discriminate). exact H.
Qed.

(** Convenience bounds at the magnitudes of Julian days and day fractions. *)
Lemma near_err_23 x : Qabs x <= 8388608 -> Qabs (rnd x - x) <= 1 # 2147483648.
Proof. intro H. apply (near_err 23). exact H. Qed.

Lemma near_err_1 x : Qabs x <= 2 -> Qabs (rnd x - x) <= 1 # 9007199254740992.
Proof. intro H. apply (near_err 1). exact H. Qed.

End Cons.

(** ** A concrete rounding: ties to even, as IEEE 754 binary64 *)

(** Scale exponent for a non-zero rational: afterwards 2^52 <= |x| / 2^e < 2^54. *)
Definition b64_exp (x : Q) : Z := (Z.log2 (Z.abs (Qnum x)) - Z.log2 (Zpos (Qden x)) - 53)%Z.

Definition scale2 (e : Z) (x : Q) : Q :=   (* x * 2^e, built from shifts so that it computes fast *)
  if (0 <=? e)%Z then (Qnum x * 2 ^ e) # (Qden x)
  else Qnum x # (Qden x * Z.to_pos (2 ^ (- e))).

Definition b64r (x : Q) : Q :=
  if (Qnum x =? 0)%Z then 0
  else
    let e := b64_exp x in
    let y := scale2 (- e) x in
    if Qleb (Qabs y) (inject_Z (2 ^ 53))
    then scale2 e (inject_Z (rne y))
    else scale2 (e + 1) (inject_Z (rne (scale2 (- (e + 1)) x))).

Definition b64 (x : Q) : Q := b64r (Qred x).

Lemma scale2_ok e x : scale2 e x == x * 2 ^ e.
Proof.
  unfold scale2. destruct (0 <=? e)%Z eqn:E.
  - apply Z.leb_le in E. rewrite two_pow_Z by exact E.
    destruct x as [a b]. unfold Qeq, Qmult, inject_Z. cbn [Qnum Qden]. rewrite Pos.mul_1_r. reflexivity.
  - apply Z.leb_gt in E.
    replace e with (- (- e))%Z at 2 by lia. rewrite Qpower_opp. rewrite two_pow_Z by lia.
    assert (P : (0 < 2 ^ (- e))%Z) by (apply Z.pow_pos_nonneg; lia).
    destruct (2 ^ (- e))%Z as [|p|p] eqn:W; try lia.
    destruct x as [a b]. cbn [Z.to_pos]. unfold Qeq, Qmult, Qinv, inject_Z. cbn [Qnum Qden].
    rewrite !Pos2Z.inj_mul. lia.
Qed.

Lemma b64_exp_ok x : ~ x == 0 ->
  inject_Z (2 ^ 52) * 2 ^ (b64_exp x) <= Qabs x /\ Qabs x < inject_Z (2 ^ 54) * 2 ^ (b64_exp x).
Proof.
  intro H. destruct x as [a b]. unfold b64_exp. cbn [Qnum Qden].
  assert (A : (0 < Z.abs a)%Z).
  { destruct (Z.eq_dec a 0) as [->|]; [exfalso; apply H; reflexivity | lia]. }
  pose proof (Z.log2_spec _ A) as [A1 A2].
  pose proof (Z.log2_spec (Zpos b) ltac:(lia)) as [B1 B2].
  set (la := Z.log2 (Z.abs a)) in *. set (lb := Z.log2 (Zpos b)) in *.
  assert (La : (0 <= la)%Z) by apply Z.log2_nonneg.
  assert (Lb : (0 <= lb)%Z) by apply Z.log2_nonneg.
  assert (AB : Qabs (a # b) == inject_Z (Z.abs a) / inject_Z (Zpos b)).
  { unfold Qabs. destruct a; unfold Qeq, Qdiv, Qmult, Qinv, inject_Z; cbn; lia. }
  rewrite AB.
  assert (PB : 0 < inject_Z (Zpos b)) by reflexivity.
  assert (E1 : inject_Z (2 ^ la) <= inject_Z (Z.abs a)) by (rewrite <- Zle_Qle; exact A1).
  assert (E2 : inject_Z (Z.abs a) < inject_Z (2 ^ Z.succ la)) by (rewrite <- Zlt_Qlt; exact A2).
  assert (E3 : inject_Z (2 ^ lb) <= inject_Z (Zpos b)) by (rewrite <- Zle_Qle; exact B1).
  assert (E4 : inject_Z (Zpos b) < inject_Z (2 ^ Z.succ lb)) by (rewrite <- Zlt_Qlt; exact B2).
  rewrite <- !two_pow_Z in * by lia.
  rewrite <- !two_pow_plus.
  split.
  - apply Qle_shift_div_l; [exact PB|].
    eapply Qle_trans; [|exact E1].
    eapply Qle_trans.
    { apply Qlt_le_weak. apply Qmult_lt_l; [apply two_pow_pos | exact E4]. }
    rewrite <- two_pow_plus. replace (52 + (la - lb - 53) + Z.succ lb)%Z with la by lia.
    apply Qle_refl.
  - apply Qlt_shift_div_r; [exact PB|].
    eapply Qlt_le_trans; [exact E2|].
    eapply Qle_trans.
    2:{ apply Qmult_le_l; [apply two_pow_pos | exact E3]. }
    rewrite <- two_pow_plus. replace (54 + (la - lb - 53) + lb)%Z with (Z.succ la) by lia.
    apply Qle_refl.
Qed.

(** With 2^52 <= |x|/2^e <= 2^53, rounding x/2^e to an integer is a nearest rounding. *)
Lemma scaled_nearest x e f :
  inject_Z (2 ^ 52) * 2 ^ e <= Qabs x -> is_float f ->
  Qabs (inject_Z (rne (x * 2 ^ (- e))) * 2 ^ e - x) <= Qabs (f - x).
Proof.
  intros L (m & e' & Hm & Hf).
  assert (U : 0 < 2 ^ e) by apply two_pow_pos.
  assert (UN : ~ 2 ^ e == 0) by (intro C; rewrite C in U; discriminate U).
  assert (INV : x == (x * 2 ^ (- e)) * 2 ^ e).
  { rewrite Qpower_opp. field. exact UN. }
  set (y := x * 2 ^ (- e)) in *.
  assert (G : forall z : Z, Qabs (inject_Z (rne y) * 2 ^ e - x) <= Qabs (inject_Z z * 2 ^ e - x)).
  { intro z. rewrite INV.
    setoid_replace (inject_Z (rne y) * 2 ^ e - y * 2 ^ e) with ((inject_Z (rne y) - y) * 2 ^ e) by ring.
    setoid_replace (inject_Z z * 2 ^ e - y * 2 ^ e) with ((inject_Z z - y) * 2 ^ e) by ring.
    rewrite !Qabs_mult_pos by exact U.
    apply Qmult_le_compat_r; [apply rne_nearest | apply Qlt_le_weak; exact U]. }
  destruct (Z_le_gt_dec e e') as [C|C].
  - assert (Hf' : f == inject_Z (m * 2 ^ (e' - e)) * 2 ^ e).
    { rewrite Hf. rewrite inject_Z_mult. rewrite <- two_pow_Z by lia.
      replace e' with ((e' - e) + e)%Z at 1 by lia. rewrite two_pow_plus. ring. }
    rewrite Hf'. apply G.
  - (* smaller exponent: |f| <= 2^52 * 2^e <= |x| *)
    assert (Fb : Qabs f <= inject_Z (2 ^ 52) * 2 ^ e).
    { rewrite Hf. rewrite Qabs_mult_pos by apply two_pow_pos. rewrite inject_Z_abs.
      assert (X : inject_Z (Z.abs m) <= inject_Z (2 ^ 53)) by (rewrite <- Zle_Qle; exact Hm).
      eapply Qle_trans.
      { apply Qmult_le_compat_r; [exact X | apply Qlt_le_weak; apply two_pow_pos]. }
      rewrite <- !two_pow_Z by lia. rewrite <- !two_pow_plus.
      apply Qpower_le_compat_l; [lia | discriminate]. }
    pose proof (Qabs_triangle_reverse x f) as T.
    rewrite Qabs_Qminus in T.
    eapply Qle_trans; [|exact T].
    eapply Qle_trans; [apply (G (if Qleb 0 x then 2 ^ 52 else - 2 ^ 52)%Z)|].
    destruct (Qleb 0 x) eqn:S.
    + apply Qleb_le in S. rewrite (Qabs_pos x) in * by exact S.
      rewrite Qabs_neg by lra. lra.
    + apply Qleb_gt in S. rewrite (Qabs_neg x) in * by lra.
      rewrite inject_Z_opp. rewrite Qabs_pos by lra. lra.
Qed.

Lemma rne_comp x y : x == y -> rne x = rne y.
Proof.
  intro H. unfold rne. rewrite (Qfloor_comp _ _ H).
  assert (E : x - inject_Z (Qfloor y) == y - inject_Z (Qfloor y)) by (rewrite H; reflexivity).
  unfold Qltb. rewrite !E. reflexivity.
Qed.

Lemma rne_bound y b : Qabs y <= inject_Z b -> (Z.abs (rne y) <= b)%Z.
Proof. intro H. eapply abs_round_bound; [exact H | apply rne_err]. Qed.

Lemma b64r_ok x :
  is_float (b64r x) /\ forall f, is_float f -> Qabs (b64r x - x) <= Qabs (f - x).
Proof.
  unfold b64r. destruct (Qnum x =? 0)%Z eqn:Z0.
  - apply Z.eqb_eq in Z0.
    assert (X : x == 0) by (destruct x; cbn in *; subst; reflexivity).
    split.
    + exists 0%Z, 0%Z. split; [vm_compute; discriminate | reflexivity].
    + intros f _. rewrite X. setoid_replace (0 - 0) with 0 by ring. apply Qabs_nonneg.
  - apply Z.eqb_neq in Z0.
    assert (X : ~ x == 0).
    { intro C. apply Z0. destruct x as [a b]. unfold Qeq in C. cbn in *. lia. }
    destruct (b64_exp_ok x X) as [L U].
    set (e := b64_exp x) in *.
    assert (PE : 0 < 2 ^ e) by apply two_pow_pos.
    destruct (Qleb (Qabs (scale2 (- e) x)) (inject_Z (2 ^ 53))) eqn:T.
    + apply Qleb_le in T. split.
      * exists (rne (scale2 (- e) x)), e. split; [apply rne_bound; exact T | apply scale2_ok].
      * intros f F. rewrite scale2_ok. rewrite (rne_comp _ _ (scale2_ok (- e) x)).
        apply scaled_nearest; assumption.
    + apply Qleb_gt in T. rewrite scale2_ok in T.
      assert (A : Qabs (x * 2 ^ (- (e + 1))) <= inject_Z (2 ^ 53)).
      { rewrite Qabs_mult_pos by apply two_pow_pos.
        apply Qlt_le_weak. apply Qlt_le_trans with (inject_Z (2 ^ 54) * 2 ^ e * 2 ^ (- (e + 1))).
        - apply Qmult_lt_r; [apply two_pow_pos | exact U].
        - rewrite <- !two_pow_Z by lia. rewrite <- !two_pow_plus.
          replace (54 + e + - (e + 1))%Z with 53%Z by lia. apply Qle_refl. }
      assert (L' : inject_Z (2 ^ 52) * 2 ^ (e + 1) <= Qabs x).
      { rewrite Qabs_mult_pos in T by apply two_pow_pos.
        apply Qlt_le_weak.
        apply Qle_lt_trans with (inject_Z (2 ^ 53) * 2 ^ e).
        - rewrite <- !two_pow_Z by lia. rewrite <- !two_pow_plus.
          replace (52 + (e + 1))%Z with (53 + e)%Z by lia. apply Qle_refl.
        - assert (T' : inject_Z (2 ^ 53) * 2 ^ e < Qabs x * 2 ^ (- e) * 2 ^ e)
            by (apply Qmult_lt_r; [exact PE | exact T]).
          rewrite <- Qmult_assoc in T'. rewrite <- two_pow_plus in T'.
          replace (- e + e)%Z with 0%Z in T' by lia. change (2 ^ 0) with 1 in T'.
          rewrite Qmult_1_r in T'. exact T'. }
      split.
      * exists (rne (scale2 (- (e + 1)) x)), (e + 1)%Z. split.
        -- apply rne_bound. rewrite scale2_ok. exact A.
        -- apply scale2_ok.
      * intros f F. rewrite scale2_ok. rewrite (rne_comp _ _ (scale2_ok (- (e + 1)) x)).
        apply scaled_nearest; assumption.
Qed.

(** The concrete rounding qualifies: the hypothesis [Nearest] is not vacuous. *)
Theorem b64_nearest : Nearest b64.
Proof.
  unfold b64. split; [|split].
  - intros x y E. apply Qred_complete in E. rewrite E. reflexivity.
  - intro x. apply b64r_ok.
  - intros x f F. destruct (b64r_ok (Qred x)) as [_ P]. specialize (P f F).
    rewrite (Qred_correct x) in P at 2. rewrite (Qred_correct x) in P at 2. exact P.
Qed.

Example b64_tenth : b64 (1 # 10) == 3602879701896397 # 36028797018963968 /\ b64 (1 # 3) == 6004799503160661 # 18014398509481984.
Proof. split; vm_compute; reflexivity. Qed.
