(** AstroFlt.v -- floats inside real-number estimates (proof support). *)
From Coq Require Import ZArith QArith Qround Qabs Qreals Lqa Reals Lra Lia List Bool.
From Verif Require Import Base Flt QUtil BaseModel BaseProofs AstroModel SpecAstro AstroReal AstroReal2.
Import ListNotations.
Local Open Scope R_scope.

Lemma Q2R_abs x : Q2R (Qabs x) = Rabs (Q2R x).
Proof.
  destruct (Qlt_le_dec x 0) as [H|H].
  - rewrite (Qeq_eqR _ _ (Qabs_neg x (Qlt_le_weak _ _ H))), Q2R_opp. apply Qlt_Rlt in H. rewrite RMicromega.Q2R_0 in H. rewrite Rabs_left; [reflexivity|exact H].
  - rewrite (Qeq_eqR _ _ (Qabs_pos x H)). apply Qle_Rle in H. rewrite RMicromega.Q2R_0 in H. rewrite Rabs_right; [reflexivity|apply Rle_ge, H].
Qed.
Lemma Qabs_R x q : (Qabs x <= q)%Q -> Rabs (Q2R x) <= Q2R q.
Proof. intro H. rewrite <- Q2R_abs. apply Qle_Rle, H. Qed.
Lemma R_Qabs x q : Rabs (Q2R x) <= Q2R q -> (Qabs x <= q)%Q.
Proof. intro H. apply Rle_Qle. rewrite Q2R_abs. exact H. Qed.
Lemma Q2R_lit a b : Q2R (a # b) = IZR a / IZR (Zpos b).
Proof. reflexivity. Qed.
Lemma Q2R_Z z : Q2R (inject_Z z) = IZR z.
Proof. unfold Q2R, inject_Z. cbn [Qnum Qden]. field. Qed.

Definition u : R := 1 / 1000000000000000.
Section Flo.
Variable rnd : Q -> Q.
Hypothesis N : Nearest rnd.

Lemma fl x : Rabs (Q2R (rnd x) - Q2R x) <= u * Rabs (Q2R x).
Proof.
  destruct (Qeq_dec x 0) as [Z0|NZ].
  - assert (E : (rnd x == 0)%Q).
    { rewrite (near_proper rnd N _ _ Z0). change 0%Q with (inject_Z 0). apply near_int; [exact N|lia]. }
    rewrite (Qeq_eqR _ _ E), (Qeq_eqR _ _ Z0), RMicromega.Q2R_0, Rminus_0_r, Rabs_R0. lra.
  - destruct (b64_exp_ok x NZ) as [L U]. set (e := b64_exp x) in *.
    assert (B : (Qabs x <= 2 ^ (54 + e))%Q).
    { apply Qlt_le_weak. rewrite two_pow_plus, two_pow_Z by lia. exact U. }
    pose proof (near_err rnd N _ _ B) as E. replace (54 + e - 54)%Z with e in E by lia.
    assert (C : (Qabs (rnd x - x) <= (1 # 1000000000000000) * Qabs x)%Q).
    { eapply Qle_trans; [exact E|]. assert (P := two_pow_pos e). set (w := (2 ^ e)%Q) in *.
      change (inject_Z (2 ^ 52)) with (4503599627370496 # 1)%Q in L. Lqa.lra. }
    apply Qle_Rle in C. rewrite Q2R_mult, !Q2R_abs, Q2R_minus, Q2R_lit in C. unfold u. exact C.
Qed.
Lemma fl_K x K : Rabs (Q2R x) <= K -> Rabs (Q2R (rnd x) - Q2R x) <= K * u.
Proof. intro H. eapply Rle_trans; [apply fl|]. rewrite Rmult_comm. apply Rmult_le_compat_r; [unfold u; lra|exact H]. Qed.
Lemma fadd_R a b K : Rabs (Q2R a + Q2R b) <= K -> Rabs (Q2R (fadd rnd a b) - (Q2R a + Q2R b)) <= K * u.
Proof. intro H. unfold fadd. rewrite <- Q2R_plus in *. apply fl_K, H. Qed.
Lemma fsub_R a b K : Rabs (Q2R a - Q2R b) <= K -> Rabs (Q2R (fsub rnd a b) - (Q2R a - Q2R b)) <= K * u.
Proof. intro H. unfold fsub. rewrite <- Q2R_minus in *. apply fl_K, H. Qed.
Lemma fmul_R a b K : Rabs (Q2R a * Q2R b) <= K -> Rabs (Q2R (fmul rnd a b) - (Q2R a * Q2R b)) <= K * u.
Proof. intro H. unfold fmul. rewrite <- Q2R_mult in *. apply fl_K, H. Qed.
Lemma fdiv_R a b K : ~ (b == 0)%Q -> Rabs (Q2R a / Q2R b) <= K -> Rabs (Q2R (fdiv rnd a b) - (Q2R a / Q2R b)) <= K * u.
Proof. intros H0 H. unfold fdiv. rewrite <- Q2R_div in * by exact H0. apply fl_K, H. Qed.
Lemma lit_R n d K : Rabs (IZR n / IZR (Zpos d)) <= K -> Rabs (Q2R (lit rnd n d) - IZR n / IZR (Zpos d)) <= K * u.
Proof. intro H. unfold lit. rewrite <- Q2R_lit in *. apply fl_K, H. Qed.

(** ** angles modulo a turn *)
Lemma coterminal_R x : exists k : Z, Rabs (Q2R (coterminal_angle rnd x) - (Q2R x + 360 * IZR k)) <= 1 / 1000000000000 /\
  0 <= Q2R (coterminal_angle rnd x) <= 360.0001.
Proof.
  unfold coterminal_angle, fmod360. set (z := Qtrunc (x / 360)). cbv zeta.
  assert (T : (- 360 < x - 360 * inject_Z z < 360)%Q).
  { unfold z, Qtrunc. set (y := (x / 360)%Q). assert (E : (x == 360 * y)%Q) by (unfold y; field).
    destruct (Qleb 0 y) eqn:G.
    - apply Qleb_le in G. pose proof (Qfloor_le y) as A. pose proof (Qlt_floor y) as B. rewrite inject_Z_plus in B. change (inject_Z 1) with 1%Q in B. rewrite E. split; Lqa.lra.
    - assert (G' : (y < 0)%Q) by (apply Qnot_le_lt; intro C; apply Qleb_le in C; congruence).
      pose proof (Qle_ceiling y) as A. pose proof (Qceiling_lt y) as B. rewrite inject_Z_sub in B. change (inject_Z 1) with 1%Q in B. rewrite E. split; Lqa.lra. }
  assert (E : Q2R (x - 360 * inject_Z z) = Q2R x - 360 * IZR z) by (rewrite Q2R_minus, Q2R_mult, Q2R_Z, Q2R_lit; lra).
  destruct T as [T1 T2]. apply Qlt_Rlt in T1. apply Qlt_Rlt in T2. rewrite E in T1, T2. rewrite Q2R_lit in T1, T2.
  destruct (Qltb (x - 360 * inject_Z z) 0) eqn:G.
  - apply Qltb_lt in G. apply Qlt_Rlt in G. rewrite E, RMicromega.Q2R_0 in G.
    exists (1 - z)%Z. rewrite minus_IZR.
    assert (F := fadd_R (x - 360 * inject_Z z) 360 360). rewrite E, Q2R_lit in F. 
    assert (F1 : Rabs (Q2R x - 360 * IZR z + 360 / 1) <= 360) by (apply Rabs_le_iff; lra). specialize (F F1). apply Rabs_le_iff in F. unfold u in F.
    split; [apply Rabs_le_iff; lra|]. split; [|lra].
    assert (P : (0 <= fadd rnd (x - 360 * inject_Z z) 360)%Q).
    { unfold fadd. apply near_nonneg; [exact N|]. apply Rle_Qle. rewrite Q2R_plus, E, !Q2R_lit. lra. }
    apply Qle_Rle in P. rewrite RMicromega.Q2R_0 in P. exact P.
  - apply Qltb_ge in G. apply Qle_Rle in G. rewrite E, RMicromega.Q2R_0 in G. exists (- z)%Z. rewrite opp_IZR, E. split; [apply Rabs_le_iff; lra|lra].
Qed.

(** ** polynomials: exact value, bound, error and slope *)
Definition pe (x : Q) (b : list Q) : Q := poly (fun x => x) x b.
(** the next multiple of 2^-100, so that the numbers stay short *)
Definition GRID : positive := 1267650600228229401496703205376.
Definition qup (q : Q) : Q := (Qnum q * Zpos GRID / Zpos (Qden q) + 1)%Z # GRID.
Lemma qup_le q : (q <= qup q)%Q.
Proof.
  destruct q as [n d]. unfold qup, Qle. cbn [Qnum Qden]. generalize GRID. intro g. pose proof (Z.div_mod (n * Zpos g) (Zpos d) ltac:(lia)). pose proof (Z.mod_pos_bound (n * Zpos g) (Zpos d) ltac:(lia)). nia.
Qed.
Fixpoint pabs (X : Q) (b : list Q) : Q := match b with [] => 0 | c :: b' => qup (Qabs c + X * pabs X b') end%Q.
Definition uq : Q := 1 # 1000000000000000.
Fixpoint perr (X : Q) (b : list Q) : Q :=
  match b with
  | [] => 0
  | c :: b' =>
      let p := pabs X b' in let e := perr X b' in
      qup (X * e + (3 # 1000000000000000) * (Qabs c + X * (p + e)))
  end%Q.
Fixpoint plip (X : Q) (b : list Q) : Q := match b with [] => 0 | _ :: b' => qup (X * plip X b' + pabs X b') end%Q.

Lemma pe_cons x c b : pe x (c :: b) = (c + x * pe x b)%Q. Proof. reflexivity. Qed.
Lemma pabs_nonneg X b : (0 <= X)%Q -> (0 <= pabs X b)%Q.
Proof. intro H. induction b as [|c b IH]; cbn [pabs]; [apply Qle_refl|]. eapply Qle_trans; [|apply qup_le]. pose proof (Qabs_nonneg c). pose proof (Qmult_le_0_compat _ _ H IH). Lqa.lra. Qed.
Lemma perr_nonneg X b : (0 <= X)%Q -> (0 <= perr X b)%Q.
Proof.
  intro H. induction b as [|c b IH]; cbn [perr]; [apply Qle_refl|]. cbv zeta. eapply Qle_trans; [|apply qup_le]. pose proof (Qabs_nonneg c). pose proof (pabs_nonneg X b H) as P.
  assert (A : (0 <= X * (pabs X b + perr X b))%Q) by (apply Qmult_le_0_compat; Lqa.lra).
  assert (B : (0 <= X * perr X b)%Q) by (apply Qmult_le_0_compat; Lqa.lra). Lqa.lra.
Qed.
Lemma pe_abs x X b : (Qabs x <= X)%Q -> (Qabs (pe x b) <= pabs X b)%Q.
Proof.
  intro H. assert (X0 : (0 <= X)%Q) by (eapply Qle_trans; [apply Qabs_nonneg|exact H]).
  induction b as [|c b IH]; [cbn; discriminate|]. rewrite pe_cons. cbn [pabs]. eapply Qle_trans; [|apply qup_le]. eapply Qle_trans; [apply Qabs_triangle|].
  rewrite Qabs_Qmult. apply Qplus_le_compat; [apply Qle_refl|]. apply Qmult_le_compat_nonneg; split; auto using Qabs_nonneg.
Qed.
Lemma flq x : (Qabs (rnd x - x) <= uq * Qabs x)%Q.
Proof.
  apply Rle_Qle. rewrite Q2R_abs, Q2R_minus, Q2R_mult, Q2R_abs. exact (fl x).
Qed.
Definition close (a b : Q) : Prop := (Qabs (a - b) <= uq * Qabs b)%Q.
Lemma close_rnd x y : (x == y)%Q -> close (rnd x) y.
Proof. intro H. unfold close. pose proof (flq x) as F. rewrite <- H. exact F. Qed.
Lemma close_refl x : close x x.
Proof. unfold close. setoid_replace (x - x)%Q with 0%Q by ring. pose proof (Qabs_nonneg x). change (Qabs 0) with 0%Q. unfold uq. Lqa.lra. Qed.
Lemma Qabs_iff x a : (Qabs x <= a)%Q <-> (- a <= x <= a)%Q.
Proof. apply Qabs_Qle_condition. Qed.

Lemma poly_err x X a b : (Qabs x <= X)%Q -> Forall2 close a b -> (Qabs (poly rnd x a - pe x b) <= perr X b)%Q.
Proof.
  intros H F. assert (X0 : (0 <= X)%Q) by (eapply Qle_trans; [apply Qabs_nonneg|exact H]).
  induction F as [|a0 b0 a b C F IH]; [cbn; discriminate|].
  rewrite pe_cons. cbn [poly perr]. cbv zeta. eapply Qle_trans; [|apply qup_le].
  pose proof (pe_abs x X b H) as PA. pose proof (perr_nonneg X b X0) as E0. pose proof (pabs_nonneg X b X0) as P0.
  set (P := poly rnd x a) in *. set (p := pe x b) in *. set (e := perr X b) in *. set (pa := pabs X b) in *.
  assert (A1 : (Qabs (x * P - x * p) <= X * e)%Q).
  { setoid_replace (x * P - x * p)%Q with (x * (P - p))%Q by ring. rewrite Qabs_Qmult. apply Qmult_le_compat_nonneg; split; auto using Qabs_nonneg. }
  assert (A2 : (Qabs (x * P) <= X * (pa + e))%Q).
  { rewrite Qabs_Qmult. apply Qmult_le_compat_nonneg; split; auto using Qabs_nonneg.
    setoid_replace P with (p + (P - p))%Q by ring. eapply Qle_trans; [apply Qabs_triangle|]. apply Qplus_le_compat; assumption. }
  unfold fadd, fmul. pose proof (flq (x * P)) as R1. pose proof (flq (a0 + rnd (x * P))) as R2. unfold close in C.
  set (w := (X * (pa + e))%Q) in *. set (v := (X * e)%Q) in *. set (z := rnd (x * P)) in *. set (y := (x * P)%Q) in *. set (xp := (x * p)%Q) in *.
  assert (R1' : (Qabs (z - y) <= uq * w)%Q) by (unfold uq in *; Lqa.lra).
  assert (A3 : (Qabs (a0 + z) <= Qabs b0 * (1 + uq) + w * (1 + uq))%Q).
  { setoid_replace (a0 + z)%Q with (b0 + (a0 - b0) + (y + (z - y)))%Q by ring.
    pose proof (Qabs_triangle (b0 + (a0 - b0)) (y + (z - y))). pose proof (Qabs_triangle b0 (a0 - b0)). pose proof (Qabs_triangle y (z - y)). unfold uq in *. Lqa.lra. }
  set (s := rnd (a0 + z)) in *.
  setoid_replace (s - (b0 + xp))%Q with ((s - (a0 + z)) + ((a0 - b0) + ((z - y) + (y - xp))))%Q by ring.
  pose proof (Qabs_triangle (s - (a0 + z)) ((a0 - b0) + ((z - y) + (y - xp)))). pose proof (Qabs_triangle (a0 - b0) ((z - y) + (y - xp))). pose proof (Qabs_triangle (z - y) (y - xp)).
  assert (R2' : (Qabs (s - (a0 + z)) <= uq * (Qabs b0 * (1 + uq) + w * (1 + uq)))%Q) by (unfold uq in *; Lqa.lra).
  pose proof (Qabs_nonneg b0). assert (0 <= w)%Q by (eapply Qle_trans; [apply Qabs_nonneg|exact A2]). unfold uq in *. Lqa.lra.
Qed.
Lemma pe_lip x y X b : (Qabs x <= X)%Q -> (Qabs y <= X)%Q -> (Qabs (pe x b - pe y b) <= plip X b * Qabs (x - y))%Q.
Proof.
  intros Hx Hy. assert (X0 : (0 <= X)%Q) by (eapply Qle_trans; [apply Qabs_nonneg|exact Hx]).
  induction b as [|c b IH]; [cbn; rewrite Qmult_0_l; discriminate|].
  rewrite !pe_cons. cbn [plip]. pose proof (pe_abs y X b Hy) as PA.
  apply (Qle_trans _ ((X * plip X b + pabs X b) * Qabs (x - y))); [|apply Qmult_le_compat_r; [apply qup_le|apply Qabs_nonneg]].
  setoid_replace (c + x * pe x b - (c + y * pe y b))%Q with (x * (pe x b - pe y b) + pe y b * (x - y))%Q by ring.
  eapply Qle_trans; [apply Qabs_triangle|]. rewrite !Qabs_Qmult, Qmult_plus_distr_l, <- Qmult_assoc. apply Qplus_le_compat.
  - apply Qmult_le_compat_nonneg; split; auto using Qabs_nonneg.
  - apply Qmult_le_compat_nonneg; split; auto using Qabs_nonneg, Qle_refl.
Qed.

(** ** trigonometry in degrees *)
Variable lm : libm.
Hypothesis A : accurate lm.

Lemma inv180 : Rabs (Q2R (fdiv rnd pi64 180) - PI / 180) <= 1 / 1000000000 /\ Rabs (Q2R (fdiv rnd pi64 180)) <= 0.0175.
Proof.
  pose proof PI_bounds as P. assert (H := fdiv_R pi64 180 1). unfold pi64 in *. rewrite !Q2R_lit in H.
  assert (B : Rabs (884279719003555 / 281474976710656 / (180 / 1)) <= 1) by (apply Rabs_le_iff; lra).
  specialize (H ltac:(discriminate) B). apply Rabs_le_iff in H. unfold u in H. split; apply Rabs_le_iff; lra.
Qed.
Lemma inv_pi : Rabs (Q2R (fdiv rnd 180 pi64) * (PI / 180) - 1) <= 4 / 100000000 /\ 0 < Q2R (fdiv rnd 180 pi64) <= 57.3.
Proof.
  pose proof PI_bounds as P. assert (H := fdiv_R 180 pi64 60). unfold pi64 in *. rewrite !Q2R_lit in H.
  assert (B : Rabs (180 / 1 / (884279719003555 / 281474976710656)) <= 60) by (apply Rabs_le_iff; lra).
  specialize (H ltac:(discriminate) B). apply Rabs_le_iff in H. unfold u in H. revert H. generalize (Q2R (fdiv rnd 180 (884279719003555 # 281474976710656))). intros q H.
  assert (Q1 : 57.295779 <= q <= 57.295780) by lra.
  assert (L : 57.295779 * (3.1415926 / 180) <= q * (PI / 180)) by (apply Rmult_le_compat; lra).
  assert (R : q * (PI / 180) <= 57.295780 * (3.1415927 / 180)) by (apply Rmult_le_compat; lra).
  split; [apply Rabs_le_iff; split; lra|lra].
Qed.
Lemma radians_R x K : Rabs (Q2R x) <= K -> Rabs (Q2R (radians rnd x) - rad (Q2R x)) <= K * (2 / 1000000000).
Proof.
  intro H. destruct inv180 as [D B]. unfold radians, rad. set (k := Q2R (fdiv rnd pi64 180)) in *.
  assert (K0 : 0 <= K) by (eapply Rle_trans; [apply Rabs_pos|exact H]).
  assert (F := fmul_R x (fdiv rnd pi64 180) (K * 0.0175)). fold k in F. rewrite Rabs_mult in F.
  specialize (F (Rmult_le_compat _ _ _ _ (Rabs_pos _) (Rabs_pos _) H B)).
  replace (Q2R (fmul rnd x (fdiv rnd pi64 180)) - Q2R x * (PI / 180)) with
    ((Q2R (fmul rnd x (fdiv rnd pi64 180)) - Q2R x * k) + Q2R x * (k - PI / 180)) by ring.
  eapply Rle_trans; [apply Rabs_triang|]. rewrite Rabs_mult.
  pose proof (Rmult_le_compat _ _ _ _ (Rabs_pos _) (Rabs_pos _) H D). unfold u in F. lra.
Qed.
Lemma sin_deg_R x K : Rabs (Q2R x) <= K -> Rabs (Q2R (sin_deg rnd lm x) - sin (rad (Q2R x))) <= (K + 1) * (2 / 1000000000).
Proof.
  intro H. pose proof (radians_R x K H) as D. pose proof (acc_sin lm A (radians rnd x)) as S. unfold near, tol in S.
  pose proof (sin_lip (rad (Q2R x)) (Q2R (radians rnd x))) as L. unfold sin_deg.
  replace (Q2R (l_sin lm (radians rnd x)) - sin (rad (Q2R x))) with
    ((Q2R (l_sin lm (radians rnd x)) - sin (Q2R (radians rnd x))) + (sin (Q2R (radians rnd x)) - sin (rad (Q2R x)))) by ring.
  eapply Rle_trans; [apply Rabs_triang|]. lra.
Qed.
Lemma cos_deg_R x K : Rabs (Q2R x) <= K -> Rabs (Q2R (cos_deg rnd lm x) - cos (rad (Q2R x))) <= (K + 1) * (2 / 1000000000).
Proof.
  intro H. pose proof (radians_R x K H) as D. pose proof (acc_cos lm A (radians rnd x)) as S. unfold near, tol in S.
  pose proof (cos_lip (rad (Q2R x)) (Q2R (radians rnd x))) as L. unfold cos_deg.
  replace (Q2R (l_cos lm (radians rnd x)) - cos (rad (Q2R x))) with
    ((Q2R (l_cos lm (radians rnd x)) - cos (Q2R (radians rnd x))) + (cos (Q2R (radians rnd x)) - cos (rad (Q2R x)))) by ring.
  eapply Rle_trans; [apply Rabs_triang|]. lra.
Qed.
Lemma sin_deg_1 x : (Qabs (sin_deg rnd lm x) <= 1000001 # 1000000)%Q.
Proof.
  apply R_Qabs. rewrite Q2R_lit. pose proof (acc_sin lm A (radians rnd x)) as S. unfold near, tol in S. unfold sin_deg.
  apply Rabs_le_iff in S. pose proof (SIN_bound (Q2R (radians rnd x))). apply Rabs_le_iff. lra.
Qed.
Lemma cos_deg_1 x : (Qabs (cos_deg rnd lm x) <= 1000001 # 1000000)%Q.
Proof.
  apply R_Qabs. rewrite Q2R_lit. pose proof (acc_cos lm A (radians rnd x)) as S. unfold near, tol in S. unfold cos_deg.
  apply Rabs_le_iff in S. pose proof (COS_bound (Q2R (radians rnd x))). apply Rabs_le_iff. lra.
Qed.
(** degrees: an angle t in radians given to within e comes out within e + 5e-8 |t| of t, as an angle *)
Lemma degrees_R x : Rabs (Q2R x) <= 4 -> Rabs (rad (Q2R (degrees rnd x)) - Q2R x) <= 2 / 10000000 /\ Rabs (Q2R (degrees rnd x)) <= 230.
Proof.
  intro H. destruct inv_pi as [D B]. unfold degrees, rad. set (k := Q2R (fdiv rnd 180 pi64)) in *. pose proof PI_bounds as P.
  assert (F := fmul_R x (fdiv rnd 180 pi64) 230). fold k in F. rewrite Rabs_mult, (Rabs_right k) in F by lra.
  pose proof (Rabs_pos (Q2R x)) as X0.
  assert (G : Rabs (Q2R x) * k <= 4 * 57.3) by (apply Rmult_le_compat; lra).
  specialize (F ltac:(lra)). set (d := Q2R (fmul rnd x (fdiv rnd 180 pi64))) in *. split.
  - replace (d * (PI / 180) - Q2R x) with ((d - Q2R x * k) * (PI / 180) + Q2R x * (k * (PI / 180) - 1)) by ring.
    eapply Rle_trans; [apply Rabs_triang|]. rewrite !Rabs_mult, (Rabs_right (PI / 180)) by lra.
    assert (U : Rabs (d - Q2R x * k) * (PI / 180) <= 230 * u * 1) by (apply Rmult_le_compat; try lra; apply Rabs_pos).
    assert (V : Rabs (Q2R x) * Rabs (k * (PI / 180) - 1) <= 4 * (4 / 100000000)) by (apply Rmult_le_compat; auto using Rabs_pos).
    unfold u in U. lra.
  - replace d with ((d - Q2R x * k) + Q2R x * k) by ring. eapply Rle_trans; [apply Rabs_triang|]. rewrite (Rabs_mult (Q2R x)), (Rabs_right k) by lra. unfold u in F. lra.
Qed.
End Flo.
