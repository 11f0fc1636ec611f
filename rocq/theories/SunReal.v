(** SunReal.v -- interpolation of the sun's place, second order (proof support). *)
From Coq Require Import Reals Lra Lia.
From Verif Require Import AstroReal AstroReal2 SpecAstro.
Local Open Scope R_scope.

Lemma taylor2 (f f' : R -> R) K x h : (forall y, derivable_pt_lim f y (f' y)) -> (forall a b, Rabs (f' b - f' a) <= K * Rabs (b - a)) ->
  Rabs (f (x + h) - f x - h * f' x) <= K * (h * h) / 2.
Proof.
  intros D L.
  assert (G : forall sg, (sg = 1 \/ sg = -1) -> sg * (f (x + h) - f x - h * f' x) <= K * (h * h) / 2).
  { intros sg S. set (g := fun s => sg * (f (x + s) - s * f' x) - K / 2 * (s * s)). set (g' := fun s => sg * (f' (x + s) - f' x) - K * s).
    assert (DG : forall s, derivable_pt_lim g s (g' s)).
    { intro s. unfold g, g'.
      assert (D1 : derivable_pt_lim (fun s => x + s) s 1).
      { replace 1 with (0 + 1) by ring. apply (derivable_pt_lim_plus (fun _ => x) (fun s => s)); [apply derivable_pt_lim_const|apply derivable_pt_lim_id]. }
      pose proof (derivable_pt_lim_comp (fun s => x + s) f s 1 (f' (x + s)) D1 (D (x + s))) as D2.
      assert (D3 : derivable_pt_lim (fun s => s * f' x) s (f' x)).
      { assert (EQ : 1 * f' x + s * 0 = f' x) by ring. pose proof (derivable_pt_lim_mult (fun s => s) (fun _ => f' x) s _ _ (derivable_pt_lim_id s) (derivable_pt_lim_const (f' x) s)) as DM. cbv beta in DM. rewrite EQ in DM. exact DM. }
      pose proof (derivable_pt_lim_minus _ _ s _ _ D2 D3) as D4. pose proof (derivable_pt_lim_scal _ sg s _ D4) as D5.
      assert (D6 : derivable_pt_lim (fun s => s * s) s (2 * s)).
      { replace (2 * s) with (1 * s + s * 1) by ring. apply (derivable_pt_lim_mult (fun s => s) (fun s => s)); apply derivable_pt_lim_id. }
      pose proof (derivable_pt_lim_minus _ _ s _ _ D5 (derivable_pt_lim_scal _ (K / 2) s _ D6)) as D7.
      replace (sg * (f' (x + s) - f' x) - K * s) with (sg * (f' (x + s) * 1 - f' x) - K / 2 * (2 * s)) by field. exact D7. }
    assert (B : forall c, sg * (f' (x + c) - f' x) <= K * Rabs c /\ - (K * Rabs c) <= sg * (f' (x + c) - f' x)).
    { intro c. pose proof (L x (x + c)) as LC. replace (x + c - x) with c in LC by ring. apply Rabs_le_iff in LC. destruct S as [-> | ->]; lra. }
    assert (E0 : g 0 = sg * f x) by (unfold g; rewrite Rplus_0_r; ring).
    assert (E1 : g h = sg * (f (x + h) - h * f' x) - K / 2 * (h * h)) by reflexivity.
    destruct (Rtotal_order 0 h) as [P|[P|P]].
    - destruct (MVT_cor2 g g' 0 h P (fun c _ => DG c)) as [c [E C]]. specialize (B c). rewrite Rabs_right in B by lra. unfold g' in E.
      assert ((sg * (f' (x + c) - f' x) - K * c) * (h - 0) <= 0 * (h - 0)) by (apply Rmult_le_compat_r; lra). lra.
    - subst h. rewrite Rplus_0_r. lra.
    - destruct (MVT_cor2 g g' h 0 P (fun c _ => DG c)) as [c [E C]]. specialize (B c). rewrite Rabs_left in B by lra. unfold g' in E.
      assert (0 * (0 - h) <= (sg * (f' (x + c) - f' x) - K * c) * (0 - h)) by (apply Rmult_le_compat_r; lra). lra. }
  apply Rabs_le_iff. pose proof (G 1 ltac:(left; reflexivity)). pose proof (G (-1) ltac:(right; reflexivity)). lra.
Qed.

(** interpolation from three values: exact up to the change of the slope *)
Lemma three_points (f f' : R -> R) K x w n : 0 <= K -> (forall y, derivable_pt_lim f y (f' y)) -> (forall a b, Rabs (f' b - f' a) <= K * Rabs (b - a)) ->
  0 <= n <= 0.875 -> Rabs (between3 (f x) (f x - f (x - w)) (f (x + w) - f x) n - f (x + w * n)) <= 1.1475 * (K * (w * w)).
Proof.
  intros K0 D L Hn. pose proof (taylor2 f f' K x w D L) as T1. pose proof (taylor2 f f' K x (- w) D L) as T2. pose proof (taylor2 f f' K x (w * n) D L) as T3.
  replace (x + - w) with (x - w) in T2 by ring. replace (- w * - w) with (w * w) in T2 by ring. replace (w * n * (w * n)) with (n * n * (w * w)) in T3 by ring.
  set (k := K * (w * w)) in *. replace (K * (n * n * (w * w)) / 2) with (n * n * k / 2) in T3 by (unfold k; field).
  assert (Kp : 0 <= k) by (unfold k; apply Rmult_le_pos; [exact K0|apply Rle_0_sqr]).
  set (e1 := f (x + w) - f x - w * f' x) in *. set (e2 := f (x - w) - f x - - w * f' x) in *. set (e3 := f (x + w * n) - f x - w * n * f' x) in *.
  assert (E : between3 (f x) (f x - f (x - w)) (f (x + w) - f x) n - f (x + w * n) = (n * (1 + n) / 2) * e1 - (n * (1 - n) / 2) * e2 - e3) by (unfold between3, e1, e2, e3; field).
  rewrite E. assert (N1 : 0 <= n * (1 + n)) by (apply Rmult_le_pos; lra). assert (N2 : 0 <= n * (1 - n)) by (apply Rmult_le_pos; lra).
  assert (A1 : Rabs (n * (1 + n) / 2 * e1) <= n * (1 + n) / 2 * (k / 2)) by (rewrite Rabs_mult, (Rabs_right (n * (1 + n) / 2)) by lra; apply Rmult_le_compat_l; lra).
  assert (A2 : Rabs (n * (1 - n) / 2 * e2) <= n * (1 - n) / 2 * (k / 2)) by (rewrite Rabs_mult, (Rabs_right (n * (1 - n) / 2)) by lra; apply Rmult_le_compat_l; lra).
  apply Rabs_le_iff in A1. apply Rabs_le_iff in A2. apply Rabs_le_iff in T3.
  assert (N3 : n * n <= 0.875 * 0.875) by (apply Rmult_le_compat; lra).
  assert (N4 : n * n * k <= 0.875 * 0.875 * k) by (apply Rmult_le_compat_r; lra). assert (N5 : n * k <= 0.875 * k) by (apply Rmult_le_compat_r; lra).
  apply Rabs_le_iff. split; lra.
Qed.
(** ... and stable *)
Lemma three_near y1 y2 y3 z1 z2 z3 n e : 0 <= n <= 1 -> Rabs (y1 - z1) <= e -> Rabs (y2 - z2) <= e -> Rabs (y3 - z3) <= e ->
  Rabs (between3 y2 (y2 - y1) (y3 - y2) n - between3 z2 (z2 - z1) (z3 - z2) n) <= 1.25 * e.
Proof.
  intros Hn H1 H2 H3. unfold between3.
  replace (_ - _) with ((1 - n * n) * (y2 - z2) + (n * (1 + n) / 2) * (y3 - z3) - (n * (1 - n) / 2) * (y1 - z1)) by field.
  assert (N0 : 0 <= n * n <= 1) by (split; nra). assert (N1 : 0 <= n * (1 + n)) by (apply Rmult_le_pos; lra). assert (N2 : 0 <= n * (1 - n)) by (apply Rmult_le_pos; lra).
  assert (E0 : 0 <= e) by (eapply Rle_trans; [apply Rabs_pos|exact H1]).
  assert (A1 : Rabs ((1 - n * n) * (y2 - z2)) <= (1 - n * n) * e) by (rewrite Rabs_mult, (Rabs_right (1 - n * n)) by lra; apply Rmult_le_compat_l; lra).
  assert (A2 : Rabs (n * (1 + n) / 2 * (y3 - z3)) <= n * (1 + n) / 2 * e) by (rewrite Rabs_mult, (Rabs_right (n * (1 + n) / 2)) by lra; apply Rmult_le_compat_l; lra).
  assert (A3 : Rabs (n * (1 - n) / 2 * (y1 - z1)) <= n * (1 - n) / 2 * e) by (rewrite Rabs_mult, (Rabs_right (n * (1 - n) / 2)) by lra; apply Rmult_le_compat_l; lra).
  assert (S : ((1 - n * n) + n * (1 + n) / 2 + n * (1 - n) / 2) * e <= 1.25 * e) by (apply Rmult_le_compat_r; [exact E0|]; pose proof (Rle_0_sqr (n - 1 / 2)) as Q; unfold Rsqr in Q; lra).
  apply Rabs_le_iff in A1. apply Rabs_le_iff in A2. apply Rabs_le_iff in A3. apply Rabs_le_iff. lra.
Qed.

(** the right ascension as a function of the longitude *)
Definition RA' (c l : R) : R := (1 - yy c * yy c) / (1 + yy c * yy c + 2 * yy c * cos (2 * l)).
Lemma two_l l : derivable_pt_lim (fun l => 2 * l) l 2.
Proof. pose proof (derivable_pt_lim_scal (fun l => l) 2 l 1 (derivable_pt_lim_id l)) as DM. rewrite Rmult_1_r in DM. exact DM. Qed.
Lemma RA_derive c l : 0.9154 <= c <= 1 -> derivable_pt_lim (RA c) l (RA' c l).
Proof.
  intro H. pose proof (yy_range c H) as Y. pose proof (den_range c l H) as DR. set (y := yy c) in *.
  pose proof (derivable_pt_lim_scal _ y l _ (derivable_pt_lim_comp (fun l => 2 * l) sin l _ _ (two_l l) (derivable_pt_lim_sin (2 * l)))) as D1.
  pose proof (derivable_pt_lim_scal _ y l _ (derivable_pt_lim_comp (fun l => 2 * l) cos l _ _ (two_l l) (derivable_pt_lim_cos (2 * l)))) as D2.
  pose proof (derivable_pt_lim_plus (fun _ => 1) _ l _ _ (derivable_pt_lim_const 1 l) D2) as D3.
  assert (NZ : plus_fct (fun _ => 1) (mult_real_fct y (comp cos (fun l => 2 * l))) l <> 0) by (unfold plus_fct, mult_real_fct, comp, fct_cte; lra).
  pose proof (derivable_pt_lim_div _ _ l _ _ D1 D3 NZ) as D4.
  assert (DA : forall z, derivable_pt_lim atan z (/ (1 + z ^ 2))).
  { intro z. assert (E : / (1 + z ^ 2) = derive_pt atan z (derivable_pt_atan z)) by (rewrite derive_pt_atan; unfold Rsqr; field; nra).
    rewrite E. apply (derive_pt_eq_1 atan z _ (derivable_pt_atan z)). reflexivity. }
  pose proof (derivable_pt_lim_comp _ atan l _ _ D4 (DA _)) as D5.
  pose proof (derivable_pt_lim_minus _ _ l _ _ (derivable_pt_lim_id l) D5) as D6.
  match type of D6 with derivable_pt_lim _ _ ?v => assert (V : v = RA' c l) end.
  { unfold RA'. fold y. unfold div_fct, plus_fct, mult_real_fct, comp, fct_cte, Rsqr.
    pose proof (sin2_cos2 (2 * l)) as SC. unfold Rsqr in SC. pose proof (COS_bound (2 * l)) as CB. set (s := sin (2 * l)) in *. set (k := cos (2 * l)) in *.
    assert (Q : 0 < 1 + y * y + 2 * y * k) by nra. assert (W : (1 + y * k) * (1 + y * k) + y * s * (y * s) = 1 + y * y + 2 * y * k) by (replace (y * s * (y * s)) with (y * y * (s * s)) by ring; replace (s * s) with (1 - k * k) by lra; ring).
    assert (P : 1 + (y * s / (1 + y * k)) ^ 2 = (1 + y * y + 2 * y * k) / ((1 + y * k) * (1 + y * k))) by (rewrite <- W; field; lra).
    rewrite P. apply (Rmult_eq_reg_r (1 + y * y + 2 * y * k)); [|lra].
    transitivity (1 + y * y + 2 * y * k - (y * (k * 2) * (1 + y * k) - (0 + y * (- s * 2)) * (y * s))); [field; repeat split; lra|].
    transitivity (1 - y * y); [|field; lra]. replace ((0 + y * (- s * 2)) * (y * s)) with (- 2 * (y * y) * (s * s)) by ring. replace (s * s) with (1 - k * k) by lra. ring. }
  rewrite <- V. exact D6.
Qed.
Lemma RA'_lip c a b : 0.9154 <= c <= 1 -> Rabs (RA' c b - RA' c a) <= 0.212 * Rabs (b - a).
Proof.
  intro H. pose proof (yy_range c H) as Y. unfold RA'. set (y := yy c) in *.
  pose proof (COS_bound (2 * a)) as CA. pose proof (COS_bound (2 * b)) as CB.
  assert (CL : Rabs (cos (2 * b) - cos (2 * a)) <= 2 * Rabs (b - a)).
  { eapply Rle_trans; [apply cos_lip|]. replace (2 * b - 2 * a) with (2 * (b - a)) by ring. rewrite Rabs_mult, (Rabs_right 2) by lra. lra. }
  set (p := cos (2 * a)) in *. set (q := cos (2 * b)) in *. 
  assert (YP : 0 <= y * (1 + p) /\ 0 <= y * (1 + q)) by (split; apply Rmult_le_pos; lra).
  assert (YS : 0.9135 <= (1 - y) * (1 - y)) by (assert (0.9558 * 0.9558 <= (1 - y) * (1 - y)) by (apply Rmult_le_compat; lra); lra).
  set (A := 1 + y * y + 2 * y * p). set (B := 1 + y * y + 2 * y * q).
  assert (HA : 0.9135 <= A) by (unfold A; lra). assert (HB : 0.9135 <= B) by (unfold B; lra).
  replace ((1 - y * y) / B - (1 - y * y) / A) with ((1 - y * y) * (2 * y) * (p - q) / (A * B)) by (unfold A, B in *; field; split; lra).
  assert (AB : 0.8344 <= A * B) by (assert (0.9135 * 0.9135 <= A * B) by (apply Rmult_le_compat; lra); lra).
  assert (Y2 : 0 <= (1 - y * y) * (2 * y) <= 1 * 0.0884) by (assert (0 <= y * y <= 0.0442 * 0.0442) by (split; [nra|apply Rmult_le_compat; lra]); split; [apply Rmult_le_pos; lra|apply Rmult_le_compat; lra]).
  pose proof (Rabs_pos (b - a)) as P0. set (z := Rabs (b - a)) in *.
  unfold Rdiv. rewrite 2!Rabs_mult, (Rabs_right (/ (A * B))) by (apply Rle_ge; left; apply Rinv_0_lt_compat; lra).
  rewrite (Rabs_right ((1 - y * y) * (2 * y))) by lra. rewrite (Rabs_minus_sym p q). pose proof (Rabs_pos (q - p)) as P1.
  apply (Rmult_le_reg_r (A * B)); [lra|]. rewrite Rmult_assoc, Rinv_l, Rmult_1_r by lra.
  apply Rle_trans with (0.0884 * (2 * z)); [apply Rmult_le_compat; lra|]. assert (0.212 * z * 0.8344 <= 0.212 * z * (A * B)) by (apply Rmult_le_compat_l; lra). lra.
Qed.

(** the declination as a function of the longitude *)
Definition DE (s l : R) : R := asin (s * sin l).
Definition DE' (s l : R) : R := s * cos l / sqrt (1 - s * sin l * (s * sin l)).
Lemma s_sin s l : 0 <= s <= 0.4026 -> Rabs (s * sin l) <= 0.4026.
Proof. intro H. rewrite Rabs_mult, (Rabs_right s) by lra. pose proof (sin_1 l). pose proof (Rabs_pos (sin l)). apply Rle_trans with (0.4026 * 1); [apply Rmult_le_compat; lra|lra]. Qed.
Lemma root_range s l : 0 <= s <= 0.4026 -> 0.9153 <= sqrt (1 - s * sin l * (s * sin l)) <= 1.
Proof.
  intro H. pose proof (s_sin s l H) as B. pose proof (Rsq_abs _ _ B) as Q. pose proof (Rle_0_sqr (s * sin l)) as Q0. unfold Rsqr in Q0. split.
  - assert (X : sqrt (0.9153 * 0.9153) <= sqrt (1 - s * sin l * (s * sin l))) by (apply sqrt_le_1; lra). rewrite sqrt_square in X by lra. exact X.
  - assert (X : sqrt (1 - s * sin l * (s * sin l)) <= sqrt 1) by (apply sqrt_le_1; lra). rewrite sqrt_1 in X. exact X.
Qed.
Lemma DE_derive s l : 0 <= s <= 0.4026 -> derivable_pt_lim (DE s) l (DE' s l).
Proof.
  intro H. pose proof (s_sin s l H) as B. apply Rabs_le_iff in B. pose proof (root_range s l H) as R.
  pose proof (derivable_pt_lim_scal _ s l _ (derivable_pt_lim_sin l)) as D1.
  assert (RG : -1 < s * sin l < 1) by lra.
  assert (DA : derivable_pt_lim asin (s * sin l) (1 / sqrt (1 - s * sin l * (s * sin l)))).
  { assert (E : 1 / sqrt (1 - s * sin l * (s * sin l)) = derive_pt asin (s * sin l) (derivable_pt_asin _ RG)) by (rewrite derive_pt_asin; unfold Rsqr; reflexivity).
    rewrite E. apply (derive_pt_eq_1 asin _ _ (derivable_pt_asin _ RG)). reflexivity. }
  pose proof (derivable_pt_lim_comp _ asin l _ _ D1 DA) as D2. unfold DE'. 
  replace (s * cos l / sqrt (1 - s * sin l * (s * sin l))) with (1 / sqrt (1 - s * sin l * (s * sin l)) * (s * cos l)) by (field; lra). exact D2.
Qed.
Lemma DE'_lip s a b : 0 <= s <= 0.4026 -> Rabs (DE' s b - DE' s a) <= 0.57 * Rabs (b - a).
Proof.
  intro H. unfold DE'. pose proof (root_range s a H) as RA_. pose proof (root_range s b H) as RB.
  pose proof (sin_lip a b) as SL. pose proof (cos_lip a b) as CL. pose proof (s_sin s a H) as BA. pose proof (s_sin s b H) as BB.
  assert (QA : sqrt (1 - s * sin a * (s * sin a)) * sqrt (1 - s * sin a * (s * sin a)) = 1 - s * sin a * (s * sin a)) by (apply sqrt_sqrt; pose proof (Rsq_abs _ _ BA); lra).
  assert (QB : sqrt (1 - s * sin b * (s * sin b)) * sqrt (1 - s * sin b * (s * sin b)) = 1 - s * sin b * (s * sin b)) by (apply sqrt_sqrt; pose proof (Rsq_abs _ _ BB); lra).
  set (A := sqrt (1 - s * sin a * (s * sin a))) in *. set (B := sqrt (1 - s * sin b * (s * sin b))) in *. pose proof (Rabs_pos (b - a)) as P0. set (z := Rabs (b - a)) in *.
  assert (X : Rabs (A - B) <= 0.178 * z).
  { assert (E : (A - B) * (A + B) = s * (s * sin b + s * sin a) * (sin b - sin a)) by (replace ((A - B) * (A + B)) with (A * A - B * B) by ring; rewrite QA, QB; ring).
    assert (F : Rabs ((A - B) * (A + B)) <= 0.4026 * 0.8052 * z).
    { rewrite E, !Rabs_mult, (Rabs_right s) by lra. assert (Rabs (s * sin b + s * sin a) <= 0.8052) by (eapply Rle_trans; [apply Rabs_triang|lra]).
      pose proof (Rabs_pos (s * sin b + s * sin a)). pose proof (Rabs_pos (sin b - sin a)).
      apply Rmult_le_compat; [apply Rmult_le_pos; lra|lra|apply Rmult_le_compat; lra|exact SL]. }
    rewrite Rabs_mult, (Rabs_right (A + B)) in F by lra. pose proof (Rabs_pos (A - B)) as P1.
    assert (Rabs (A - B) * 1.8306 <= Rabs (A - B) * (A + B)) by (apply Rmult_le_compat_l; lra). lra. }
  replace (s * cos b / B - s * cos a / A) with (s * ((cos b - cos a) * B + cos b * (A - B)) / (A * B)) by (field; split; lra).
  assert (AB : 0.8377 <= A * B) by (assert (0.9153 * 0.9153 <= A * B) by (apply Rmult_le_compat; lra); lra).
  assert (N1 : Rabs ((cos b - cos a) * B + cos b * (A - B)) <= z * 1 + 1 * (0.178 * z)).
  { eapply Rle_trans; [apply Rabs_triang|]. rewrite !Rabs_mult, (Rabs_right B) by lra. pose proof (cos_1 b). pose proof (Rabs_pos (cos b)). pose proof (Rabs_pos (A - B)). pose proof (Rabs_pos (cos b - cos a)).
    apply Rplus_le_compat; apply Rmult_le_compat; lra. }
  unfold Rdiv. rewrite Rabs_mult, Rabs_mult, (Rabs_right s), (Rabs_right (/ (A * B))) by (try lra; apply Rle_ge; left; apply Rinv_0_lt_compat; lra).
  apply (Rmult_le_reg_r (A * B)); [lra|]. rewrite Rmult_assoc, Rinv_l, Rmult_1_r by lra. pose proof (Rabs_pos ((cos b - cos a) * B + cos b * (A - B))) as P2.
  apply Rle_trans with (0.4026 * (z * 1 + 1 * (0.178 * z))); [apply Rmult_le_compat; lra|]. assert (0.57 * z * 0.8377 <= 0.57 * z * (A * B)) by (apply Rmult_le_compat_l; lra). lra.
Qed.
