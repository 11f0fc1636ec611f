(** EquinoxLen.v -- the lengths of the seasons, and the effect of the divisor (proof support). *)
From Coq Require Import ZArith QArith Qabs Qreals Lqa Reals Lra Lia List Bool.
From Verif Require Import Base Flt BaseModel SpecAstro SpecSeason AstroReal AstroFlt AstroApx EquinoxProofs.
Import ListNotations.
Local Open Scope R_scope.

(** the quarter between the season [k] and the next one *)
Definition next_mean (g : Z) (k : nat) : R := match k with 3%nat => mean_season (g + 1) 0 | _ => mean_season g (S k) end.
Lemma powers y : -1 <= y <= 1.007 -> 0 <= y * y <= 1.015 /\ (0 <= y -> 0 <= y * (y * y)) /\ -1 <= y * (y * y) <= 1.023 /\ 0 <= y * (y * (y * y)) <= 1.04.
Proof.
  intro H. assert (Q : 0 <= y * y <= 1.015) by (split; [apply Rle_0_sqr|nra]).
  assert (Q4 : 0 <= y * (y * (y * y)) <= 1.04).
  { replace (y * (y * (y * y))) with ((y * y) * (y * y)) by ring. split; [apply Rle_0_sqr|].
    assert ((y * y) * (y * y) <= 1.015 * 1.015) by (apply Rmult_le_compat; lra). lra. }
  split; [exact Q|]. split; [intro; apply Rmult_le_pos; lra|]. split; [|exact Q4].
  destruct (Rle_dec 0 y) as [P|P].
  - assert (0 <= y * (y * y)) by (apply Rmult_le_pos; lra). assert (y * (y * y) <= 1.007 * 1.015) by (apply Rmult_le_compat; lra). lra.
  - assert (y * y <= 1) by nra. assert (0 <= - y * (y * y)) by (apply Rmult_le_pos; lra). assert (- y * (y * y) <= 1 * 1) by (apply Rmult_le_compat; lra). lra.
Qed.
Lemma old_y g : (1 <= g)%Z -> (g <= 1000)%Z -> 0 <= IZR g / 1000 <= 1.
Proof. intros A B. apply IZR_le in A. apply IZR_le in B. lra. Qed.
Lemma new_y g : (1000 < g)%Z -> (g <= 3007)%Z -> -1 <= (IZR g - 2000) / 1000 <= 1.007.
Proof. intros A B. apply IZR_lt in A. apply IZR_le in B. lra. Qed.
Ltac pw y H := let P := fresh "P" in pose proof (powers y ltac:(lra)) as P; destruct P as (? & ? & ? & ?).
Lemma quarters g : (1 <= g <= 3007)%Z ->
  91.92 <= mean_season g 1 - mean_season g 0 <= 93.97 /\
  92.44 <= mean_season g 2 - mean_season g 1 <= 93.95 /\
  88.68 <= mean_season g 3 - mean_season g 2 <= 90.64.
Proof.
  intros [G1 G2]. unfold mean_season, horner. destruct (Z.leb_spec g 1000) as [L|L]; cbv zeta.
  - pose proof (old_y g G1 L) as Y. set (y := IZR g / 1000) in *. clearbody y. pw y Y. nra.
  - pose proof (new_y g L G2) as Y. set (y := (IZR g - 2000) / 1000) in *. clearbody y. pw y Y. nra.
Qed.
Lemma year_mean g : (1 <= g <= 3006)%Z -> 365.2420 <= mean_season (g + 1) 0 - mean_season g 0 <= 365.2426.
Proof.
  intros [G1 G2]. destruct (Z.eq_dec g 1000) as [->|NE].
  - unfold mean_season, horner. cbn [Z.add Z.leb Z.compare Pos.compare Pos.compare_cont Pos.add]. cbv zeta. lra.
  - unfold mean_season, horner. destruct (Z.leb_spec g 1000) as [L|L].
    + destruct (Z.leb_spec (g + 1) 1000); [|lia]. cbv zeta. pose proof (old_y g G1 L) as Y. rewrite plus_IZR. set (y := IZR g / 1000) in *.
      replace ((IZR g + 1) / 1000) with (y + 0.001) by (unfold y; lra). clearbody y. pw y Y. nra.
    + destruct (Z.leb_spec (g + 1) 1000); [lia|]. cbv zeta. pose proof (new_y g L ltac:(lia)) as Y. rewrite plus_IZR. set (y := (IZR g - 2000) / 1000) in *.
      replace ((IZR g + 1 - 2000) / 1000) with (y + 0.001) by (unfold y; lra). clearbody y. pw y Y. nra.
Qed.
Lemma winter g : (1 <= g <= 3006)%Z -> 88.7 <= mean_season (g + 1) 0 - mean_season g 3 <= 90.15.
Proof.
  intro G. pose proof (year_mean g G) as Y. assert (W : 275.1 <= mean_season g 3 - mean_season g 0 <= 276.54); [|lra].
  destruct G as [G1 G2]. clear Y. unfold mean_season, horner. destruct (Z.leb_spec g 1000) as [L|L]; cbv zeta.
  - pose proof (old_y g G1 L) as Y. set (y := IZR g / 1000) in *. clearbody y. pw y Y. nra.
  - pose proof (new_y g L ltac:(lia)) as Y. set (y := (IZR g - 2000) / 1000) in *. clearbody y. pw y Y. nra.
Qed.
Lemma dcos_le x : Rabs (dcos x) <= 1.
Proof. unfold dcos. apply Rabs_le_iff. pose proof (COS_bound (x * (PI / 180))). lra. Qed.
Lemma book_divisor_range t : 0.9659 <= book_divisor t <= 1.0341.
Proof.
  unfold book_divisor. cbv zeta. set (w := 35999.373 * t - 2.47). pose proof (dcos_le w) as A. pose proof (dcos_le (2 * w)) as B.
  apply Rabs_le_iff in A. apply Rabs_le_iff in B. lra.
Qed.
Lemma book_near g k : Rabs (season_date g k code_divisor - season_date g k book_divisor) <= 0.00145.
Proof.
  unfold season_date. cbv zeta. set (e := mean_season g k). set (t := (e - 2451545) / 36525). pose proof (periodic_le t) as P.
  pose proof (code_divisor_range t) as C. pose proof (book_divisor_range t) as B.
  assert (D : Rabs (book_divisor t - code_divisor t) <= 0.0675).
  { unfold book_divisor, code_divisor. cbv zeta. set (w := 35999.373 * t - 2.47). pose proof (dcos_le w) as X1. pose proof (dcos_le (2 * w)) as X2. pose proof (dcos_le (w + 0.0007)) as X3.
    assert (M : Rabs (dcos (w + 0.0007) * dcos (2 * w)) <= 1 * 1) by (rewrite Rabs_mult; apply Rmult_le_compat; auto using Rabs_pos).
    apply Rabs_le_iff in X1. apply Rabs_le_iff in X2. apply Rabs_le_iff in M. apply Rabs_le_iff. rewrite Rmult_assoc. lra. }
  set (c := code_divisor t) in *. set (b := book_divisor t) in *. set (s := periodic t) in *. clearbody c b s.
  replace (e + 0.00001 * s / c - (e + 0.00001 * s / b)) with (0.00001 * s * (b - c) / (c * b)) by (field; lra).
  assert (CB : 0.933 <= c * b) by nra.
  unfold Rdiv. rewrite !Rabs_mult, (Rabs_right 0.00001), (Rabs_right (/ (c * b))) by (try (left; apply Rinv_0_lt_compat); lra).
  apply (Rmult_le_reg_r (c * b)); [lra|]. rewrite Rmult_assoc, Rinv_l by lra.
  assert (Rabs s * Rabs (b - c) <= 1978 * 0.0675) by (apply Rmult_le_compat; auto using Rabs_pos). lra.
Qed.

(** the plain sum is right to twelve figures *)
Local Open Scope Q_scope.
Lemma exact_sum_abs l : 0 <= exact_sum (map Qabs l).
Proof. induction l as [|x l IH]; cbn [map exact_sum]; [apply Qle_refl|]. pose proof (Qabs_nonneg x). Lqa.lra. Qed.
Lemma fold_err rnd : Nearest rnd -> forall l a (n : nat), (length l <= n)%nat -> (Z.of_nat n <= 1000)%Z ->
  Qabs (fold_left (fadd rnd) l a - (a + exact_sum l)) <= inject_Z (2 * Z.of_nat n) * uq * (Qabs a + exact_sum (map Qabs l)).
Proof.
  intros N. induction l as [|x l IH]; intros a n L B; cbn [fold_left map exact_sum].
  - setoid_replace (a - (a + 0)) with 0 by ring. rewrite Qplus_0_r. change (Qabs 0) with 0. apply Qmult_le_0_compat; [|apply Qabs_nonneg].
    apply Qmult_le_0_compat; [change 0 with (inject_Z 0); rewrite <- Zle_Qle; lia|discriminate].
  - destruct n as [|n]; [cbn in L; lia|]. specialize (IH (fadd rnd a x) n ltac:(cbn in L; lia) ltac:(lia)). pose proof (exact_sum_abs l) as S0.
    pose proof (flq rnd N (a + x)) as F. fold (fadd rnd a x) in F. pose proof (Qabs_triangle a x) as T.
    set (s := fadd rnd a x) in *. set (S := exact_sum (map Qabs l)) in *. pose proof (Qabs_nonneg a) as A0. pose proof (Qabs_nonneg x) as X0.
    assert (SA : Qabs s <= (1 + uq) * (Qabs a + Qabs x)).
    { setoid_replace s with ((a + x) + (s - (a + x))) by ring. eapply Qle_trans; [apply Qabs_triangle|]. unfold uq in *. Lqa.lra. }
    set (e := fold_left (fadd rnd) l s) in *. setoid_replace (e - (a + (x + exact_sum l))) with ((e - (s + exact_sum l)) + (s - (a + x))) by ring.
    eapply Qle_trans; [apply Qabs_triangle|]. set (P := Qabs a) in *. set (X := Qabs x) in *. set (AX := Qabs (a + x)) in *. set (AS := Qabs s) in *.
    set (E1 := Qabs (e - _)) in *. set (E2 := Qabs (s - _)) in *. clearbody P X AX AS E1 E2 S.
    rewrite Nat2Z.inj_succ in B. set (k := Z.of_nat n) in *. assert (K0 : (0 <= k <= 1000)%Z) by lia. rewrite Nat2Z.inj_succ.
    replace (2 * Z.succ (Z.of_nat n))%Z with (2 * k + 2)%Z by lia. rewrite inject_Z_plus. rewrite !inject_Z_mult in *. change (inject_Z 2) with 2 in *.
    destruct K0 as [K0 K1]. rewrite Zle_Qle in K0, K1. change (inject_Z 0) with 0 in K0. change (inject_Z 1000) with 1000 in K1. set (c := inject_Z k) in *. clearbody c. clear - IH F T S0 A0 X0 SA K0 K1.
    assert (M : 2 * c * uq * (AS + S) <= 2 * c * uq * ((1 + uq) * (P + X) + S)).
    { rewrite (Qmult_comm _ (AS + S)), (Qmult_comm _ (_ + S)). apply Qmult_le_compat_r; [Lqa.lra|]. unfold uq. Lqa.lra. }
    assert (M2 : c * (P + X) <= 1000 * (P + X)) by (apply Qmult_le_compat_r; Lqa.lra).
    unfold uq in *. Lqa.lra.
Qed.
Lemma plain_sum_ok rnd : Nearest rnd -> sum_ok (plain_sum rnd).
Proof.
  intros N l L. unfold plain_sum. pose proof (fold_err rnd N l 0 100 L ltac:(lia)) as F. rewrite Qplus_0_l in F. change (Qabs 0) with 0 in F. rewrite Qplus_0_l in F.
  eapply Qle_trans; [exact F|]. apply Qmult_le_compat_r; [discriminate|apply exact_sum_abs].
Qed.
