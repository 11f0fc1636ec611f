(** EquinoxProofs.v -- the floats of the equinoxes and solstices are near the numbers of the book (proof support). *)
From Coq Require Import ZArith QArith Qround Qabs Qreals Lqa Reals Lra Lia List Bool.
From Verif Require Import Base Flt QUtil BaseModel BaseProofs GregModel ConvModel SunProofs AstroModel SpecAstro EquinoxModel SpecSeason AstroReal AstroFlt AstroApx AstroSun AstroRise5 AstroDt.
Import ListNotations.
Local Open Scope R_scope.

(** the exact coefficients *)
Definition ecoeffs (old : bool) (k : nat) : list Q :=
  if old then match k with
    | 0%nat => [172113929189 # 100000; 3652421374 # 10000; 6134 # 100000; 111 # 100000; (-71) # 100000]
    | 1%nat => [172123325401 # 100000; 36524172562 # 100000; (-5323) # 100000; 907 # 100000; 25 # 100000]
    | 2%nat => [172132570455 # 100000; 36524249558 # 100000; (-11677) # 100000; (-297) # 100000; 74 # 100000]
    | _ => [172141439987 # 100000; 36524288257 # 100000; (-769) # 100000; (-933) # 100000; (-6) # 100000]
    end
  else match k with
    | 0%nat => [245162380984 # 100000; 36524237404 # 100000; 5169 # 100000; (-411) # 100000; (-57) # 100000]
    | 1%nat => [245171656767 # 100000; 36524162603 # 100000; 325 # 100000; 888 # 100000; (-30) # 100000]
    | 2%nat => [245181021715 # 100000; 36524201767 # 100000; (-11575) # 100000; 337 # 100000; 78 # 100000]
    | _ => [245190005952 # 100000; 36524274049 # 100000; (-6223) # 100000; (-823) # 100000; 32 # 100000]
    end%Q.
Definition eyear (g : Z) : Q := (if (g <=? 1000)%Z then g else (g - 2000)%Z) # 1000.
Definition degrees_of (k : nat) : Z := match k with 0%nat => 0 | 1%nat => 90 | 2%nat => 180 | _ => 270 end%Z.
Lemma mean_season_Q g k : mean_season g k = Q2R (pe (eyear g) (ecoeffs (g <=? 1000)%Z k)).
Proof.
  unfold mean_season, eyear, ecoeffs, horner. destruct (g <=? 1000)%Z; cbv zeta; destruct k as [|[|[|k]]]; rewrite !pe_cons; unfold pe; cbn [poly];
    rewrite !Q2R_plus, !Q2R_mult, !Q2R_plus, !Q2R_mult, !Q2R_plus, !Q2R_mult, !Q2R_plus, !Q2R_mult, !Q2R_plus, !Q2R_mult, !Q2R_lit, ?minus_IZR; cbv beta; lra.
Qed.

Definition YX : Q := 1007 # 1000.
Lemma eyear_le g : (1 <= g <= 3007)%Z -> (Qabs (eyear g) <= YX)%Q.
Proof.
  intro H. unfold eyear, YX. apply Qabs_iff. destruct (Z.leb_spec g 1000); unfold Qle, Qopp; cbn [Qnum Qden]; lia.
Qed.
Lemma mean_season_range g k : (1 <= g <= 3007)%Z -> 1721000 <= mean_season g k <= 2820000.
Proof.
  intro H. rewrite mean_season_Q. pose proof (eyear_le g H) as Y. unfold ecoeffs. 
  assert (Y1 : (g <=? 1000 = true)%Z -> 0 <= Q2R (eyear g) <= 1).
  { unfold eyear. intro G. rewrite G. rewrite Q2R_lit. apply Z.leb_le in G. destruct H as [H1 H2]. apply IZR_le in H1. apply IZR_le in G. lra. }
  assert (Y2 : (g <=? 1000 = false)%Z -> -1 <= Q2R (eyear g) <= 1.007).
  { unfold eyear. intro G. rewrite G. rewrite Q2R_lit, minus_IZR. apply Z.leb_gt in G. destruct H as [H1 H2]. apply IZR_le in H2. apply IZR_lt in G. lra. }
  assert (B : forall a b c d e, (pabs YX [c; d; e] <= 1)%Q -> Rabs (Q2R (pe (eyear g) [a; b; c; d; e]) - (Q2R a + Q2R (eyear g) * Q2R b)) <= 1.02).
  { intros a b c d e P. rewrite (pe_cons _ a), (pe_cons _ b), Q2R_plus, Q2R_mult, Q2R_plus, Q2R_mult. set (y := Q2R (eyear g)) in *.
    assert (Z : Rabs (Q2R (pe (eyear g) [c; d; e])) <= 1). { eapply Rle_trans; [apply Qabs_R; eapply Qle_trans; [apply pe_abs, Y|exact P]|]. rewrite Q2R_lit. lra. }
    set (z := Q2R (pe _ _)) in *. replace (Q2R a + y * (Q2R b + y * z) - (Q2R a + y * Q2R b)) with (y * y * z) by ring.
    rewrite Rabs_mult, Rabs_right by (apply Rle_ge, Rle_0_sqr).
    assert (y * y <= 1.02). { destruct (g <=? 1000)%Z; [specialize (Y1 eq_refl)|specialize (Y2 eq_refl)]; nra. }
    assert (0 <= y * y) by apply Rle_0_sqr. pose proof (Rabs_pos z). assert (y * y * Rabs z <= 1.02 * 1) by (apply Rmult_le_compat; lra). lra. }
  destruct (g <=? 1000)%Z; [specialize (Y1 eq_refl)|specialize (Y2 eq_refl)]; destruct k as [|[|[|k]]];
    match goal with |- context [pe _ [?a; ?b; ?c; ?d; ?e]] => specialize (B a b c d e ltac:(vm_compute; discriminate)) end;
    apply Rabs_le_iff in B; rewrite (Q2R_lit (Zpos _) 100000) in B; rewrite Q2R_lit in B; lra.
Qed.

Section E.
Variable rnd : Q -> Q.
Hypothesis N : Nearest rnd.
Variable lm : libm.
Hypothesis A : accurate lm.
Variable total : list Q -> Q.
Hypothesis TOT : sum_ok total.

Ltac coeffs := repeat (apply Forall2_cons; [first [apply close_refl | apply (close_rnd rnd N); reflexivity]|]); apply Forall2_nil.
Ltac apxs := repeat first
  [ eassumption
  | match goal with
    | |- apx (lit _ _ _) _ _ _ => apply (apx_litc rnd _ _ N)
    | |- apx (fadd _ _ _) _ _ _ => eapply (apx_add rnd N)
    | |- apx (fsub _ _ _) _ _ _ => eapply (apx_sub rnd N)
    | |- apx (fmul _ _ _) _ _ _ => eapply (apx_mul rnd N)
    | |- apx (fdiv _ _ _) _ _ _ => eapply (apx_divc rnd N)
    | |- apx (cos_deg _ _ _) _ _ _ => eapply (apx_cos rnd N lm A)
    end ].
Ltac nums := cbn [Z.abs]; unfold u; lra.

(** the polynomial *)
Lemma approx_season_poly g k : exists a,
  approx_season rnd g (degrees_of k) = poly rnd (fdiv rnd (inject_Z (if (g <=? 1000)%Z then g else (g - 2000)%Z)) 1000) a /\ Forall2 close a (ecoeffs (g <=? 1000)%Z k).
Proof.
  unfold approx_season, ecoeffs. destruct (g <=? 1000)%Z; cbv zeta; destruct k as [|[|[|k]]]; cbn [degrees_of]; 
    (eexists; split; [reflexivity|unfold lit; coeffs]).
Qed.
Lemma perr_coeffs old k : (perr (10071 # 10000) (ecoeffs old k) <= 4 # 100000000)%Q /\ (plip (10071 # 10000) (ecoeffs old k) <= 365300)%Q.
Proof. destruct old; destruct k as [|[|[|k]]]; split; vm_compute; discriminate. Qed.
Lemma approx_season_R g k : (1 <= g <= 3007)%Z -> Rabs (Q2R (approx_season rnd g (degrees_of k)) - mean_season g k) <= 0.00000005.
Proof.
  intro H. rewrite mean_season_Q. destruct (approx_season_poly g k) as (a & -> & F). set (n := if (g <=? 1000)%Z then g else (g - 2000)%Z).
  set (x := fdiv rnd (inject_Z n) 1000). pose proof (eyear_le g H) as Y. unfold YX in Y.
  assert (E : (inject_Z n / 1000 == eyear g)%Q) by (unfold eyear; fold n; unfold Qdiv, Qeq; cbn; ring).
  assert (D : (Qabs (x - eyear g) <= 2 # 1000000000000000)%Q).
  { unfold x, fdiv. pose proof (flq rnd N (inject_Z n / 1000)) as D. rewrite E in D at 2 3. eapply Qle_trans; [exact D|]. unfold uq. Lqa.lra. }
  assert (X : (Qabs x <= 10071 # 10000)%Q) by (apply Qabs_iff in D; apply Qabs_iff in Y; apply Qabs_iff; split; Lqa.lra).
  destruct (perr_coeffs (g <=? 1000)%Z k) as [P1 P2]. pose proof (poly_err rnd N x _ _ _ X F) as P.
  pose proof (pe_lip x (eyear g) (10071 # 10000) (ecoeffs (g <=? 1000)%Z k) X ltac:(eapply Qle_trans; [exact Y|discriminate])) as L.
  set (b := ecoeffs _ _) in *.
  assert (L' : (Qabs (pe x b - pe (eyear g) b) <= 365300 * (2 # 1000000000000000))%Q).
  { eapply Qle_trans; [exact L|]. apply Qmult_le_compat_nonneg; split; try assumption; try apply Qabs_nonneg.
    unfold b, ecoeffs. clear. destruct (g <=? 1000)%Z; destruct k as [|[|[|k]]]; vm_compute; discriminate. }
  rewrite <- Q2R_minus, <- Q2R_abs. apply (Rle_trans _ (Q2R (5 # 100000000))); [|rewrite Q2R_lit; lra]. apply Qle_Rle.
  apply Qabs_iff in P. apply Qabs_iff in L'. apply Qabs_iff. split; Lqa.lra.
Qed.

(** the sum *)
Definition rterm (t : R) (x : Z * Z * Z) : R := let '(a, b, c) := x in IZR a * dcos (IZR b / 100 + IZR c / 1000 * t).
Definition qerr (x : Z * Z * Z) : Q := let '(a, b, c) := x in (inject_Z a * ((((b # 100) + (206 # 10) * (c # 1000) + 2) * (2 # 1000000000)) + (c # 1000) * (1 # 1000000000000) + (1 # 100000000)))%Q.
Definition good (x : Z * Z * Z) : bool := let '(a, b, c) := x in ((0 <=? a) && (0 <=? b) && (0 <=? c) && (c <=? 500000000) && (b <=? 36000))%Z.
Lemma term_R tc t x : apx tc t 20.6 (5 / 1000000000000) -> good x = true ->
  Rabs (Q2R (season_term rnd lm tc x) - rterm t x) <= Q2R (qerr x) /\ Rabs (rterm t x) <= IZR (fst (fst x)).
Proof.
  destruct x as [[a b] c]. unfold good. intros T G. apply andb_prop in G. destruct G as [G Gb']. apply andb_prop in G. destruct G as [G Gc']. apply andb_prop in G. destruct G as [G Gc]. apply andb_prop in G. destruct G as [Ga Gb].
  apply Z.leb_le, IZR_le in Ga. apply Z.leb_le in Gb, Gc. apply Z.leb_le, IZR_le in Gc'. apply Z.leb_le, IZR_le in Gb'. cbn [fst].
  assert (I : apx (fadd rnd (lit rnd b 100) (fmul rnd (lit rnd c 1000) tc)) (IZR b / 100 + IZR c / 1000 * t) (IZR b / 100 + IZR c / 1000 * 20.6) (IZR c / 1000 * (6 / 1000000000000) + 1 / 1000000000000)).
  { pose proof (apx_litc rnd b 100 N) as LB. pose proof (apx_litc rnd c 1000 N) as LC. rewrite Z.abs_eq in LB, LC by assumption. apply IZR_le in Gb, Gc. 
    eapply apx_weaken; [apxs|lra|]. unfold u. lra. }
  apply IZR_le in Gb, Gc. pose proof (apx_cos rnd N lm A _ _ _ _ I) as C.
  assert (C' : apx (cos_deg rnd lm (fadd rnd (lit rnd b 100) (fmul rnd (lit rnd c 1000) tc))) (dcos (IZR b / 100 + IZR c / 1000 * t)) 1
    ((IZR b / 100 + 20.6 * (IZR c / 1000) + 1.5) * (2 / 1000000000) + IZR c / 1000 * (1 / 1000000000000) + 1 / 1000000000)).
  { eapply apx_weaken; [exact C|lra|lra]. }
  clear C. remember (dcos (IZR b / 100 + IZR c / 1000 * t)) as v eqn:Ev. remember ((IZR b / 100 + 20.6 * (IZR c / 1000) + 1.5) * (2 / 1000000000) + IZR c / 1000 * (1 / 1000000000000) + 1 / 1000000000) as f eqn:Ef.
  assert (XA : apx (inject_Z a) (IZR a) (IZR a) 0) by (rewrite <- (Q2R_Z a) at 1; apply apx_exact; rewrite Q2R_Z, Rabs_right; lra).
  destruct (apx_mul rnd N _ _ _ _ _ _ _ _ XA C') as [M1 M2]. unfold season_term, rterm. rewrite <- Ev. split; [|rewrite Rmult_1_r in M2; exact M2].
  eapply Rle_trans; [exact M1|]. unfold qerr. rewrite Q2R_mult, !Q2R_plus, !Q2R_mult, !Q2R_plus, !Q2R_mult, Q2R_Z, !Q2R_lit.
  assert (F1 : 0 <= f <= 0.1) by (rewrite Ef; lra).
  apply (Rle_trans _ (IZR a * (f + 2 * u))).
  - assert (IZR a * f <= IZR a * 0.1) by (apply Rmult_le_compat_l; lra). pose proof (Rmult_le_pos (IZR a) f ltac:(lra) ltac:(lra)). unfold u. lra.
  - apply Rmult_le_compat_l; [lra|]. rewrite Ef. unfold u. lra.
Qed.
Fixpoint rsum (l : list R) : R := match l with [] => 0 | x :: l' => x + rsum l' end.
Lemma table_eq t : periodic t = rsum (map (rterm t) EQ_SO).
Proof.
  unfold periodic, table_27C, EQ_SO, rterm. cbn [map fold_right rsum].
  repeat (apply f_equal2; [match goal with |- ?a * dcos ?x = ?b * dcos ?y => replace x with y by lra; lra end|]). reflexivity.
Qed.
Lemma sum_R tc t l : apx tc t 20.6 (5 / 1000000000000) -> forallb good l = true ->
  Rabs (Q2R (exact_sum (map (season_term rnd lm tc) l)) - rsum (map (rterm t) l)) <= Q2R (exact_sum (map qerr l)) /\
  Rabs (rsum (map (rterm t) l)) <= rsum (map (fun x => IZR (fst (fst x))) l) /\
  Q2R (exact_sum (map Qabs (map (season_term rnd lm tc) l))) <= rsum (map (fun x => IZR (fst (fst x))) l) + Q2R (exact_sum (map qerr l)).
Proof.
  intro T. induction l as [|x l IH]; cbn [map exact_sum rsum forallb].
  - intros _. assert (Z : Q2R 0 = 0) by (unfold Q2R; cbn; lra). rewrite Z, Rminus_0_r, Rabs_R0. lra.
  - intro G. apply andb_prop in G. destruct G as [G1 G2]. destruct (IH G2) as (I1 & I2 & I3). destruct (term_R tc t x T G1) as [A1 A2].
    rewrite !Q2R_plus, Q2R_abs. repeat split.
    + match goal with |- Rabs (?a + ?b - (?c + ?d)) <= _ => replace (a + b - (c + d)) with ((a - c) + (b - d)) by ring end. eapply Rle_trans; [apply Rabs_triang|]. lra.
    + eapply Rle_trans; [apply Rabs_triang|]. lra.
    + match goal with |- Rabs ?a + _ <= _ => assert (Rabs a <= IZR (fst (fst x)) + Q2R (qerr x)); [|lra]; replace a with (rterm t x + (a - rterm t x)) by ring end.
      eapply Rle_trans; [apply Rabs_triang|]. lra.
Qed.
Lemma periodic_le t : Rabs (periodic t) <= 1978.
Proof.
  rewrite table_eq. assert (G : forall l, forallb good l = true -> Rabs (rsum (map (rterm t) l)) <= rsum (map (fun x => IZR (fst (fst x))) l)).
  { induction l as [|[[a b] c] l IH]; cbn [map rsum forallb fst]; intro G; [rewrite Rabs_R0; lra|]. apply andb_prop in G. destruct G as [G1 G2]. specialize (IH G2).
    eapply Rle_trans; [apply Rabs_triang|]. apply Rplus_le_compat; [|exact IH]. unfold rterm. rewrite Rabs_mult.
    unfold good in G1. repeat (apply andb_prop in G1; destruct G1 as [G1 _]). apply Z.leb_le, IZR_le in G1. rewrite (Rabs_right (IZR a)) by lra.
    assert (C : Rabs (dcos (IZR b / 100 + IZR c / 1000 * t)) <= 1) by (unfold dcos; apply Rabs_le_iff; pose proof (COS_bound ((IZR b / 100 + IZR c / 1000 * t) * (PI / 180))); lra).
    rewrite <- (Rmult_1_r (IZR a)) at 2. apply Rmult_le_compat_l; lra. }
  eapply Rle_trans; [apply (G EQ_SO eq_refl)|]. unfold EQ_SO. cbn [map rsum fst]. lra.
Qed.
Lemma total_R tc t : apx tc t 20.6 (5 / 1000000000000) -> Rabs (Q2R (total (map (season_term rnd lm tc) EQ_SO)) - periodic t) <= 6.
Proof.
  intro T. destruct (sum_R tc t EQ_SO T eq_refl) as (I1 & I2 & I3). rewrite <- table_eq in I1, I2.
  assert (B : Q2R (exact_sum (map qerr EQ_SO)) <= 5.5).
  { apply (Rle_trans _ (Q2R (55 # 10))); [apply Qle_Rle; vm_compute; discriminate|rewrite Q2R_lit; lra]. }
  assert (S : rsum (map (fun x => IZR (fst (fst x))) EQ_SO) = 1978) by (unfold EQ_SO; cbn [map rsum fst]; lra). rewrite S in I2, I3.
  pose proof (TOT (map (season_term rnd lm tc) EQ_SO) ltac:(cbn; lia)) as O. apply Qle_Rle in O. rewrite Q2R_abs, Q2R_minus, Q2R_mult, Q2R_lit in O.
  assert (X : 0 <= Q2R (exact_sum (map qerr EQ_SO))) by (eapply Rle_trans; [apply Rabs_pos|exact I1]).
  set (s := total _) in *. replace (Q2R s - periodic t) with ((Q2R s - Q2R (exact_sum (map (season_term rnd lm tc) EQ_SO))) + (Q2R (exact_sum (map (season_term rnd lm tc) EQ_SO)) - periodic t)) by ring.
  eapply Rle_trans; [apply Rabs_triang|]. lra.
Qed.

(** the divisor *)
Lemma code_divisor_range t : 0.966 <= code_divisor t <= 1.034.
Proof.
  unfold code_divisor, dcos. cbv zeta. set (x := cos _). set (y := cos (2 * _ * _)).
  assert (X : -1 <= x <= 1) by apply COS_bound. assert (Y : -1 <= y <= 1) by apply COS_bound. assert (-1 <= x * y <= 1) by nra. nra.
Qed.
Lemma divisor_R tc t : apx tc t 20.6 (5 / 1000000000000) ->
  let w := fsub rnd (fmul rnd (lit rnd 35999373 1000) tc) (lit rnd 247 100) in
  Rabs (Q2R (fadd rnd 1 (fmul rnd (fmul rnd (lit rnd 334 10000) (cos_deg rnd lm (fadd rnd w (lit rnd 7 10000)))) (cos_deg rnd lm (fmul rnd 2 w)))) - code_divisor t) <= 0.0002.
Proof.
  intros T w.
  assert (W : apx w (35999.373 * t - 2.47) 741600 (1 / 1000000)).
  { eapply apx_eq; [eapply apx_weaken; [unfold w; apxs|nums|nums]|]. lra. }
  assert (W1 : apx (cos_deg rnd lm (fadd rnd w (lit rnd 7 10000))) (dcos (35999.373 * t - 2.47 + 0.0007)) 1 0.0015).
  { eapply apx_eq; [eapply apx_weaken; [apxs|lra|nums]|]. unfold dcos, rad. f_equal; try lra. }
  assert (W2 : apx (cos_deg rnd lm (fmul rnd 2 w)) (dcos (2 * (35999.373 * t - 2.47))) 1 0.003).
  { eapply apx_eq; [eapply apx_weaken; [eapply (apx_cos rnd N lm A), (apx_mul rnd N); [apply (apx_const 2 1 2); rewrite Rabs_right; lra|exact W]|lra|nums]|]. unfold dcos, rad. f_equal; try lra. }
  generalize dependent (cos_deg rnd lm (fadd rnd w (lit rnd 7 10000))). intros c1 W1. generalize dependent (cos_deg rnd lm (fmul rnd 2 w)). intros c2 W2.
  assert (ONE : apx 1 (1 / 1) 1 0) by (apply (apx_const 1 1 1); rewrite Rabs_right; lra).
  assert (E : apx (fadd rnd 1 (fmul rnd (fmul rnd (lit rnd 334 10000) c1) c2)) (code_divisor t) 1.034 0.0002).
  { eapply apx_eq; [eapply apx_weaken; [apxs|nums|nums]|]. unfold code_divisor. cbv zeta. lra. }
  apply E.
Qed.

(** the moment *)
Lemma quotient_near s S d D : Rabs (s - S) <= 6 -> Rabs S <= 1978 -> Rabs (d - D) <= 0.0002 -> 0.966 <= D <= 1.034 ->
  Rabs (0.00001 * s / d - 0.00001 * S / D) <= 0.000067 /\ Rabs (0.00001 * S / D) <= 0.0205.
Proof.
  intros HS SB HD DB. apply Rabs_le_iff in HS. apply Rabs_le_iff in SB. apply Rabs_le_iff in HD.
  assert (I : forall x y, 0.9658 <= y -> Rabs x <= 0.9658 -> Rabs (x / y) <= 1).
  { intros x y Y X. unfold Rdiv. rewrite Rabs_mult, (Rabs_right (/ y)) by (left; apply Rinv_0_lt_compat; lra).
    apply (Rmult_le_reg_r y); [lra|]. rewrite Rmult_assoc, Rinv_l by lra. pose proof (Rabs_pos x). lra. }
  split.
  - replace (0.00001 * s / d - 0.00001 * S / D) with (0.000067 * (((s - S) * 0.00001 / 0.000067 - (0.00001 / 0.000067) * (S / D) * (d - D)) / d)) by (field; lra).
    rewrite Rabs_mult, (Rabs_right 0.000067) by lra. apply (Rle_trans _ (0.000067 * 1)); [|lra]. apply Rmult_le_compat_l; [lra|]. apply I; [lra|].
    assert (Q : Rabs (S / D) <= 2050).
    { replace (S / D) with (2050 * (S / 2050 / D)) by (field; lra). rewrite Rabs_mult, (Rabs_right 2050) by lra. apply (Rle_trans _ (2050 * 1)); [|lra].
      apply Rmult_le_compat_l; [lra|]. apply I; [lra|]. apply Rabs_le_iff. lra. }
    assert (P : Rabs (S / D * (d - D)) <= 2050 * 0.0002) by (rewrite Rabs_mult; apply Rmult_le_compat; try apply Rabs_pos; [exact Q|apply Rabs_le_iff; lra]).
    apply Rabs_le_iff in P. apply Rabs_le_iff. lra.
  - replace (0.00001 * S / D) with (0.0205 * (S * (0.00001 / 0.0205) / D)) by (field; lra). rewrite Rabs_mult, (Rabs_right 0.0205) by lra. apply (Rle_trans _ (0.0205 * 1)); [|lra].
    apply Rmult_le_compat_l; [lra|]. apply I; [lra|]. apply Rabs_le_iff. lra.
Qed.
Definition century (e : R) : R := (e - 2451545) / 36525.
Lemma moment_R jd g k zone : gregorian_year_from_jd rnd jd = g -> (1 <= g <= 3007)%Z -> Rabs (Q2R zone) <= 24 ->
  Rabs (Q2R (season_moment rnd lm total jd (degrees_of k) zone) - (season_date g k code_divisor + Q2R zone / 24)) <= 0.000075.
Proof.
  intros EG G ZN. unfold season_moment. cbv zeta. rewrite EG. clear EG jd.
  pose proof (approx_season_R g k G) as P. pose proof (mean_season_range g k G) as R0. unfold season_date. cbv zeta. set (e0 := mean_season g k) in *. clearbody e0.
  set (j0 := approx_season rnd g (degrees_of k)) in *. clearbody j0. apply Rabs_le_iff in P.
  assert (J0 : 1700000 <= Q2R j0 <= 2900000) by lra. pose proof (centuries_R rnd N j0 J0) as C. cbv zeta in C. destruct C as [C1 C2]. apply Rabs_le_iff in C1.
  set (tc := julian_centuries rnd j0) in *. clearbody tc. set (t := (e0 - 2451545) / 36525).
  assert (T : apx tc t 20.6 (5 / 1000000000000)) by (split; apply Rabs_le_iff; unfold t; lra).
  pose proof (total_R tc t T) as S. set (s := total _) in *. clearbody s. pose proof (divisor_R tc t T) as D. cbv zeta in D. set (d := fadd rnd 1 _) in *. clearbody d.
  pose proof (code_divisor_range t) as DR. set (D0 := code_divisor t) in *. pose proof (periodic_le t) as SB. set (S0 := periodic t) in *. clearbody D0 S0.
  destruct (quotient_near (Q2R s) S0 (Q2R d) D0 S SB D DR) as [Q1 Q2]. apply Rabs_le_iff in D. apply Rabs_le_iff in S. apply Rabs_le_iff in SB.
  set (q := 0.00001 * S0 / D0) in *. clearbody q. set (q1 := 0.00001 * Q2R s / Q2R d) in *.
  assert (M : Rabs (Q2R (fmul rnd (lit rnd 1 100000) s) - 0.00001 * Q2R s) <= 1 / 1000000000000).
  { assert (SX : apx s (Q2R s) 1984 0) by (apply apx_exact, Rabs_le_iff; lra). destruct (apx_mul rnd N _ _ _ _ _ _ _ _ (apx_litc rnd 1 100000 N) SX) as [M _].
    replace (0.00001 * Q2R s) with (1 / 100000 * Q2R s) by lra. eapply Rle_trans; [exact M|]. nums. }
  set (m := fmul rnd (lit rnd 1 100000) s) in *. clearbody m.
  assert (DN : ~ (d == 0)%Q) by (intro E; apply Qeq_eqR in E; rewrite E in D; unfold Q2R in D; cbn in D; lra).
  assert (QD : Rabs (Q2R m / Q2R d - q1) <= 2 / 1000000000000).
  { unfold q1. replace (Q2R m / Q2R d - 0.00001 * Q2R s / Q2R d) with ((Q2R m - 0.00001 * Q2R s) * / Q2R d) by (field; lra). rewrite Rabs_mult, (Rabs_right (/ Q2R d)) by (left; apply Rinv_0_lt_compat; lra).
    assert (/ Q2R d <= 2) by (apply (Rmult_le_reg_r (Q2R d)); [lra|]; rewrite Rinv_l; lra). assert (0 < / Q2R d) by (apply Rinv_0_lt_compat; lra).
    replace (2 / 1000000000000) with (1 / 1000000000000 * 2) by lra. apply Rmult_le_compat; try lra. apply Rabs_pos. }
  clearbody q1. apply Rabs_le_iff in Q1. apply Rabs_le_iff in Q2. apply Rabs_le_iff in QD.
  pose proof (fdiv_R rnd N m d 1 DN ltac:(apply Rabs_le_iff; lra)) as FD. set (v := fdiv rnd m d) in *. clearbody v. unfold u in FD. apply Rabs_le_iff in FD.
  pose proof (fadd_R rnd N j0 v 3000000 ltac:(apply Rabs_le_iff; lra)) as FA. set (j1 := fadd rnd j0 v) in *. clearbody j1. unfold u in FA. apply Rabs_le_iff in FA.
  assert (DT : (Qabs (delta_t rnd j1 false) <= 35 # 100)%Q) by (apply (delta_t_le rnd N); split; apply Rle_Qle; rewrite Q2R_lit; lra).
  apply Qabs_R in DT. rewrite Q2R_lit in DT. set (dt := delta_t rnd j1 false) in *. clearbody dt. apply Rabs_le_iff in DT.
  assert (E86 : Q2R 86400 = 86400) by (unfold Q2R; cbn [Qnum Qden]; lra). assert (E24 : Q2R 24 = 24) by (unfold Q2R; cbn [Qnum Qden]; lra).
  pose proof (fdiv_R rnd N dt 86400 1 ltac:(discriminate) ltac:(rewrite E86; apply Rabs_le_iff; lra)) as FD2. rewrite E86 in FD2. set (dv := fdiv rnd dt 86400) in *. clearbody dv. unfold u in FD2. apply Rabs_le_iff in FD2.
  pose proof (fsub_R rnd N j1 dv 3000000 ltac:(apply Rabs_le_iff; lra)) as FS. set (j2 := fsub rnd j1 dv) in *. clearbody j2. unfold u in FS. apply Rabs_le_iff in FS.
  apply Rabs_le_iff in ZN.
  pose proof (fdiv_R rnd N zone 24 1 ltac:(discriminate) ltac:(rewrite E24; apply Rabs_le_iff; lra)) as FZ. rewrite E24 in FZ. unfold HR. set (z := fdiv rnd zone 24) in *. clearbody z. unfold u in FZ. apply Rabs_le_iff in FZ.
  pose proof (fadd_R rnd N j2 z 3000000 ltac:(apply Rabs_le_iff; lra)) as FL. set (j3 := fadd rnd j2 z) in *. clearbody j3. unfold u in FL. apply Rabs_le_iff in FL.
  assert (RN : (Qabs j3 <= 8388607)%Q) by (apply R_Qabs; rewrite Q2R_lit; apply Rabs_le_iff; lra).
  destruct (round12_near rnd N j3 RN) as [R1 R2]. apply Qle_Rle in R1. apply Qle_Rle in R2. rewrite Q2R_minus in R1. rewrite Q2R_plus in R2. rewrite Q2R_lit in R1, R2.
  apply Rabs_le_iff. lra.
Qed.
End E.
