(** AstroNaw.v -- the place of the sun over a range of moments, enclosed by computation (proof support). *)
From Coq Require Import ZArith QArith Qabs Qreals Lqa Reals Lra Lia List Bool.
From Verif Require Import Base Flt QUtil BaseModel AstroModel SpecAstro AstroReal AstroReal2 AstroFlt AstroApx AstroSun AstroNut AstroRA AstroMove AstroBall.
Import ListNotations.
Local Open Scope R_scope.

(** a constant, worked out once *)
Notation bk n d := (ltac:(let v := eval vm_compute in (bq n d) in exact v)) (only parsing).
(** [t] encloses the century, [l] the mean longitude less whole turns.
    The mean anomaly less 90 degrees, the equation of the centre, the longitude of the sun less its mean longitude. *)
Definition bM (t l : ball) : ball :=
  bsub l (badd (badd (bk 1293874 100000) (bmul (bk 171949 100000) t)) (badd (bmul (bk 4635 10000000) (bmul t t)) (bdivz (bmul t (bmul t t)) 300000))).
Definition bC (t l : ball) : ball :=
  let x := brad (bM t l) in let k := bcos x in
  bwide (bmul k (bsub (bsub (bsub (bk 1914602 1000000) (bmul (bk 4817 1000000) t)) (bmul (bk 14 1000000) (bmul t t)))
                      (bmul (bsub (bk 19993 1000000) (bmul (bk 101 1000000) t)) (bmulz 2 (bsin x))))) (bk 29 100000).
Definition boff (t l : ball) : ball := bwide (bsub (bC t l) (bk 569 100000)) (bk 478 100000).
Definition blam (t l : ball) : ball := badd l (boff t l).
Fixpoint bpe (x : ball) (l : list Q) : ball :=
  match l with [] => (0, 0)%Z | c :: l' => badd (bq (Qnum c) (Qden c)) (bmul x (bpe x l')) end.
Definition beps (t : ball) : ball := bwide (bpe (bdivz t 100) Eb) (bk 547 100000).
Definition bff (e l : ball) : ball :=
  let c := bcos (brad e) in let x := brad l in
  let n := bsub (bk 1 1) c in let d := badd (bk 1 1) c in
  let y := bdiv n d in let s := bsin x in let k := bcos x in
  let dn := badd (bk 1 1) (bmul y (bsub (bk 1 1) (bmulz 2 (bmul s s)))) in
  if bpos d && bpos dn then bdiv (bmul y (bmulz 2 (bmul s k))) dn else bwide (0, 0)%Z (bk 463 10000).
(** the right ascension less the mean longitude; the declination *)
Definition bdl (t l : ball) : ball :=
  let o := boff t l in bwide (bsub o (bdeg (batan (bff (beps t) (badd l o))))) (bk 5 10000).
Definition bdec (t l : ball) : ball :=
  let s := bwide (bmul (bsin (brad (beps t))) (bsin (brad (blam t l)))) (bk 5 1000000) in
  if (1000 * (Z.abs (fst s) + snd s) <=? 99 * SZ)%Z
  then bdeg (bwide (badd s (bdivz (bmul s (bmul s s)) 6)) (bk 5 1000000)) else bwide (0, 0)%Z (bk 24 1).

Lemma zero_in : inb 0 (0, 0)%Z.
Proof. unfold inb. cbn [fst snd]. rewrite Rmult_0_l, Rminus_0_r, Rabs_R0. lra. Qed.
Lemma bM_in t b bl (k : Z) : inb t b -> inb (Lr t - 360 * IZR k) bl -> inb (Mr t - 90 - 360 * IZR k) (bM b bl).
Proof.
  intros H L. unfold bM. eapply inb_eq.
  - exact (bsub_in _ _ _ _ L (badd_in _ _ _ _ (badd_in _ _ _ _ (bq_in 1293874 100000) (bmul_in _ _ _ _ (bq_in 171949 100000) H))
       (badd_in _ _ _ _ (bmul_in _ _ _ _ (bq_in 4635 10000000) (bmul_in _ _ _ _ H H)) (bdivz_in _ _ 300000 (bmul_in _ _ _ _ H (bmul_in _ _ _ _ H H)))))).
  - unfold Mr, Lr. lra.
Qed.
Lemma bC_in t b bl (k : Z) : inb t b -> inb (Lr t - 360 * IZR k) bl -> inb (Cr t) (bC b bl).
Proof.
  intros H L. pose proof (brad_in _ _ (bM_in t b bl k H L)) as X. set (x := rad (Mr t - 90 - 360 * IZR k)) in *.
  assert (SX : sin (rad (Mr t)) = cos x).
  { unfold x. replace (Mr t - 90 - 360 * IZR k) with (Mr t - 90 + 360 * IZR (- k)) by (rewrite opp_IZR; ring). rewrite cos_turn_d, rad_minus, rad_90.
    rewrite <- (cos_neg (rad (Mr t) - PI / 2)). replace (- (rad (Mr t) - PI / 2)) with (PI / 2 - rad (Mr t)) by ring. symmetry. apply cos_shift. }
  assert (CX : cos (rad (Mr t)) = - sin x).
  { unfold x. replace (Mr t - 90 - 360 * IZR k) with (Mr t - 90 + 360 * IZR (- k)) by (rewrite opp_IZR; ring). rewrite sin_turn_d, rad_minus, rad_90.
    rewrite <- sin_neg. replace (- (rad (Mr t) - PI / 2)) with (PI / 2 - rad (Mr t)) by ring. symmetry. apply sin_shift. }
  assert (S2 : sin (rad (2 * Mr t)) = - (2 * (sin x * cos x))).
  { replace (rad (2 * Mr t)) with (2 * rad (Mr t)) by (unfold rad; ring). rewrite sin_2a, SX, CX. ring. }
  unfold bC. cbv zeta. eapply bwide_in.
  - exact (bmul_in _ _ _ _ (bcos_in _ _ X) (bsub_in _ _ _ _ (bsub_in _ _ _ _ (bsub_in _ _ _ _ (bq_in 1914602 1000000) (bmul_in _ _ _ _ (bq_in 4817 1000000) H)) (bmul_in _ _ _ _ (bq_in 14 1000000) (bmul_in _ _ _ _ H H)))
      (bmul_in _ _ _ _ (bsub_in _ _ _ _ (bq_in 19993 1000000) (bmul_in _ _ _ _ (bq_in 101 1000000) H)) (bmulz_in 2 _ _ (bsin_in _ _ X))))).
  - exact (bq_in 29 100000).
  - unfold Cr. rewrite SX, S2. unfold C1, C2. rewrite (Rabs_right (29 / 100000)) by lra.
    replace (_ - _) with (0.00029 * sin (rad (3 * Mr t))) by lra.
    rewrite Rabs_mult, (Rabs_right 0.00029) by lra. pose proof (sin_1 (rad (3 * Mr t))). lra.
Qed.
Lemma boff_in t b bl l (k : Z) : inb (Q2R t) b -> inb (Lr (Q2R t) - 360 * IZR k) bl -> sun_l t l -> inb (l - Lr (Q2R t)) (boff b bl).
Proof.
  intros H L S. unfold boff. eapply bwide_in; [exact (bsub_in _ _ _ _ (bC_in _ _ _ k H L) (bq_in 569 100000))|exact (bq_in 478 100000)|].
  rewrite (Rabs_right (478 / 100000)) by lra. unfold sun_l in S. apply Rabs_le_iff in S. apply Rabs_le_iff. lra.
Qed.
Lemma bpe_in x b l : inb (Q2R x) b -> inb (Q2R (pe x l)) (bpe b l).
Proof.
  intro H. induction l as [|c l IH]; [cbn; rewrite RMicromega.Q2R_0; apply zero_in|].
  cbn [bpe]. eapply inb_eq; [exact (badd_in _ _ _ _ (bq_in (Qnum c) (Qden c)) (bmul_in _ _ _ _ H IH))|].
  change (pe x (c :: l)) with (c + x * pe x l)%Q. rewrite Q2R_plus, Q2R_mult. f_equal.
Qed.
Lemma bff_in e l be bl : 0 <= e <= 23.73 -> inb e be -> inb l bl -> inb (ff (cos (rad e)) (rad l)) (bff be bl).
Proof.
  intros R E L. destruct (obl_range e R) as [_ C]. unfold bff. cbv zeta.
  pose proof (bcos_in _ _ (brad_in _ _ E)) as BC. set (c := cos (rad e)) in *. set (bc := bcos (brad be)) in *.
  pose proof (bsin_in _ _ (brad_in _ _ L)) as BS. pose proof (bcos_in _ _ (brad_in _ _ L)) as BK. set (s := sin (rad l)) in *. set (k := cos (rad l)) in *.
  destruct (bpos (badd (bk 1 1) bc) && bpos (badd (bk 1 1) (bmul (bdiv (bsub (bk 1 1) bc) (badd (bk 1 1) bc)) (bsub (bk 1 1) (bmulz 2 (bmul (bsin (brad bl)) (bsin (brad bl)))))))) eqn:P.
  - apply andb_prop in P. destruct P as [P1 P2].
    pose proof (bdiv_in _ _ _ _ (bsub_in _ _ _ _ (bq_in 1 1) BC) (badd_in _ _ _ _ (bq_in 1 1) BC) P1) as Y.
    pose proof (bdiv_in _ _ _ _ (bmul_in _ _ _ _ Y (bmulz_in 2 _ _ (bmul_in _ _ _ _ BS BK))) (badd_in _ _ _ _ (bq_in 1 1) (bmul_in _ _ _ _ Y (bsub_in _ _ _ _ (bq_in 1 1) (bmulz_in 2 _ _ (bmul_in _ _ _ _ BS BS))))) P2) as Z.
    eapply inb_eq; [exact Z|]. unfold ff, yy. rewrite sin_2a, cos_2a_sin. fold s k. replace (1 / 1) with 1 by field. 
    replace (1 - 2 * s * s) with (1 - 2 * (s * s)) by ring. replace (2 * s * k) with (2 * (s * k)) by ring. reflexivity.
  - eapply bwide_in; [exact zero_in|exact (bq_in 463 10000)|]. rewrite Rminus_0_r, (Rabs_right (463 / 10000)) by lra. pose proof (ff_small c (rad l) C). lra.
Qed.
Lemma RAd_turn e l (k : Z) : RAd e (l - 360 * IZR k) = RAd e l - 360 * IZR k.
Proof.
  unfold RAd. replace (l - 360 * IZR k) with (l + 360 * IZR (- k)) by (rewrite opp_IZR; ring). rewrite rad_turn.
  assert (F : ff (cos (rad e)) (rad l + 2 * PI * IZR (- k)) = ff (cos (rad e)) (rad l)).
  { unfold ff. replace (2 * (rad l + 2 * PI * IZR (- k))) with (2 * rad l + 2 * PI * IZR (2 * - k)) by (rewrite mult_IZR; ring). rewrite sin_turn, cos_turn. reflexivity. }
  unfold RA. rewrite F. unfold Rminus. rewrite !deg_plus, deg_turn, opp_IZR. ring.
Qed.
Section Naw.
Variable rnd : Q -> Q.
Hypothesis N : Nearest rnd.
Variable lm : libm.
Hypothesis A : accurate lm.

Lemma place_in t b bl (k : Z) : (Qabs t <= TX)%Q -> inb (Q2R t) b -> inb (Lr (Q2R t) - 360 * IZR k) bl ->
  (exists q : Z, inb (Q2R (sun_apparent_right_ascension rnd lm t) - 360 * IZR q - (Lr (Q2R t) - 360 * IZR k)) (bdl b bl)) /\
  (exists d, sun_apparent_declination rnd lm t = Ok d /\ inb (Q2R d) (bdec b bl)).
Proof.
  intros HT H HL. destruct (ra_R rnd N lm A t HT) as [l [S [[k1 [K _]] [d [D [D1 D2]]]]]]. destruct (sun_eps_R rnd N lm A t HT) as [E1 E2].
  pose proof (boff_in t b bl l k H HL S) as O. set (Lt := Lr (Q2R t)) in *.
  assert (L : inb (l - 360 * IZR k) (badd bl (boff b bl))) by (eapply inb_eq; [exact (badd_in _ _ _ _ HL O)|ring]).
  assert (E : inb (Q2R (sun_eps rnd lm t)) (beps b)).
  { unfold beps. eapply bwide_in; [|exact (bq_in 547 100000)|rewrite (Rabs_right (547 / 100000)) by lra; eapply Rle_trans; [exact E1|lra]].
    apply bpe_in. eapply inb_eq; [exact (bdivz_in _ _ 100 H)|]. rewrite Q2R_mult, Q2R_lit. lra. }
  set (e := Q2R (sun_eps rnd lm t)) in *. assert (ER : 0 <= e <= 23.73) by lra. split.
  - exists (k1 + k)%Z. unfold bdl. cbv zeta. eapply bwide_in; [|exact (bq_in 5 10000)|].
    + exact (bsub_in _ _ _ _ O (bdeg_in _ _ (batan_in _ _ (bff_in e _ _ _ ER E L)))).
    + rewrite (Rabs_right (5 / 10000)) by lra.
      assert (Z : l - 360 * IZR k - deg (atan (ff (cos (rad e)) (rad (l - 360 * IZR k)))) = RAd e (l - 360 * IZR k)).
      { symmetry. unfold RAd, RA. unfold Rminus at 1. rewrite deg_plus, deg_rad. unfold deg. ring. }
      rewrite RAd_turn in Z. rewrite plus_IZR. apply Rabs_le_iff in K. apply Rabs_le_iff. lra.
  - exists d. split; [exact D|]. unfold bdec, blam.
    assert (SI : inb (sin (rad (Q2R d))) (bwide (bmul (bsin (brad (beps b))) (bsin (brad (badd bl (boff b bl))))) (bk 5 1000000))).
    { eapply bwide_in; [exact (bmul_in _ _ _ _ (bsin_in _ _ (brad_in _ _ E)) (bsin_in _ _ (brad_in _ _ L)))|exact (bq_in 5 1000000)|].
      replace (l - 360 * IZR k) with (l + 360 * IZR (- k)) by (rewrite opp_IZR; ring). rewrite sin_turn_d, (Rabs_right (5 / 1000000)) by lra. lra. }
    cbv zeta. set (s := bwide (bmul _ _) (bk 5 1000000)) in *. destruct (_ <=? _)%Z eqn:C.
    + assert (SB : Rabs (sin (rad (Q2R d))) <= 0.099).
      { apply Z.leb_le, IZR_le in C. rewrite !mult_IZR in C. pose proof (inb_abs _ _ SI) as B. pose proof SZ_pos. apply (Rmult_le_reg_r (IZR SZ)); lra. }
      rewrite <- (deg_rad (Q2R d)). apply bdeg_in. eapply bwide_in; [exact (badd_in _ _ _ _ SI (bdivz_in _ _ 6 (bmul_in _ _ _ _ SI (bmul_in _ _ _ _ SI SI))))|exact (bq_in 5 1000000)|].
      rewrite (Rabs_right (5 / 1000000)) by lra. pose proof (rad_abs _ _ D2) as RB.
      pose proof (angle_near (rad (Q2R d)) _ ltac:(lra) eq_refl SB) as AN. set (z := sin (rad (Q2R d))) in *.
      replace (z * (z * z)) with (z * z * z) by ring. lra.
    + eapply bwide_in; [exact zero_in|exact (bq_in 24 1)|]. rewrite Rminus_0_r, (Rabs_right (24 / 1)) by lra. lra.
Qed.
End Naw.
