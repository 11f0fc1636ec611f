(** EquinoxBall.v -- the equinoxes by interval arithmetic, against the sunsets that open the years (proof support). *)
From Coq Require Import ZArith QArith Qround Qabs Qreals Lqa Reals Lra Lia List Bool.
From Verif Require Import Base Flt QUtil BaseModel BaseProofs BadiModel SunProofs SpecBadi BadiProofs BadiProofs2 SpecDate TduProofs2 GregModel ConvModel
  AstroModel SpecAstro AstroReal AstroFlt AstroApx AstroSun AstroRise5 AstroBall AstroNaw AstroNaw2 AstroNaw3 PropertiesAstro EquinoxModel SpecSeason EquinoxProofs.
Import ListNotations.
Local Open Scope R_scope.

(** the mean March equinox of year [g], in units of 10^-17 days *)
Definition zmean (g : Z) : Z :=
  if (g <=? 1000)%Z then
    (172113929189000000000000 + g * (36524213740000000000 + g * (6134000000 + g * (111000 + g * (-71)))))%Z
  else let n := (g - 2000)%Z in
    (245162380984000000000000 + n * (36524237404000000000 + n * (5169000000 + n * (-411000 + n * (-57)))))%Z.
Definition be0 (g : Z) : ball := bq (zmean g) 100000000000000000.
Definition bt (e0 : ball) : ball := bdivz (bsub e0 (bq 2451545 1)) 36525.
Definition bdbl (c : ball) : ball := bsub (bmulz 2 (bmul c c)) (bq 1 1).
Definition bcosd (b : ball) : ball := bdbl (bdbl (bdbl (bcos (brad (bdivz (bmod 360 b) 8))))).
Definition EQB : list (Z * ball * ball) := Eval vm_compute in map (fun '(a, b, c) => (a, bq b 100, bq c 1000)) EQ_SO.
Lemma EQB_eq : EQB = map (fun '(a, b, c) => (a, bq b 100, bq c 1000)) EQ_SO. Proof. vm_compute. reflexivity. Qed.
Definition bper (t : ball) : ball := fold_right (fun '(a, b, c) s => badd (bmulz a (bcosd (badd b (bmul c t)))) s) (0, 0)%Z EQB.
Definition bdvs (t : ball) : ball :=
  let w := bsub (bmul (bq 35999373 1000) t) (bq 247 100) in
  badd (bq 1 1) (bmul (bmul (bq 334 10000) (bcosd (badd w (bq 7 10000)))) (bcosd (bmulz 2 w))).
(** the moment, for any rounding *)
Definition bmoment (g : Z) : ball :=
  let e0 := be0 g in let t := bt e0 in
  bwide (badd e0 (bdiv (bmul (bq 1 100000) (bper t)) (bdvs t))) (bq 75 1000000).
Definition bdvs_ok (g : Z) : bool := bpos (bdvs (bt (be0 g))).
(** without the periodic terms *)
Definition bcoarse (g : Z) : ball := bwide (be0 g) (bq 206 10000).
(** the local mean midnight that opens the exact day [E] *)
Definition bbase (E : Z) : ball := bq ((E + 2) * 360000000 - 231288701) 360000000.
(** cells around the days in question: centuries, mean longitude, bounds of the sunset in millionths of the day *)
Definition cells : list (ball * ball * Z * Z) :=
  [(mil (-18500) 1510, mil (-4000) 2150, 754000, 760500); (mil (-14000) 3010, mil (-500) 2650, 755500, 763500);
   (mil (-9325) 1725, mil 3200 2250, 758000, 765500); (mil (-5875) 1775, mil 5950 2300, 759000, 767000);
   (mil 3000 7250, mil (-2200) 1600, 754500, 761500)]%Z.
Definition cell_ok (c : ball * ball * Z * Z) : bool := let '(t, b, lo, hi) := c in above lo t b && below hi t b.
Lemma cell_ok_eq t b lo hi : above lo t b && below hi t b = cell_ok (t, b, lo, hi).
Proof. exact eq_refl. Qed.
Lemma cells_ok : forallb cell_ok cells = true.
Proof. vm_compute. reflexivity. Qed.
Definition cell_no (H : Z) : nat :=
  if (H <? 1830620)%Z then 0 else if (H <? 2049770)%Z then 1 else if (H <? 2173225)%Z then 2 else if (H <? 2299000)%Z then 3 else 4.
Definition band_cell (H : Z) : ball * ball * Z * Z := nth (cell_no H) cells ((0, 0), (0, 0), 0, 0)%Z.
Lemma band_cell_ok H : cell_ok (band_cell H) = true.
Proof.
  pose proof cells_ok as F. rewrite forallb_forall in F. apply F. apply nth_In. unfold cell_no.
  repeat match goal with |- context [if ?c then _ else _] => destruct c end; cbn; lia.
Qed.
Definition band (H : Z) : option (Z * Z) := let '(t, b, lo, hi) := band_cell H in if in_cell H t b then Some (lo, hi) else None.
(** is the difference [d] at least (at most) [x] millionths, and one more? *)
Definition past (d : ball) (x : Z) : bool := ((x + 1) * SZ <=? (fst d - snd d) * 1000000)%Z.
Definition short (d : ball) (x : Z) : bool := ((fst d + snd d) * 1000000 <=? (x - 1) * SZ)%Z.
Definition cell_t (H : Z) : ball := bwide (bcen H) (bq 3 100000).
Definition cell_l (H : Z) : ball := bL (bcen H).
(** the sunset of day [H], whose exact day is [E], is before (after) the equinox of year [g] *)
Definition before (g H E : Z) : bool :=
  if ((E + 2) * 100000000000000000 + 22900000000000000 <=? zmean g)%Z then true else
  let hi := match band H with Some (_, hi) => Some hi | None => None end in
  if (match hi with Some x => past (bsub (bcoarse g) (bbase E)) x | None => false end) then true else
  let d := bsub (bmoment g) (bbase E) in
  if bdvs_ok g then
    if (match hi with Some x => past d x | None => false end) then true else
    let x := Z.min 767000 ((fst d - snd d) * 1000000 / SZ - 1) in
    if past d x then if in_cell H (cell_t H) (cell_l H) then below x (cell_t H) (cell_l H) else false else false
  else false.
Definition after (g H E : Z) : bool :=
  if (zmean g + 1400000000000000 <=? (E + 2) * 100000000000000000)%Z then true else
  let lo := match band H with Some (lo, _) => Some lo | None => None end in
  if (match lo with Some x => short (bsub (bcoarse g) (bbase E)) x | None => false end) then true else
  let d := bsub (bmoment g) (bbase E) in
  if bdvs_ok g then
    if (match lo with Some x => short d x | None => false end) then true else
    let x := Z.max 750000 ((fst d + snd d) * 1000000 / SZ + 2) in
    if short d x then if in_cell H (cell_t H) (cell_l H) then above x (cell_t H) (cell_l H) else false else false
  else false.
Definition day_of (y d : Z) : option (Z * Z) :=
  match henc_spec y 1 d with Some H => if (EX H =? ystart y + 1721422 + d)%Z then Some (H, EX H) else None | None => None end.
Definition Before (y d : Z) : bool := match day_of y d with Some (H, E) => before (y + 1843) H E | None => false end.
Definition After (y d : Z) : bool := match day_of y d with Some (H, E) => after (y + 1843) H E | None => false end.

Lemma mean_zmean g : mean_season g 0 = IZR (zmean g) / 100000000000000000.
Proof.
  unfold mean_season, zmean, horner. destruct (g <=? 1000)%Z; cbv zeta; rewrite ?plus_IZR, ?mult_IZR, ?plus_IZR, ?mult_IZR, ?plus_IZR, ?mult_IZR, ?plus_IZR, ?mult_IZR, ?minus_IZR; lra.
Qed.
Lemma be0_in g : inb (mean_season g 0) (be0 g).
Proof. rewrite mean_zmean. exact (bq_in (zmean g) 100000000000000000). Qed.
Lemma bt_in e b : inb e b -> inb (century e) (bt b).
Proof. intro H. eapply inb_eq; [exact (bdivz_in _ _ 36525 (bsub_in _ _ _ _ H (bq_in 2451545 1)))|]. unfold century. lra. Qed.
Lemma bdbl_in x b : inb (cos x) b -> inb (cos (2 * x)) (bdbl b).
Proof.
  intro H. eapply inb_eq; [exact (bsub_in _ _ _ _ (bmulz_in 2 _ _ (bmul_in _ _ _ _ H H)) (bq_in 1 1))|].
  rewrite cos_2a_cos. lra.
Qed.
Lemma bcosd_in x b : inb x b -> inb (dcos x) (bcosd b).
Proof.
  intro H. destruct (bmod_in 360 x b H) as [k K]. pose proof (bdbl_in _ _ (bdbl_in _ _ (bdbl_in _ _ (bcos_in _ _ (brad_in _ _ (bdivz_in _ _ 8 K)))))) as C.
  eapply inb_eq; [exact C|]. unfold dcos. change (x * (PI / 180)) with (rad x). replace x with (x - 360 * IZR k + 360 * IZR k) at 2 by ring. rewrite cos_turn_d. f_equal. unfold rad. field.
Qed.
Lemma bper_in t b : inb t b -> inb (periodic t) (bper b).
Proof.
  intro H. rewrite table_eq. unfold bper. rewrite EQB_eq. induction EQ_SO as [|[[a p] c] l IH]; cbn [map fold_right rsum].
  - unfold inb. cbn [fst snd]. rewrite Rmult_0_l, Rminus_0_r, Rabs_R0. lra.
  - apply badd_in; [|exact IH]. apply bmulz_in, bcosd_in, badd_in; [exact (bq_in p 100)|]. exact (bmul_in _ _ _ _ (bq_in c 1000) H).
Qed.
Lemma bdvs_in t b : inb t b -> inb (code_divisor t) (bdvs b).
Proof.
  intro H. unfold code_divisor, bdvs. cbv zeta.
  assert (W : inb (35999.373 * t - 2.47) (bsub (bmul (bq 35999373 1000) b) (bq 247 100))).
  { eapply inb_eq; [exact (bsub_in _ _ _ _ (bmul_in _ _ _ _ (bq_in 35999373 1000) H) (bq_in 247 100))|]. lra. }
  assert (W1 := badd_in _ _ _ _ W (bq_in 7 10000)). assert (W2 := bmulz_in 2 _ _ W).
  eapply inb_eq; [exact (badd_in _ _ _ _ (bq_in 1 1) (bmul_in _ _ _ _ (bmul_in _ _ _ _ (bq_in 334 10000) (bcosd_in _ _ W1)) (bcosd_in _ _ W2)))|].
  replace (35999.373 * t - 2.47 + 7 / 10000) with (35999.373 * t - 2.47 + 0.0007) by lra. lra.
Qed.
Lemma bdate_in g : bdvs_ok g = true -> inb (season_date g 0 code_divisor) (badd (be0 g) (bdiv (bmul (bq 1 100000) (bper (bt (be0 g)))) (bdvs (bt (be0 g))))).
Proof.
  unfold bdvs_ok. intro K. pose proof (be0_in g) as E. pose proof (bt_in _ _ E) as T. unfold season_date. cbv zeta.
  change ((mean_season g 0 - 2451545) / 36525) with (century (mean_season g 0)). set (t := century _) in *. set (b := be0 g) in *. set (bb := bt b) in *. clearbody bb b t.
  eapply inb_eq; [exact (badd_in _ _ _ _ E (bdiv_in _ _ _ _ (bmul_in _ _ _ _ (bq_in 1 100000) (bper_in _ _ T)) (bdvs_in _ _ T) K))|].
  unfold Rdiv. lra.
Qed.
Lemma bmoment_in g e : bdvs_ok g = true -> Rabs (e - season_date g 0 code_divisor) <= 0.000075 -> inb e (bmoment g).
Proof.
  intros K H. eapply bwide_in; [exact (bdate_in g K)|exact (bq_in 75 1000000)|]. rewrite (Rabs_right (75 / 1000000)) by lra. eapply Rle_trans; [exact H|lra].
Qed.
Lemma date_mean g k : (1 <= g <= 3007)%Z -> Rabs (season_date g k code_divisor - mean_season g k) <= 0.0205.
Proof.
  intro G. unfold season_date. cbv zeta. set (e := mean_season g k). set (t := (e - 2451545) / 36525).
  replace (e + 0.00001 * periodic t / code_divisor t - e) with (0.00001 * periodic t / code_divisor t) by ring.
  pose proof (periodic_le t) as P. pose proof (code_divisor_range t) as D.
  unfold Rdiv. rewrite !Rabs_mult, (Rabs_right 0.00001), (Rabs_right (/ code_divisor t)) by (try (left; apply Rinv_0_lt_compat); lra).
  apply (Rmult_le_reg_r (code_divisor t)); [lra|]. rewrite Rmult_assoc, Rinv_l by lra. lra.
Qed.
Lemma bcoarse_in g e : (1 <= g <= 3007)%Z -> Rabs (e - season_date g 0 code_divisor) <= 0.000075 -> inb e (bcoarse g).
Proof.
  intros G H. eapply bwide_in; [exact (be0_in g)|exact (bq_in 206 10000)|]. pose proof (date_mean g 0 G) as M. rewrite (Rabs_right (206 / 10000)) by lra.
  apply Rabs_le_iff in H. apply Rabs_le_iff in M. apply Rabs_le_iff. lra.
Qed.
Definition base (E : Z) : R := IZR E + 2 - 1 / 2 - 51.288701 / 360.
Lemma bbase_in E : inb (base E) (bbase E).
Proof.
  eapply inb_eq; [exact (bq_in ((E + 2) * 360000000 - 231288701) 360000000)|]. unfold base. rewrite minus_IZR, mult_IZR, plus_IZR. lra.
Qed.

Lemma past_R d b x : inb d b -> past b x = true -> IZR x / 1000000 + 0.000001 <= d.
Proof. intros I P. pose proof (inb_ge _ _ (x + 1) 1000000 I ltac:(lia) P) as K. rewrite plus_IZR in K. lra. Qed.
Lemma short_R d b x : inb d b -> short b x = true -> d <= IZR x / 1000000 - 0.000001.
Proof. intros I P. pose proof (inb_le _ _ (x - 1) 1000000 I ltac:(lia) P) as K. rewrite minus_IZR in K. lra. Qed.
Lemma Zle_R (a b : Z) : (a <=? b)%Z = true -> IZR a <= IZR b.
Proof. intro H. apply IZR_le, Z.leb_le, H. Qed.

Section Side.
Variable rnd : Q -> Q.
Hypothesis N : Nearest rnd.
Variable lm : libm.
Hypothesis A : accurate lm.
Notation m := (astro_set rnd lm).
Let EV : evening rnd m := C86_evening rnd lm N A.
Let sband := BadiProofs2.band rnd N m EV.

Lemma band_R H lo hi : (1700001 < H < 2900000)%Z -> band H = Some (lo, hi) -> IZR lo / 1000000 < Q2R (mu rnd m H) < IZR hi / 1000000.
Proof.
  intros R B. unfold band in B. destruct (band_cell H) as [[[t b] l] h] eqn:C. destruct (in_cell H t b) eqn:I; [|discriminate]. injection B as -> ->.
  pose proof (band_cell_ok H) as K. rewrite C, <- cell_ok_eq in K.
  apply andb_prop in K. destruct K as [K1 K2]. split; [exact (proj1 (mu_side rnd N lm A H lo t b R I) K1)|exact (proj2 (mu_side rnd N lm A H hi t b R I) K2)].
Qed.
Lemma day_R H j : (1700001 < H < 2900000)%Z -> (j == AE rnd m H)%Q ->
  Rabs (Q2R j + 2 - (base (EX H) + Q2R (mu rnd m H))) <= 0.00000001 /\ IZR (EX H) + 0.007 < Q2R j < IZR (EX H) + 0.208.
Proof.
  intros R E. pose proof (AE_range rnd N m sband H R) as [B1 B2]. destruct (AE_eq rnd N m sband H R) as [X _]. pose proof (SS_near rnd N m sband H R) as S. rewrite <- E in B1, B2, X.
  assert (G : (Qabs (j - (inject_Z (EX H) - (1 # 2) - lf + mu rnd m H)) <= 1 # 100000000)%Q).
  { unfold EX in *. rewrite inject_Z_sub in *. apply Qabs_le_iff in S. apply Qabs_le_iff. split; Lqa.lra. }
  apply Qabs_R in G. rewrite Q2R_minus, Q2R_plus, !Q2R_minus, Q2R_Z in G. unfold lf in G. rewrite !Q2R_lit in G.
  apply Qlt_Rlt in B1. apply Qlt_Rlt in B2. rewrite Q2R_plus, Q2R_Z, Q2R_lit in B1, B2. split; [|lra].
  unfold base. apply Rabs_le_iff in G. apply Rabs_le_iff. lra.
Qed.
Lemma before_R g H j e : (1 <= g <= 3007)%Z -> (1700001 < H < 2900000)%Z -> (j == AE rnd m H)%Q ->
  Rabs (e - season_date g 0 code_divisor) <= 0.000075 -> before g H (EX H) = true -> Q2R j + 2 < e.
Proof.
  intros G R J D B. destruct (day_R H j R J) as [J1 J2]. apply Rabs_le_iff in J1. set (E := EX H) in *. unfold before in B.
  destruct (_ <=? zmean g)%Z eqn:T1 in B.
  { apply Zle_R in T1. rewrite plus_IZR, mult_IZR, plus_IZR in T1. pose proof (date_mean g 0 G) as M. rewrite mean_zmean in M. apply Rabs_le_iff in M. apply Rabs_le_iff in D. lra. }
  cbv zeta in B. pose proof (bsub_in _ _ _ _ (bcoarse_in g e G D) (bbase_in E)) as C.
  destruct (band H) as [[lo hi]|] eqn:K.
  - pose proof (band_R H lo hi R K) as M. destruct (past _ hi) eqn:T2 in B.
    { pose proof (past_R _ _ _ C T2). lra. }
    destruct (bdvs_ok g) eqn:DV; [|discriminate]. pose proof (bsub_in _ _ _ _ (bmoment_in g e DV D) (bbase_in E)) as C2.
    destruct (past _ hi) eqn:T3 in B.
    { pose proof (past_R _ _ _ C2 T3). lra. }
    destruct (past _ _) eqn:T4 in B; [|discriminate]. destruct (in_cell H _ _) eqn:I in B; [|discriminate].
    pose proof (past_R _ _ _ C2 T4). pose proof (proj2 (mu_side rnd N lm A H _ _ _ R I) B). lra.
  - destruct (bdvs_ok g) eqn:DV; [|discriminate]. pose proof (bsub_in _ _ _ _ (bmoment_in g e DV D) (bbase_in E)) as C2.
    destruct (past _ _) eqn:T4 in B; [|discriminate]. destruct (in_cell H _ _) eqn:I in B; [|discriminate].
    pose proof (past_R _ _ _ C2 T4). pose proof (proj2 (mu_side rnd N lm A H _ _ _ R I) B). lra.
Qed.
Lemma after_R g H j e : (1 <= g <= 3007)%Z -> (1700001 < H < 2900000)%Z -> (j == AE rnd m H)%Q ->
  Rabs (e - season_date g 0 code_divisor) <= 0.000075 -> after g H (EX H) = true -> e < Q2R j + 2.
Proof.
  intros G R J D B. destruct (day_R H j R J) as [J1 J2]. apply Rabs_le_iff in J1. set (E := EX H) in *. unfold after in B.
  destruct (_ <=? (E + 2) * _)%Z eqn:T1 in B.
  { apply Zle_R in T1. rewrite plus_IZR, mult_IZR, plus_IZR in T1. pose proof (date_mean g 0 G) as M. rewrite mean_zmean in M. apply Rabs_le_iff in M. apply Rabs_le_iff in D. lra. }
  cbv zeta in B. pose proof (bsub_in _ _ _ _ (bcoarse_in g e G D) (bbase_in E)) as C.
  destruct (band H) as [[lo hi]|] eqn:K.
  - pose proof (band_R H lo hi R K) as M. destruct (short _ lo) eqn:T2 in B.
    { pose proof (short_R _ _ _ C T2). lra. }
    destruct (bdvs_ok g) eqn:DV; [|discriminate]. pose proof (bsub_in _ _ _ _ (bmoment_in g e DV D) (bbase_in E)) as C2.
    destruct (short _ lo) eqn:T3 in B.
    { pose proof (short_R _ _ _ C2 T3). lra. }
    destruct (short _ _) eqn:T4 in B; [|discriminate]. destruct (in_cell H _ _) eqn:I in B; [|discriminate].
    pose proof (short_R _ _ _ C2 T4). pose proof (proj1 (mu_side rnd N lm A H _ _ _ R I) B). lra.
  - destruct (bdvs_ok g) eqn:DV; [|discriminate]. pose proof (bsub_in _ _ _ _ (bmoment_in g e DV D) (bbase_in E)) as C2.
    destruct (short _ _) eqn:T4 in B; [|discriminate]. destruct (in_cell H _ _) eqn:I in B; [|discriminate].
    pose proof (short_R _ _ _ C2 T4). pose proof (proj1 (mu_side rnd N lm A H _ _ _ R I) B). lra.
Qed.
Lemma day_of_R y d : (-1843 <= y <= 1161)%Z -> (1 <= d <= 19)%Z -> day_of y d <> None ->
  exists H j, day_of y d = Some (H, EX H) /\ (1700001 < H < 2900000)%Z /\ to_jd rnd m (bd y 1 d) = Ok j /\ (j == AE rnd m H)%Q.
Proof.
  intros Y D K. unfold day_of in *. assert (V : (1 <= d <= bmonth_len (zleap y) 1)%Z) by exact D.
  pose proof (to_jd_henc rnd N m EV y 1 d Y ltac:(lia) V) as T. destruct (henc_spec y 1 d) as [H|]; [|congruence].
  destruct (_ =? _)%Z; [|congruence]. destruct T as (R & j & J & F & _). exists H, j. tauto.
Qed.
Lemma Before_R y d e : (-1842 <= y <= 1161)%Z -> (1 <= d <= 19)%Z -> Rabs (e - season_date (y + 1843) 0 code_divisor) <= 0.000075 -> Before y d = true ->
  exists j, to_jd rnd m (bd y 1 d) = Ok j /\ Q2R j + 2 < e.
Proof.
  intros Y D E B. unfold Before in B. destruct (day_of y d) as [[H EH]|] eqn:K; [|discriminate].
  destruct (day_of_R y d ltac:(lia) D ltac:(congruence)) as (H' & j & K' & R & J & F). rewrite K in K'. injection K' as <- ->.
  exists j. split; [exact J|]. apply (before_R (y + 1843) H j e); [lia|exact R|exact F|exact E|exact B].
Qed.
Lemma After_R y d e : (-1842 <= y <= 1161)%Z -> (1 <= d <= 19)%Z -> Rabs (e - season_date (y + 1843) 0 code_divisor) <= 0.000075 -> After y d = true ->
  exists j, to_jd rnd m (bd y 1 d) = Ok j /\ e < Q2R j + 2.
Proof.
  intros Y D E B. unfold After in B. destruct (day_of y d) as [[H EH]|] eqn:K; [|discriminate].
  destruct (day_of_R y d ltac:(lia) D ltac:(congruence)) as (H' & j & K' & R & J & F). rewrite K in K'. injection K' as <- ->.
  exists j. split; [exact J|]. apply (after_R (y + 1843) H j e); [lia|exact R|exact F|exact E|exact B].
Qed.
End Side.
