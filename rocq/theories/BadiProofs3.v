(** BadiProofs3.v -- year of a rata die, and decoding of a Julian day. *)
From Coq Require Import ZArith QArith Qround Qabs List Bool Lia Lqa Setoid Morphisms.
From Coq Require Import ZifyBool ZifyNat ZifyN.
From Verif Require Import Base Flt QUtil BaseModel MiscModel BadiModel BaseProofs BaseProofs2 SunProofs SpecBadi BadiProofs BadiProofs2 LongYear.
Import ListNotations.
Local Open Scope Q_scope.
Ltac Zify.zify_post_hook ::= Z.div_mod_to_equations.

(** the year of a rata die exists *)
Lemma year_exists r : (-287 <= r < 1097268)%Z -> exists y, (-1843 <= y <= 1161 /\ ystart y <= r < ystart (y + 1))%Z.
Proof.
  intro R. assert (X : forall n : nat, (Z.of_nat n <= 3005)%Z -> (r < ystart (-1843 + Z.of_nat n))%Z ->
    exists y, (-1843 <= y <= 1161 /\ ystart y <= r < ystart (y + 1))%Z).
  { induction n as [|n IH]; intros B L.
    - change (-1843 + Z.of_nat 0)%Z with (-1843)%Z in L. rewrite ystart_min in L. lia.
    - destruct (Z_lt_ge_dec r (ystart (-1843 + Z.of_nat n))) as [G|G]; [apply IH; lia|].
      exists (-1843 + Z.of_nat n)%Z. replace (-1843 + Z.of_nat (S n))%Z with (-1843 + Z.of_nat n + 1)%Z in L by lia. lia. }
  apply (X 3005%nat); [lia|]. change (-1843 + Z.of_nat 3005)%Z with 1162%Z. rewrite ystart_max. lia.
Qed.

(** the linear estimate is at most one year too high and never too low *)
Definition est_ok (y : Z) : bool :=
  ((3652425 * (y + 1842) <? 10000 * (ystart y + 287)) && (10000 * (ystart (y + 1) - 1 + 287) <? 3652425 * (y + 1844)))%Z%bool.
Lemma ests_ok y : (-1843 <= y <= 1160)%Z -> est_ok y = true.
Proof. intro H. apply (zforall est_ok (-1843) 3004); [vm_compute; reflexivity|lia]. Qed.

Section Dec.
Variable rnd : Q -> Q.
Hypothesis N : Nearest rnd.
#[local] Instance prop_rnd4 : Proper (Qeq ==> Qeq) rnd.
Proof. intros a b E. apply near_proper; [exact N|exact E]. Qed.
Variable m : Q -> Q -> Q -> Q.
Hypothesis EV : evening rnd m.
Notation LAT := (TEHRAN_LAT rnd).
Notation LON := (TEHRAN_LON rnd).
Notation T := (year_table rnd m).

(** quotient by the rounded mean year *)
Lemma est_floor n k : (0 <= n <= 1100000)%Z -> (0 <= k)%Z -> (3652425 * k < 10000 * n < 3652425 * (k + 2))%Z ->
  let t := Qtrunc (fdiv rnd (inject_Z n) (rnd (3652425 # 10000))) in (t = k \/ t = k + 1)%Z.
Proof.
  intros B K0 [H1 H2]. cbv zeta. unfold fdiv.
  assert (A : Qabs (3652425 # 10000) <= 2 ^ 9) by discriminate.
  pose proof (near_k rnd N 9 _ (1 # 35184372088832) A ltac:(discriminate)) as C. set (c := rnd (3652425 # 10000)) in *.
  assert (C0 : 0 < c) by lra.
  destruct B as [B1 B2]. toQ B1. toQ B2. toQ H1. toQ H2. zpush. 
  set (x := inject_Z n) in *. set (q := inject_Z k) in *.
  assert (K1 : 0 <= q) by (unfold q; change 0 with (inject_Z 0); rewrite <- Zle_Qle; exact K0).
  assert (KQ : q <= 3100) by lra.
  assert (L1 : (q + (1 # 10000000)) * c <= x).
  { apply Qle_trans with ((q + (1 # 10000000)) * ((3652425 # 10000) + (1 # 35184372088832))).
    - assert (0 <= q + (1 # 10000000)) by lra. set (u := q + _) in *. nra.
    - lra. }
  assert (L2 : x <= (q + 2 - (1 # 10000000)) * c).
  { apply Qle_trans with ((q + 2 - (1 # 10000000)) * ((3652425 # 10000) - (1 # 35184372088832))).
    - lra.
    - assert (0 <= q + 2 - (1 # 10000000)) by lra. set (u := q + 2 - _) in *. nra. }
  assert (D1 : q + (1 # 10000000) <= x / c) by (apply Qle_shift_div_l; assumption).
  assert (D2 : x / c <= q + 2 - (1 # 10000000)) by (apply Qle_shift_div_r; assumption).
  assert (BB : Qabs (x / c) <= 2 ^ 12) by (change (2 ^ 12) with (4096 # 1); apply Qabs_le_iff; split; lra).
  pose proof (near_k rnd N 12 _ (1 # 4398046511104) BB ltac:(discriminate)) as E. set (z := rnd (x / c)) in *.
  assert (Z1 : q <= z < q + 2) by (split; lra).
  rewrite Qtrunc_nonneg by lra.
  assert (G1 : (k <= Qfloor z)%Z) by (apply Qfloor_resp_le in D1; pose proof (Qfloor_resp_le q z (proj1 Z1)) as G; unfold q in G; rewrite Qfloor_Z in G; exact G).
  assert (G2 : (Qfloor z < k + 2)%Z).
  { rewrite Zlt_Qlt. apply Qle_lt_trans with z; [apply Qfloor_le|]. rewrite inject_Z_plus. exact (proj2 Z1). }
  lia.
Qed.

(** C09 *)
Lemma year_from_rd_ok r y : (-1843 <= y <= 1161)%Z -> (ystart y <= r < ystart (y + 1))%Z -> (r <= 1096902)%Z ->
  badi_year_from_rd rnd T r = Ok y.
Proof.
  intros Y R M. unfold badi_year_from_rd, MAXYEAR, MINYEAR, RD_START. rewrite (lookup_ok rnd N m EV) by lia. cbn [bind].
  rewrite ystart_1161. pose proof (ystart_range y ltac:(lia)) as YR.
  assert (A : ((-287 <=? r) && (r <=? 1096902))%Z = true) by lia. rewrite A. cbn [passert bind].
  assert (EO : (3652425 * (y + 1842) < 10000 * (r + 287) < 3652425 * (y + 1844))%Z).
  { destruct (Z.eq_dec y 1161) as [->|]; [rewrite ystart_1161 in R; lia|].
    pose proof (ests_ok y ltac:(lia)) as EO. unfold est_ok in EO. lia. }
  assert (EST : let t := Qtrunc (fdiv rnd (inject_Z (r - -287)) (rnd (3652425 # 10000))) in
                (y = -1843 /\ t = 0 \/ -1843 < y /\ (t = y + 1842 \/ t = y + 1843))%Z).
  { destruct (Z.eq_dec y (-1843)) as [->|NE].
    - left. split; [reflexivity|]. change (-1843 + 1)%Z with (-1842)%Z in R. change (ystart (-1842)) with 78%Z in R. rewrite ystart_min in R.
      assert (U : Qabs (3652425 # 10000) <= 2 ^ 9) by discriminate.
      pose proof (near_k rnd N 9 _ (1 # 35184372088832) U ltac:(discriminate)) as C. set (c := rnd (3652425 # 10000)) in *.
      unfold fdiv. assert (0 <= r - -287 <= 364)%Z as [B1 B2] by lia. toQ B1. toQ B2. zconsts. set (x := inject_Z (r - -287)) in *.
      assert (D1 : 0 <= x / c) by (apply Qle_shift_div_l; [lra|lra]).
      assert (D2 : x / c <= 1 - (1 # 1000)) by (apply Qle_shift_div_r; lra).
      assert (BB : Qabs (x / c) <= 2 ^ 0) by (change (2 ^ 0) with (1 # 1); apply Qabs_le_iff; split; lra).
      pose proof (near_k rnd N 0 _ (1 # 18014398509481984) BB ltac:(discriminate)) as E.
      pose proof (near_nonneg rnd N _ D1) as P.
      apply Qtrunc_spec; [lia|zconsts; lra|zconsts; lra].
    - right. split; [lia|]. pose proof (est_floor (r - -287) (y + 1842) ltac:(lia) ltac:(lia) ltac:(lia)) as F. cbv zeta in F. lia. }
  cbv zeta in EST. set (t := Qtrunc _) in *. clearbody t.
  assert (CL : exists e, (if t + -1842 <? -1842 then -1842 else if 1161 <? t + -1842 then 1161 else t + -1842)%Z = e /\
     ((e = y /\ -1842 <= y) \/ (e = y + 1 /\ y <= 1160))%Z).
  { eexists. split; [reflexivity|].
    destruct (Z.ltb_spec (t + -1842) (-1842)); [lia|]. destruct (Z.ltb_spec 1161 (t + -1842)); lia. }
  destruct CL as (e & -> & [[-> Y1]|[-> Y1]]).
  - rewrite (lookup_ok rnd N m EV) by lia. cbn [bind]. 
    assert (B : (r <? ystart y)%Z = false) by lia. rewrite B.
    rewrite (year_table_ok rnd N m EV) by lia. 
    assert (B' : (ystart (y + 1) <=? r)%Z = false) by lia. rewrite B'. reflexivity.
  - rewrite (lookup_ok rnd N m EV) by lia. cbn [bind].
    assert (B : (r <? ystart (y + 1))%Z = true) by lia. rewrite B. f_equal. lia.
Qed.
Lemma year_from_rd_err r : (r < -287 \/ 1096902 < r)%Z -> badi_year_from_rd rnd T r = Err AssertionError.
Proof.
  intro R. unfold badi_year_from_rd, MAXYEAR, RD_START. rewrite (lookup_ok rnd N m EV) by lia. cbn [bind]. rewrite ystart_1161.
  assert (A : ((-287 <=? r) && (r <=? 1096902))%Z = false) by lia. rewrite A. reflexivity.
Qed.
End Dec.
