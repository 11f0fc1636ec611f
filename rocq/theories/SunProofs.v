(** SunProofs.v -- floats at the magnitude of Julian days; the sunset of a civil day as computed by the code. *)
From Coq Require Import ZArith QArith Qround Qabs Qpower List Bool Lia Lqa Setoid Morphisms.
From Coq Require Import ZifyBool ZifyNat ZifyN.
From Verif Require Import Base Flt QUtil BaseModel MiscModel BadiModel BaseProofs BaseProofs2.
Import ListNotations.
Local Open Scope Q_scope.
Ltac Zify.zify_post_hook ::= Z.div_mod_to_equations.

(** ** floats *)
Lemma pow2_mono a b : (a <= b)%Z -> 2 ^ a <= 2 ^ b.
Proof.
  intro H. replace b with (a + (b - a))%Z by lia. rewrite two_pow_plus.
  assert (X : 1 <= 2 ^ (b - a)).
  { rewrite two_pow_Z by lia. change 1 with (inject_Z 1). rewrite <- Zle_Qle.
    pose proof (Z.pow_pos_nonneg 2 (b - a)). lia. }
  pose proof (two_pow_pos a). set (u := 2 ^ a) in *. set (w := 2 ^ (b - a)) in *. nra.
Qed.

(** a float of magnitude at least 2^20 is a multiple of 2^-33 *)
Lemma float_grid x : is_float x -> 1048576 <= x -> exists z, x == z # 8589934592.
Proof.
  intros (mm & e & M & E) H.
  assert (E33 : (-33 <= e)%Z).
  { destruct (Z_le_gt_dec (-33) e) as [|G]; [assumption|]. exfalso.
    assert (A : 2 ^ e <= 2 ^ (-34)) by (apply pow2_mono; lia). change (2 ^ (-34)) with (1 # 17179869184) in A.
    assert (B : inject_Z mm <= 9007199254740992) by (change 9007199254740992 with (inject_Z 9007199254740992); rewrite <- Zle_Qle; change (2 ^ 53)%Z with 9007199254740992%Z in M; lia).
    pose proof (two_pow_pos e) as P. set (u := 2 ^ e) in *. set (w := inject_Z mm) in *.
    assert (C : w * u <= 9007199254740992 * (1 # 17179869184)).
    { apply Qle_trans with (9007199254740992 * u); [apply Qmult_le_compat_r; lra|]. lra. }
    assert (D : 9007199254740992 * (1 # 17179869184) == 524288) by reflexivity. lra. }
  exists (mm * 2 ^ (e + 33))%Z.
  rewrite E. replace e with ((e + 33) + -33)%Z at 1 by lia. rewrite two_pow_plus, (two_pow_Z (e + 33)) by lia.
  change (2 ^ (-33)) with (1 # 8589934592). unfold Qeq, Qmult, inject_Z. cbn [Qnum Qden]. lia.
Qed.
Lemma grid_float z : (Z.abs z <= 2 ^ 53)%Z -> is_float (z # 8589934592).
Proof.
  intro H. exists z, (-33)%Z. split; [exact H|]. change (2 ^ (-33)) with (1 # 8589934592).
  unfold Qeq, Qmult, inject_Z. cbn [Qnum Qden]. lia.
Qed.
Lemma float_sub_int x n : is_float x -> (0 <= n)%Z -> inject_Z n <= x -> x <= 9007199254740992 -> is_float (x - inject_Z n).
Proof.
  intros (mm & e & M & E) N0 L U.
  destruct (Z_le_gt_dec e 0) as [G|G].
  - exists (mm - n * 2 ^ (- e))%Z, e.
    assert (X : x - inject_Z n == inject_Z (mm - n * 2 ^ (- e)) * 2 ^ e).
    { rewrite inject_Z_sub, inject_Z_mult, <- two_pow_Z by lia. rewrite E.
      assert (Y : 2 ^ (- e) * 2 ^ e == 1) by (rewrite <- two_pow_plus; replace (- e + e)%Z with 0%Z by lia; reflexivity).
      set (a := 2 ^ (- e)) in *. set (b := 2 ^ e) in *. 
      setoid_replace ((inject_Z mm - inject_Z n * a) * b) with (inject_Z mm * b - inject_Z n * (a * b)) by ring. rewrite Y. ring. }
    split; [|exact X].
    assert (P : (0 <= mm - n * 2 ^ (- e))%Z).
    { rewrite Zle_Qle. pose proof (two_pow_pos e) as P. apply (Qmult_le_r _ _ _ P). rewrite <- X. change (inject_Z 0) with 0. lra. }
    pose proof (Z.pow_nonneg 2 (- e)). nia.
  - assert (I : exists k, x == inject_Z k) by (exists (mm * 2 ^ e)%Z; rewrite inject_Z_mult, <- two_pow_Z by lia; exact E).
    destruct I as [k I]. exists (k - n)%Z, 0%Z. split.
    + rewrite I in L, U. rewrite <- Zle_Qle in L. change 9007199254740992 with (inject_Z (2 ^ 53)) in U. rewrite <- Zle_Qle in U. lia.
    + rewrite I, inject_Z_sub. change (2 ^ 0) with 1. ring.
Qed.
Lemma is_float_comp x y : x == y -> is_float x -> is_float y.
Proof. intros E (mm & e & M & F). exists mm, e. split; [exact M|]. rewrite <- E. exact F. Qed.

(** two floats of that size nearer than 2^-34 are equal *)
Lemma float_close x y : is_float x -> is_float y -> 1048576 <= x -> 1048576 <= y -> Qabs (x - y) < 1 # 8589934592 -> x == y.
Proof.
  intros Fx Fy Lx Ly H. destruct (float_grid x Fx Lx) as [a A]. destruct (float_grid y Fy Ly) as [b B].
  rewrite A, B in H. apply Qabs_Qlt_condition in H. destruct H as [H1 H2].
  assert (a = b). { unfold Qlt, Qminus, Qplus, Qopp in H1, H2. cbn [Qnum Qden] in H1, H2. lia. }
  subst b. rewrite A, B. reflexivity.
Qed.

Section Sun.
Variable rnd : Q -> Q.
Hypothesis N : Nearest rnd.
#[local] Instance prop_rnd : Proper (Qeq ==> Qeq) rnd.
Proof. intros a b E. apply near_proper; [exact N|exact E]. Qed.

Lemma qround12_err x : Qabs (qround 12 x - x) <= 1 # 2000000000000.
Proof.
  unfold qround. change (inject_Z (10 ^ 12)) with (1000000000000 # 1).
  pose proof (rne_err (x * (1000000000000 # 1))) as H. set (r := inject_Z (rne _)) in *.
  apply Qabs_le_iff in H. apply Qabs_le_iff.
  assert (E : r / (1000000000000 # 1) == r * (1 # 1000000000000)) by (unfold Qdiv; reflexivity). rewrite E. split; lra.
Qed.
Lemma round12_float x : is_float x -> 1048577 <= x <= 8388607 -> round12 rnd x == x.
Proof.
  intros F R. unfold round12, fround. pose proof (qround12_err x) as Q1. apply Qabs_le_iff in Q1.
  destruct N as (_ & Fl & Nr). pose proof (Nr (qround 12 x) x F) as C.
  assert (C' : Qabs (x - qround 12 x) <= 1 # 2000000000000) by (apply Qabs_le_iff; split; lra).
  assert (C2 : Qabs (rnd (qround 12 x) - qround 12 x) <= 1 # 2000000000000) by (eapply Qle_trans; eassumption).
  apply Qabs_le_iff in C2.
  apply float_close; [apply Fl|exact F|lra|lra|]. apply Qabs_Qlt_condition. split; lra.
Qed.
Lemma near23 x : Qabs x <= 8388608 -> x - (1 # 2147483648) <= rnd x <= x + (1 # 2147483648).
Proof. intro H. pose proof (near_err_23 rnd N x H) as E. apply Qabs_le_iff in E. split; lra. Qed.
Lemma near1 x : Qabs x <= 2 -> x - (1 # 9007199254740992) <= rnd x <= x + (1 # 9007199254740992).
Proof. intro H. pose proof (near_err_1 rnd N x H) as E. apply Qabs_le_iff in E. split; lra. Qed.
Lemma round12_near x : Qabs x <= 8388607 -> x - (1 # 1073741824) <= round12 rnd x <= x + (1 # 1073741824).
Proof.
  intro H. unfold round12, fround. pose proof (qround12_err x) as Q1. apply Qabs_le_iff in Q1. apply Qabs_le_iff in H.
  assert (H2 : Qabs (qround 12 x) <= 8388608) by (apply Qabs_le_iff; split; lra).
  pose proof (near23 _ H2). split; lra.
Qed.

(** ** longitude of Tehran as a fraction of a day: 51.288701 / 360 *)
Definition LF : Q := fdiv rnd (TEHRAN_LON rnd) 360.
Definition lf : Q := 51288701 # 360000000.
Lemma LF_near : lf - (1 # 1000000000000) <= LF <= lf + (1 # 1000000000000).
Proof.
  unfold LF, fdiv, TEHRAN_LON, lf.
  assert (A : Qabs (51288701 # 1000000) <= 2 ^ 6) by discriminate.
  pose proof (near_err rnd N 6 _ A) as E. change (2 ^ (6 - 54)) with (1 # 281474976710656) in E. apply Qabs_le_iff in E.
  set (l := rnd (51288701 # 1000000)) in *. assert (D : l / 360 == l * (1 # 360)) by (unfold Qdiv; reflexivity).
  assert (B : Qabs (l / 360) <= 2) by (rewrite D; apply Qabs_le_iff; split; lra).
  pose proof (near1 _ B) as C. set (q := rnd (l / 360)) in *. rewrite D in C. split; lra.
Qed.

(** the local civil day number used by sun_setting *)
Definition cday (x : Q) : Z := Qfloor (fadd rnd (fadd rnd x LF) (1#2)).
Lemma cday_near x : Qabs x <= 8388600 ->
  inject_Z (cday x) <= x + lf + (1#2) + (1 # 1000000000) /\ x + lf + (1#2) - (1 # 1000000000) < inject_Z (cday x) + 1.
Proof.
  intro H. unfold cday. apply Qabs_le_iff in H. pose proof LF_near as L. unfold fadd.
  assert (L' : 0 <= LF <= 1) by (unfold lf in L; split; lra).
  assert (H1 : Qabs (x + LF) <= 8388608) by (apply Qabs_le_iff; split; lra).
  pose proof (near23 _ H1) as A. set (a := rnd (x + LF)) in *.
  assert (H2 : Qabs (a + (1#2)) <= 8388608) by (apply Qabs_le_iff; split; lra).
  pose proof (near23 _ H2) as B. set (b := rnd (a + (1#2))) in *.
  pose proof (Qfloor_le b) as C. pose proof (Qlt_floor b) as D. rewrite inject_Z_plus in D. change (inject_Z 1) with 1 in D.
  split; lra.
Qed.
Lemma cday_spec x H : Qabs x <= 8388600 ->
  inject_Z H + (1 # 1000000000) <= x + lf + (1#2) -> x + lf + (1#2) <= inject_Z H + 1 - (1 # 500000000) -> cday x = H.
Proof.
  intros A B C. destruct (cday_near x A) as [D E].
  assert (cday x <= H)%Z by (assert (cday x < H + 1)%Z; [byQ|lia]).
  assert (H <= cday x)%Z by (assert (H < cday x + 1)%Z; [byQ|lia]). lia.
Qed.
Lemma cday_int x J : x == inject_Z J -> (Z.abs J <= 8388600)%Z -> cday x = J.
Proof.
  intros E H. assert (Hq : - inject_Z 8388600 <= inject_Z J <= inject_Z 8388600) by (rewrite <- inject_Z_opp, <- !Zle_Qle; lia).
  change (inject_Z 8388600) with 8388600 in Hq.
  apply cday_spec; [rewrite E; apply Qabs_le_iff; split; lra|rewrite E; unfold lf; lra|rewrite E; unfold lf; lra].
Qed.

(** ** sunset of a civil day *)
Variable m : Q -> Q -> Q -> Q.

(** the argument given to the oracle for civil day [H] *)
Definition arg (H : Z) : Q := fsub rnd (fsub rnd (inject_Z H) (1#2)) LF.
Definition mu (H : Z) : Q := m (arg H) (TEHRAN_LAT rnd) (TEHRAN_LON rnd).
Definition SS (H : Z) : Q := round12 rnd (fadd rnd (arg H) (mu H)).
Lemma sun_setting_SS x : sun_setting rnd m x (TEHRAN_LAT rnd) (TEHRAN_LON rnd) = SS (cday x).
Proof. reflexivity. Qed.

Hypothesis band : forall H, (1700001 < H < 2900000)%Z -> (13 # 20) <= mu H <= (17 # 20).

Lemma arg_near H : (1700001 < H < 2900000)%Z ->
  inject_Z H - (1#2) - lf - (1 # 1000000000) <= arg H <= inject_Z H - (1#2) - lf + (1 # 1000000000).
Proof.
  intro R. destruct R as [R1 R2]. toQ R1. toQ R2. unfold arg, fsub. pose proof LF_near as L. unfold lf in *.
  change (inject_Z 1700001) with 1700001 in R1. change (inject_Z 2900000) with 2900000 in R2. set (h := inject_Z H) in *.
  assert (H1 : Qabs (h - (1#2)) <= 8388608) by (apply Qabs_le_iff; split; lra).
  pose proof (near23 _ H1) as A. set (a := rnd (h - (1#2))) in *.
  assert (H2 : Qabs (a - LF) <= 8388608) by (apply Qabs_le_iff; split; lra).
  pose proof (near23 _ H2) as B. split; lra.
Qed.
(** the sun sets between noon and a quarter day after noon, Greenwich time *)
Lemma SS_near H : (1700001 < H < 2900000)%Z ->
  Qabs (SS H - (inject_Z H - (1#2) - lf + mu H)) <= 1 # 100000000.
Proof.
  intro R. pose proof (arg_near H R) as A. pose proof (band H R) as B. destruct R as [R1 R2]. toQ R1. toQ R2.
  change (inject_Z 1700001) with 1700001 in R1. change (inject_Z 2900000) with 2900000 in R2.
  unfold SS, fadd. unfold lf in *.
  assert (H1 : Qabs (arg H + mu H) <= 8388607) by (apply Qabs_le_iff; split; lra).
  assert (H1' : Qabs (arg H + mu H) <= 8388608) by (eapply Qle_trans; [exact H1|discriminate]).
  pose proof (near23 _ H1') as C.
  assert (H2 : Qabs (rnd (arg H + mu H)) <= 8388607) by (apply Qabs_le_iff; split; lra).
  pose proof (round12_near _ H2) as D. apply Qabs_le_iff. split; lra.
Qed.
Lemma SS_range H : (1700001 < H < 2900000)%Z -> inject_Z H + (7 # 1000) < SS H < inject_Z H + (208 # 1000).
Proof.
  intro R. pose proof (SS_near H R) as A. apply Qabs_le_iff in A. pose proof (band H ltac:(lia)) as B. unfold lf in A. split; lra.
Qed.
Lemma SS_float H : is_float (SS H).
Proof. unfold SS, round12, fround. apply near_float, N. Qed.
Lemma hd_SS H : (1700001 < H < 2900000)%Z -> hd (SS H) = (2 * H)%Z.
Proof.
  intro R. pose proof (SS_range H R) as A. unfold hd. apply Qfloor_spec; qlra.
Qed.

(** the sunset of historical civil day [H] on the exact scale *)
Definition AE (H : Z) : Q := fsub rnd (SS H) (inject_Z (zdiff (2 * H) exact_breaks)).
Lemma AE_eq H : (1700001 < H < 2900000)%Z -> AE H == SS H - inject_Z (zdiff (2 * H) exact_breaks) /\ is_float (AE H).
Proof.
  intro R. pose proof (SS_range H ltac:(lia)) as A. pose proof (zdiff_e_range (2 * H)) as D.
  set (n := zdiff (2 * H) exact_breaks) in *. destruct R as [R1 R2]. toQ R1. toQ R2.
  change (inject_Z 1700001) with 1700001 in R1. change (inject_Z 2900000) with 2900000 in R2.
  destruct D as [D1 D2]. assert (D1' := D1). toQ D1. toQ D2. change (inject_Z 0) with 0 in D1. change (inject_Z 12) with 12 in D2.
  unfold AE, fsub. fold n. split; [|apply near_float, N]. apply near_exact; [exact N|].
  apply float_sub_int; [apply SS_float|exact D1'|lra|lra].
Qed.
Lemma exact_sunset H : (1700001 < H < 2900000)%Z ->
  exact_from_meeus rnd (SS H) = if zinvalid (2 * H) then Err ValueError else Ok (AE H).
Proof. intro R. rewrite exact_from_meeus_z, hd_SS by lia. reflexivity. Qed.

(** civil day on the exact scale *)
Definition EX (H : Z) : Z := (H - zdiff (2 * H) exact_breaks)%Z.
Lemma AE_range H : (1700001 < H < 2900000)%Z -> inject_Z (EX H) + (7 # 1000) < AE H < inject_Z (EX H) + (208 # 1000).
Proof.
  intro R. destruct (AE_eq H R) as [E _]. pose proof (SS_range H ltac:(lia)) as A. unfold EX. rewrite inject_Z_sub, E. split; lra.
Qed.
Lemma cday_AE H : (1700001 < H < 2900000)%Z -> cday (AE H) = EX H.
Proof.
  intro R. pose proof (AE_range H R) as A. pose proof (zdiff_e_range (2 * H)) as D.
  assert (B : (1699000 < EX H < 2900000)%Z) by (unfold EX; lia). destruct B as [B1 B2]. toQ B1. toQ B2.
  change (inject_Z 1699000) with 1699000 in B1. change (inject_Z 2900000) with 2900000 in B2.
  apply cday_spec; [apply Qabs_le_iff; split; lra|unfold lf; lra|unfold lf; lra].
Qed.
End Sun.
