(** PropertiesLeap.v -- C76: the leap years. *)
From Coq Require Import ZArith QArith Qround Qabs List Bool Lia.
From Coq Require Import ZifyBool.
From Verif Require Import Base Flt QUtil BaseModel MiscModel BadiModel SpecGreg GregModel SpecBadi SpecEquinox BadiProofs BadiProofs2 PropertiesBadi.
Import ListNotations.
Local Open Scope Z_scope.

(** [isleap] over the table of year starts, as the API answers. *)
Definition leap (rnd : Q -> Q) (m : Q -> Q -> Q -> Q) (y : Z) : Prop := is_leap_badi (year_table rnd m) y = Ok true.
Lemma leap_eq rnd m y : Nearest rnd -> evening rnd m -> -1843 <= y <= 1161 -> (leap rnd m y <-> zleap y = true).
Proof. intros N E Y. unfold leap. rewrite (is_leap_ok rnd N m E) by exact Y. split; [intro H; injection H; auto|intros ->; reflexivity]. Qed.

Lemma not_leap_eq rnd m y : Nearest rnd -> evening rnd m -> -1843 <= y <= 1161 -> (~ leap rnd m y <-> zleap y = false).
Proof. intros N E Y. rewrite (leap_eq rnd m y N E Y). destruct (zleap y); split; congruence. Qed.

(** After a leap year come three or four common years and then a leap year. *)
Theorem C76_spacing : forall rnd m y, Nearest rnd -> evening rnd m -> -1843 <= y <= 1155 -> leap rnd m y ->
  ~ leap rnd m (y + 1) /\ ~ leap rnd m (y + 2) /\ ~ leap rnd m (y + 3) /\
  ((leap rnd m (y + 4) /\ ~ leap rnd m (y + 5)) \/ (~ leap rnd m (y + 4) /\ leap rnd m (y + 5))).
Proof.
  intros rnd m y N E Y. rewrite !not_leap_eq, !leap_eq by (try exact N; try exact E; lia). intro L.
  pose proof (zforall (fun y => implb (zleap y) (negb (zleap (y+1)) && negb (zleap (y+2)) && negb (zleap (y+3)) && xorb (zleap (y+4)) (zleap (y+5)))) (-1843) 2999
    ltac:(vm_compute; reflexivity) y ltac:(lia)) as H. cbv beta in H. rewrite L in H. cbn [implb] in H.
  destruct (zleap (y+1)), (zleap (y+2)), (zleap (y+3)), (zleap (y+4)), (zleap (y+5)); try discriminate H; tauto.
Qed.
Print Assumptions C76_spacing.

(** The five year gaps are exactly those of the list, and are 29, 33, 37 or 41 years apart. *)
Theorem C76_five_year_gaps : forall rnd m y, Nearest rnd -> evening rnd m -> -1843 <= y <= 1155 -> leap rnd m y ->
  (leap rnd m (y + 5) <-> In (y + 5) five_year_gaps).
Proof.
  intros rnd m y N E Y. rewrite !leap_eq by (try exact N; try exact E; lia). intro L.
  pose proof (zforall (fun y => implb (zleap y) (Bool.eqb (zleap (y+5)) (existsb (Z.eqb (y + 5)) five_year_gaps))) (-1843) 2999
    ltac:(vm_compute; reflexivity) y ltac:(lia)) as H. cbv beta in H. rewrite L in H. cbn [implb] in H. apply eqb_prop in H. rewrite H, existsb_exists. clear.
  split; [intros (x & I & Q); apply Z.eqb_eq in Q; subst x; exact I|intro I; exists (y + 5); split; [exact I|apply Z.eqb_refl]].
Qed.
Print Assumptions C76_five_year_gaps.

(** The first leap year, from which the two theorems above give all the others up to 1160. *)
Theorem C76_first : forall rnd m, Nearest rnd -> evening rnd m -> ~ leap rnd m (-1843) /\ leap rnd m (-1842).
Proof. intros rnd m N E. rewrite not_leap_eq, leap_eq by (try exact N; try exact E; lia). split; vm_compute; reflexivity. Qed.
Print Assumptions C76_first.

(** The calendar keeps to the Gregorian mean year of 365.2425 days: over any span of years it is less than 1.666 days off. *)
Theorem C76_mean_year : forall rnd m y y' a b, Nearest rnd -> evening rnd m -> year_table rnd m y = Some a -> year_table rnd m y' = Some b ->
  Z.abs (10000 * (b - a) - 3652425 * (y' - y)) <= 16650.
Proof.
  intros rnd m y y' a b N E A B.
  assert (Y : forall y a, year_table rnd m y = Some a -> -1843 <= y <= 1162 /\ a = ystart y).
  { clear - N E. intros y a A. destruct (Z_le_gt_dec (-1843) y); [destruct (Z_le_gt_dec y 1162)|].
    - rewrite (year_table_ok rnd N m E) in A by lia. injection A as <-. split; [lia|reflexivity].
    - rewrite year_table_none in A by lia. discriminate.
    - rewrite year_table_none in A by lia. discriminate. }
  assert (X : forall y, -1843 <= y <= 1162 -> 6728545500 <= 10000 * ystart y - 3652425 * y <= 6728562150).
  { clear. intros y Y. pose proof (zforall (fun y => (6728545500 <=? 10000 * ystart y - 3652425 * y) && (10000 * ystart y - 3652425 * y <=? 6728562150)) (-1843) 3006
      ltac:(vm_compute; reflexivity) y ltac:(lia)) as H. cbv beta in H. lia. }
  destruct (Y _ _ A) as [Y1 ->], (Y _ _ B) as [Y2 ->]. pose proof (X _ Y1). pose proof (X _ Y2). lia.
Qed.
Print Assumptions C76_mean_year.

(** The new year begins with the Badi day (from 14:45 UT, about sunset in Tehran, to 14:45 UT) that contains the vernal
    equinox, in every year of the project's list of equinoxes. *)
Theorem C76_equinox : forall rnd m gy d h mi, Nearest rnd -> evening rnd m -> In (gy, d, h, mi) equinoxes ->
  exists a, year_table rnd m (gy - 1843) = Some a /\ minutes a 14 45 <= minutes (march gy d) h mi < minutes (a + 1) 14 45.
Proof.
  intros rnd m gy d h mi N E I.
  assert (H : forallb (fun '(gy, d, h, mi) => let a := ystart (gy - 1843) in (-1843 <=? gy - 1843) && (gy - 1843 <=? 1162) &&
    (minutes a 14 45 <=? minutes (march gy d) h mi) && (minutes (march gy d) h mi <? minutes (a + 1) 14 45)) equinoxes = true) by (vm_compute; reflexivity).
  rewrite forallb_forall in H. specialize (H _ I). cbv beta iota zeta in H. exists (ystart (gy - 1843)).
  rewrite (year_table_ok rnd N m E) by lia. split; [reflexivity|lia].
Qed.
Print Assumptions C76_equinox.

Theorem C76_equinox_years : forall gy, 1788 <= gy <= 2211 <-> exists d h mi, In (gy, d, h, mi) equinoxes.
Proof.
  intro gy. split.
  - intro Y. pose proof (zforall (fun y => existsb (fun '(g, _, _, _) => g =? y) equinoxes) 1788 424 ltac:(vm_compute; reflexivity) gy ltac:(lia)) as H.
    cbv beta in H. apply existsb_exists in H. destruct H as ([[[g d] h] mi] & I & Q). exists d, h, mi. replace gy with g by lia. exact I.
  - intros (d & h & mi & I).
    assert (H : forallb (fun '(g, _, _, _) => (1788 <=? g) && (g <=? 2211)) equinoxes = true) by (vm_compute; reflexivity).
    rewrite forallb_forall in H. specialize (H _ I). cbv beta iota in H. lia.
Qed.
Print Assumptions C76_equinox_years.

(** Refuted at the end of the supported range: 1160 and 1161 are both leap years (the last coefficient segment stops
    one year short, so the year after MAXYEAR is taken to start a day late). *)
Theorem C76_last_year_refuted : forall rnd m, Nearest rnd -> evening rnd m -> leap rnd m 1160 /\ leap rnd m 1161.
Proof. intros rnd m N E. rewrite !leap_eq by (try exact N; try exact E; lia). split; vm_compute; reflexivity. Qed.
Print Assumptions C76_last_year_refuted.

Example C76_case : leap b64 six_pm 182 /\ In (2026, 20, 14, 45) equinoxes /\ year_table b64 six_pm 183 = Some 739695 /\ march 2026 20 = 739695.
Proof.
  split; [vm_compute; reflexivity|]. split; [|split; vm_compute; reflexivity].
  assert (H : existsb (fun '(a, b, c, d) => (a =? 2026) && (b =? 20) && (c =? 14) && (d =? 45)) equinoxes = true) by (vm_compute; reflexivity).
  apply existsb_exists in H. destruct H as ([[[a b] c] d] & I & Q). replace (2026, 20, 14, 45) with (a, b, c, d); [exact I|].
  f_equal; [f_equal; [f_equal|]|]; lia.
Qed.
