(** ClockProofs4.v -- carries in short_date_from_long_date and packing of clock times. *)
From Coq Require Import ZArith QArith Qround Qabs List Bool Lia Lqa Setoid Morphisms.
From Coq Require Import ZifyBool ZifyNat ZifyN.
From Verif Require Import Base Flt QUtil BaseModel MiscModel BadiModel BaseProofs BaseProofs2 MiscProofs SunProofs SpecMisc SpecBadi BadiProofs BadiProofs2 LongYear BadiProofs3 DecProofs BadiProofs4 LongProofs BadiProofs5 ClockProofs.
Import ListNotations.
Local Open Scope Q_scope.
Ltac Zify.zify_post_hook ::= Z.div_mod_to_equations.

Section Clock4.
Variable rnd : Q -> Q.
Hypothesis N : Nearest rnd.
#[local] Instance prop_rnd12 : Proper (Qeq ==> Qeq) rnd.
Proof. intros a b E. apply near_proper; [exact N|exact E]. Qed.
Variable m : Q -> Q -> Q -> Q.
Hypothesis EV : evening rnd m.
Notation T := (year_table rnd m).

Lemma fadd_Z a b : (Z.abs (a + b) <= 2 ^ 53)%Z -> fadd rnd (inject_Z a) (inject_Z b) == inject_Z (a + b).
Proof. intro H. unfold fadd. rewrite <- inject_Z_plus. apply near_int; [exact N|exact H]. Qed.
Lemma fsub_Z a b : (Z.abs (a - b) <= 2 ^ 53)%Z -> fsub rnd (inject_Z a) (inject_Z b) == inject_Z (a - b).
Proof. intro H. unfold fsub. setoid_replace (inject_Z a - inject_Z b) with (inject_Z (a - b)) by (unfold Z.sub; rewrite inject_Z_plus, inject_Z_opp; reflexivity). apply near_int; [exact N|exact H]. Qed.

(** ** carries, day not the last of its month *)
Definition secs (d h mi s : Z) : Z := (d * 86400 + h * 3600 + mi * 60 + s)%Z.
Lemma carry_shift tr k v yy mo d h mi s : (-1843 <= long_year k v yy <= 1161)%Z ->
  (0 <= mo <= 19)%Z -> (1 <= d < bmonth_len (leap_of rnd m (long_year k v yy)) mo)%Z ->
  (0 <= h <= 24)%Z -> (0 <= mi <= 59)%Z -> (0 <= s <= 60)%Z ->
  exists d' h' mi' s' sd, short_date_from_long_date rnd T tr {| l_k := k; l_v := v; l_y := yy; l_m := mo; l_d := inject_Z d; l_t := [inject_Z h; inject_Z mi; inject_Z s] |} = Ok sd /\
    s_y sd = long_year k v yy /\ s_m sd = mo /\ s_d sd == inject_Z d' /\ same_clock (s_t sd) [inject_Z h'; inject_Z mi'; inject_Z s'] /\
    (secs d' h' mi' s' = secs d h mi s + (if s =? 60 then 59 else 0) + (if (s =? 60) && (mi =? 59) then 59 * 60 else 0)
       + (if (h =? 24) || ((h =? 23) && (mi =? 59) && (s =? 60)) then 23 * 3600 else 0))%Z /\
    (1 <= d' <= bmonth_len (leap_of rnd m (long_year k v yy)) mo /\ 0 <= h' <= 24 /\ 0 <= mi' <= 59 /\ 0 <= s' <= 59)%Z.
Proof.
  intros Y M D H MI S. remember (long_year k v yy) as y eqn:L0. assert (L : long_year k v yy = y) by (symmetry; exact L0). clear L0.
  rewrite (leap_of_ok rnd N m EV) in * by exact Y.
  unfold short_date_from_long_date. cbn [get_hms nth l_k l_v l_y l_m l_d l_t]. rewrite L.
  assert (DM : (if ((1 <=? mo) && (mo <? 20))%Z%bool then Ok 19%Z else let* b := is_leap_badi T y in Ok (4 + b2z b)%Z) = Ok (bmonth_len (zleap y) mo)).
  { unfold bmonth_len. destruct (Z.eqb_spec mo 0) as [->|NE].
    - change ((1 <=? 0) && (0 <? 20))%Z with false. cbv iota. rewrite (is_leap_ok rnd N m EV) by lia. cbn [bind]. destruct (zleap _); reflexivity.
    - assert (B : ((1 <=? mo) && (mo <? 20))%Z = true) by lia. rewrite B. reflexivity. }
  rewrite DM. cbn [bind].
  assert (BR : (1 <= bmonth_len (zleap y) mo <= 19)%Z) by (unfold bmonth_len; destruct (mo =? 0)%Z; destruct (zleap y); lia).
  set (cs := (s =? 60)%Z). set (cm := (cs && (mi =? 59)%Z)%bool). set (ch := ((h =? 24)%Z || ((h =? 23)%Z && cm))%bool).
  set (s' := (if cs then 59 else s)%Z). set (mi' := (if cm then 59 else if cs then mi + 1 else mi)%Z).
  set (h0 := (if cm then h + 1 else h)%Z). set (h' := (if ch then h0 - 1 else h0)%Z). set (d' := (if ch then d + 1 else d)%Z).
  assert (CH : (24 <=? h0)%Z = ch) by (unfold ch, h0, cm; destruct (cs && (mi =? 59)%Z); lia).
  assert (E1 : exists qm qs, (if Qleb 60 (inject_Z s) then (fadd rnd (inject_Z mi) 1, fsub rnd (inject_Z s) 1) else (inject_Z mi, inject_Z s)) = (qm, qs) /\
     qm == inject_Z (if cs then mi + 1 else mi) /\ qs == inject_Z s').
  { change 60 with (inject_Z 60). rewrite Qleb_Z. unfold s', cs. destruct (Z.leb_spec 60 s); destruct (Z.eqb_spec s 60); try lia; do 2 eexists; (split; [reflexivity|]).
    - subst s. change 1 with (inject_Z 1). rewrite fadd_Z, fsub_Z by lia. split; reflexivity.
    - split; reflexivity. }
  destruct E1 as (qm & qs & -> & QM & QS).
  assert (E2 : exists qh qm', (if Qleb 60 qm then (fadd rnd (inject_Z h) 1, fsub rnd qm 1) else (inject_Z h, qm)) = (qh, qm') /\
     qh == inject_Z h0 /\ qm' == inject_Z mi').
  { assert (X : Qleb 60 qm = cm).
    { assert (X : Qleb 60 qm = Qleb (inject_Z 60) (inject_Z (if cs then mi + 1 else mi))) by (rewrite QM; reflexivity). rewrite X, Qleb_Z.
      unfold cm. destruct cs; lia. }
    rewrite X. unfold h0, mi'. destruct cm eqn:CM; do 2 eexists; (split; [reflexivity|]).
    - change 1 with (inject_Z 1). rewrite fadd_Z by lia. split; [reflexivity|]. unfold cm in CM. destruct cs; [|discriminate]. 
      unfold fsub. rewrite QM. change (rnd (inject_Z (mi + 1) - inject_Z 1)) with (fsub rnd (inject_Z (mi + 1)) (inject_Z 1)). rewrite fsub_Z by lia.
      apply Z.eqb_eq in CM. subst mi. reflexivity.
    - split; [reflexivity|exact QM]. }
  destruct E2 as (qh & qm' & -> & QH & QM').
  assert (E3 : exists qd qh', (if Qleb 24 qh then (fadd rnd (inject_Z d) 1, fsub rnd qh 1) else (inject_Z d, qh)) = (qd, qh') /\
     qd == inject_Z d' /\ qh' == inject_Z h').
  { assert (X : Qleb 24 qh = ch).
    { assert (X : Qleb 24 qh = Qleb (inject_Z 24) (inject_Z h0)) by (rewrite QH; reflexivity). rewrite X, Qleb_Z. exact CH. }
    rewrite X. unfold d', h'. assert (HB : (0 <= h0 <= 25)%Z) by (unfold h0; destruct cm; lia). destruct ch; do 2 eexists; (split; [reflexivity|]).
    - change 1 with (inject_Z 1). rewrite fadd_Z by lia. split; [reflexivity|]. 
      unfold fsub. rewrite QH. change (rnd (inject_Z h0 - inject_Z 1)) with (fsub rnd (inject_Z h0) (inject_Z 1)). rewrite fsub_Z by lia. reflexivity.
    - split; [reflexivity|exact QH]. }
  destruct E3 as (qd & qh' & -> & QD & QH').
  assert (DB : (1 <= d' <= bmonth_len (zleap y) mo)%Z) by (unfold d'; destruct ch; lia).
  assert (QL : Qltb (inject_Z (bmonth_len (zleap y) mo)) qd = false) by (apply Qltb_ge; rewrite QD, <- Zle_Qle; lia). rewrite QL.
  assert (M19 : (19 <? mo)%Z = false) by lia. rewrite M19.
  assert (RB : (0 <= h' <= 24 /\ 0 <= mi' <= 59 /\ 0 <= s' <= 59)%Z).
  { unfold h', mi', s', h0, ch, cm, cs. destruct (Z.eqb_spec s 60); destruct (Z.eqb_spec mi 59); destruct (Z.eqb_spec h 24); destruct (Z.eqb_spec h 23); cbn [andb orb]; lia. }
  set (t := if tr then trim_hms [qh'; qm'; qs; 0] else [qh'; qm'; qs; 0]).
  assert (TC : same_clock t [inject_Z h'; inject_Z mi'; inject_Z s']).
  { assert (K : same_clock [qh'; qm'; qs; 0] [inject_Z h'; inject_Z mi'; inject_Z s']) by (intros i I; do 4 (destruct i as [|i]; [cbn [nth]; assumption || reflexivity|]); lia).
    unfold t. destruct tr; [eapply same_clock_trans; [apply same_clock_trim|exact K]|exact K]. }
  assert (CF : check_short rnd T {| s_y := y; s_m := mo; s_d := qd; s_t := t |} = Ok tt).
  { rewrite (check_short_clock rnd N m _ _ _ _ [inject_Z h'; inject_Z mi'; inject_Z s'; inject_Z 0]).
    - assert (K : check_short rnd T {| s_y := y; s_m := mo; s_d := inject_Z d'; s_t := [inject_Z h'; inject_Z mi'; inject_Z s'; inject_Z 0] |} = Ok tt).
      { apply (check_clock rnd N m EV); try lia.
        - split; [exact M|]. rewrite (leap_of_ok rnd N m EV) by exact Y. exact DB.
        - split; [change 0 with (inject_Z 0); rewrite <- Zle_Qle; lia|change 60 with (inject_Z 60); rewrite <- Zlt_Qlt; lia]. }
      rewrite <- K. unfold check_short, check_mdt. cbn [s_y s_m s_d s_t get_hms nth].
      assert (F1 : forall c, Qleb 1 qd && Qltb qd c = Qleb 1 (inject_Z d') && Qltb (inject_Z d') c) by (intro c; rewrite QD; reflexivity).
      assert (F2 : Qeqb (fmod1 rnd qd) 0 = Qeqb (fmod1 rnd (inject_Z d')) 0).
      { pose proof (fmod1_comp rnd N _ _ QD) as FC. rewrite FC. reflexivity. }
      destruct (if (mo =? 0)%Z then _ else _); cbn [bind]; [rewrite F1, F2; reflexivity|reflexivity].
    - eapply same_clock_trans; [exact TC|]. intros i I. do 4 (destruct i as [|i]; [reflexivity|]). lia. }
  rewrite CF. cbn [bind]. exists d', h', mi', s'. eexists. split; [reflexivity|]. cbn [s_y s_m s_d s_t].
  split; [reflexivity|]. split; [reflexivity|]. split; [exact QD|]. split; [exact TC|]. split; [|split; [exact DB|exact RB]].
  unfold secs, d', h', mi', s', h0, ch, cm, cs. destruct (Z.eqb_spec s 60); destruct (Z.eqb_spec mi 59); destruct (Z.eqb_spec h 24); destruct (Z.eqb_spec h 23); cbn [andb orb]; lia.
Qed.

(** ** packing *)
Lemma check_mdt_times y mo d l : check_mdt rnd T y mo d l = Ok tt ->
  0 <= nth 0 l 0 < 25 /\ 0 <= nth 1 l 0 < 60 /\ 0 <= nth 2 l 0 < 60 /\ 0 <= nth 3 l 0 < 1000000 /\ 1 <= d < 20.
Proof.
  unfold check_mdt, get_hms, check_time.
  destruct ((0 <=? mo)%Z && _) eqn:B; [|discriminate]. cbn [passert bind].
  destruct (if (mo =? 0)%Z then _ else _) as [cycle|] eqn:CY; [|discriminate]. cbn [bind].
  assert (CB : (cycle <= 20)%Z).
  { destruct (mo =? 0)%Z; [|assert (cycle = 20)%Z by congruence; lia].
    destruct (is_leap_badi T y) as [b|]; [|discriminate]. cbn [bind] in CY. assert (cycle = 5 + b2z b)%Z by congruence. destruct b; cbn [b2z] in *; lia. }
  repeat match goal with |- context [passert (Qleb ?a ?b && Qltb ?c ?e)] => let X := fresh in destruct (Qleb a b && Qltb c e) eqn:X; [|discriminate];
     cbn [passert bind]; apply andb_true_iff in X; let P := fresh in let P' := fresh in destruct X as [P P']; apply Qleb_le in P; apply Qltb_lt in P' end.
  intros _. assert (CQ : inject_Z cycle <= 20) by (change 20 with (inject_Z 20); rewrite <- Zle_Qle; exact CB).
  repeat split; try assumption; try lra.
Qed.

Lemma qround6_err x : Qabs (qround 6 x - x) <= 1 # 2000000.
Proof.
  unfold qround. change (10 ^ Zpos 6)%Z with 1000000%Z. pose proof (rne_err (x * inject_Z 1000000)) as R. apply Qabs_le_iff in R.
  set (z := rne _) in *. change (inject_Z 1000000) with 1000000 in *. 
  assert (X : inject_Z z / 1000000 == inject_Z z * (1 # 1000000)) by (unfold Qdiv; reflexivity). rewrite X. apply Qabs_le_iff. split; lra.
Qed.
Lemma pack_time ld : check_long rnd T ld = Ok tt ->
  exists ld', date_from_kvymdhms rnd T false ld = Ok (Long ld') /\
    l_k ld' = l_k ld /\ l_v ld' = l_v ld /\ l_y ld' = l_y ld /\ l_m ld' = l_m ld /\ l_t ld' = [] /\
    Qabs (l_d ld' - (l_d ld + nth 0 (l_t ld) 0 / 24 + nth 1 (l_t ld) 0 / 1440 + nth 2 (l_t ld) 0 / 86400 + nth 3 (l_t ld) 0 / 1000000)) <= 6 # 10000000.
Proof.
  intro C. unfold date_from_kvymdhms. rewrite C. cbn [bind get_hms]. eexists. split; [reflexivity|]. cbn [l_k l_v l_y l_m l_d l_t].
  repeat (split; [reflexivity|]).
  unfold check_long in C. do 3 (match type of C with bind (passert ?b) _ = _ => destruct b; [|discriminate] end; cbn [passert bind] in C).
  apply check_mdt_times in C. destruct C as (C0 & C1 & C2 & C3 & C4).
  set (h := nth 0 (l_t ld) 0) in *. set (mi := nth 1 (l_t ld) 0) in *. set (s := nth 2 (l_t ld) 0) in *. set (us := nth 3 (l_t ld) 0) in *. set (d := l_d ld) in *.
  assert (DV : forall x k, x / inject_Z (Zpos k) == x * (1 # k)) by (intros; unfold Qdiv; reflexivity).
  change 24 with (inject_Z 24). change 1440 with (inject_Z 1440). change 86400 with (inject_Z 86400). change 1000000 with (inject_Z 1000000). rewrite !DV.
  assert (NN : forall x, 0 <= x <= 8 -> x - (1 # 2251799813685248) <= rnd x <= x + (1 # 2251799813685248) /\ 0 <= rnd x).
  { intros x X. split; [apply (near_k rnd N 3); [apply Qabs_le_iff; change (2 ^ 3) with 8; split; lra|discriminate]|apply near_nonneg; [exact N|lra]]. }
  assert (F24 : forall x, fdiv rnd x 24 = rnd (x / 24)) by reflexivity.
  assert (H1 : h * (1 # 24) - (1 # 2251799813685248) <= HR rnd h <= h * (1 # 24) + (1 # 2251799813685248) /\ 0 <= HR rnd h).
  { unfold HR, fdiv. change 24 with (inject_Z 24). rewrite DV. apply NN. split; lra. }
  assert (M1 : mi * (1 # 1440) - (1 # 1000000000000000) <= MN rnd mi <= mi * (1 # 1440) + (1 # 1000000000000000) /\ 0 <= MN rnd mi).
  { unfold MN, fdiv. change 24 with (inject_Z 24). change 60 with (inject_Z 60). rewrite !DV.
    destruct (NN (mi * (1 # 24)) ltac:(split; lra)) as [A B]. set (a := rnd (mi * (1 # 24))) in *.
    destruct (NN (a * (1 # 60)) ltac:(split; lra)) as [A' B']. split; [split; lra|exact B']. }
  assert (S1 : s * (1 # 86400) - (1 # 1000000000000000) <= SEC rnd s <= s * (1 # 86400) + (1 # 1000000000000000) /\ 0 <= SEC rnd s).
  { unfold SEC, fdiv. change 24 with (inject_Z 24). change 60 with (inject_Z 60). rewrite !DV.
    destruct (NN (s * (1 # 24)) ltac:(split; lra)) as [A B]. set (a := rnd (s * (1 # 24))) in *.
    destruct (NN (a * (1 # 60)) ltac:(split; lra)) as [A' B']. set (b := rnd (a * (1 # 60))) in *.
    destruct (NN (b * (1 # 60)) ltac:(split; lra)) as [A2 B2]. split; [split; lra|exact B2]. }
  assert (U1 : us * (1 # 1000000) - (1 # 1000000000000000) <= US rnd us <= us * (1 # 1000000) + (1 # 1000000000000000) /\ 0 <= US rnd us).
  { unfold US, fdiv. change 1000000 with (inject_Z 1000000). rewrite !DV. destruct (NN (us * (1 # 1000000)) ltac:(split; lra)) as [A B]. split; [split; lra|exact B]. }
  set (a1 := HR rnd h) in *. set (a2 := MN rnd mi) in *. set (a3 := SEC rnd s) in *. set (a4 := US rnd us) in *. clearbody a1 a2 a3 a4.
  unfold fadd, fround. 
  destruct (NN (a1 + a2) ltac:(split; lra)) as [A5 B5]. set (a5 := rnd (a1 + a2)) in *.
  destruct (NN (a5 + a3) ltac:(split; lra)) as [A6 B6]. set (a6 := rnd (a5 + a3)) in *.
  destruct (NN (a6 + a4) ltac:(split; lra)) as [A7 B7]. set (a7 := rnd (a6 + a4)) in *.
  pose proof (qround6_err a7) as Q6. apply Qabs_le_iff in Q6.
  assert (Q0 : 0 <= qround 6 a7).
  { unfold qround. change (10 ^ Zpos 6)%Z with 1000000%Z. rewrite DV. assert (0 <= rne (a7 * inject_Z 1000000))%Z.
    { pose proof (rne_err (a7 * inject_Z 1000000)) as R. apply Qabs_le_iff in R. change (inject_Z 1000000) with 1000000 in *. set (z := rne _) in *.
      assert (-1 < z)%Z; [|lia]. byQ. }
    assert (X : 0 <= inject_Z (rne (a7 * inject_Z 1000000))) by (change 0 with (inject_Z 0); rewrite <- Zle_Qle; assumption). lra. }
  set (q := qround 6 a7) in *. destruct (NN q ltac:(split; lra)) as [A8 B8]. set (a8 := rnd q) in *.
  pose proof (near_k rnd N 5 (d + a8) (1 # 562949953421312) ltac:(apply Qabs_le_iff; change (2 ^ 5) with 32; split; lra) ltac:(discriminate)) as A9.
  apply Qabs_le_iff. split; lra.
Qed.
End Clock4.
