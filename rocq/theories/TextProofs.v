(** TextProofs.v -- digits, numbers and the Python text primitives. *)
From Coq Require Import ZArith QArith List Bool Lia ZifyBool ZifyNat String Ascii.
From Verif Require Import Base BaseModel MiscModel BadiModel TduModel DateModel TimeModel TextModel SpecText.
Import ListNotations.
Local Open Scope Z_scope.
Ltac Zify.zify_post_hook ::= Z.div_mod_to_equations.

Lemma columns_S w z : 0 <= z -> columns (S w) z = columns w (z / 10) ++ [48 + z mod 10].
Proof.
  intro P. unfold columns. rewrite <- cons_seq, <- seq_shift. cbn [rev]. rewrite map_app, <- map_rev, map_map. f_equal.
  - apply map_ext. intro i. rewrite Zdiv_Zdiv by lia. rewrite Nat2Z.inj_succ, Z.pow_succ_r by lia. reflexivity.
  - cbn [map]. rewrite Z.pow_0_r, Z.div_1_r. reflexivity.
Qed.
Lemma columns_0 z : columns 0 z = [].
Proof. reflexivity. Qed.
Lemma columns_len w z : List.length (columns w z) = w.
Proof. unfold columns. rewrite map_length, rev_length, seq_length. reflexivity. Qed.
Lemma columns_digits w z : forallb is_digit (columns w z) = true.
Proof.
  apply forallb_forall. intros c I. apply in_map_iff in I as (i & <- & _). unfold is_digit.
  pose proof (Z.mod_pos_bound (z / 10 ^ Z.of_nat i) 10 ltac:(lia)). apply andb_true_iff. split; apply Z.leb_le; lia.
Qed.
Lemma value_app a c : value (a ++ [c]) = 10 * value a + (c - 48).
Proof. unfold value. rewrite fold_left_app. reflexivity. Qed.
Lemma value_columns w : forall z, 0 <= z < 10 ^ Z.of_nat w -> value (columns w z) = z.
Proof.
  induction w as [|w IH]; intros z R.
  - cbn in R. rewrite columns_0. cbn. lia.
  - rewrite Nat2Z.inj_succ, Z.pow_succ_r in R by lia. rewrite columns_S, value_app, IH by lia. lia.
Qed.
Lemma columns_inj w x y : 0 <= x < 10 ^ Z.of_nat w -> 0 <= y < 10 ^ Z.of_nat w -> columns w x = columns w y -> x = y.
Proof. intros X Y E. rewrite <- (value_columns w x X), <- (value_columns w y Y), E. reflexivity. Qed.

Lemma dec_fuel_columns w : forall n z acc, 0 <= z < 10 ^ Z.of_nat w -> (0 < w)%nat -> 0 <= z < 2 ^ Z.of_nat n -> (0 < n)%nat ->
  exists D, dec_fuel n z acc = D ++ acc /\ (List.length D <= w)%nat /\ repeat 48 (w - List.length D) ++ D = columns w z.
Proof.
  induction w as [|w IH]; intros n z acc R Hw F Hn; [lia|].
  destruct n as [|n]; [lia|]. rewrite Nat2Z.inj_succ, Z.pow_succ_r in R, F by lia.
  cbn [dec_fuel]. destruct (z / 10 =? 0) eqn:E.
  - apply Z.eqb_eq in E. exists [48 + z mod 10]. split; [reflexivity|]. split; [cbn; lia|].
    rewrite columns_S, E by lia. cbn [List.length]. replace (S w - 1)%nat with w by lia. f_equal.
    unfold columns.
    assert (forall l : list nat, repeat 48 (List.length l) = map (fun i => 48 + 0 / 10 ^ Z.of_nat i mod 10) l) as H.
    { induction l as [|a l IHl]; [reflexivity|]. cbn [List.length repeat map]. rewrite IHl, Z.div_0_l; [reflexivity|]. apply Z.pow_nonzero; lia. }
    specialize (H (rev (seq 0 w))). rewrite rev_length, seq_length in H. exact H.
  - apply Z.eqb_neq in E.
    assert (W : (0 < w)%nat) by (destruct w; [cbn in R; lia|lia]).
    assert (M : (0 < n)%nat) by (destruct n; [cbn in F; lia|lia]).
    destruct (IH n (z / 10) (48 + z mod 10 :: acc) ltac:(lia) W ltac:(lia) M) as (D & A & L & C).
    exists (D ++ [48 + z mod 10]). rewrite A, <- app_assoc. split; [reflexivity|]. rewrite app_length. cbn [List.length]. split; [lia|].
    rewrite columns_S by lia. rewrite <- C, app_assoc. replace (S w - (List.length D + 1))%nat with (w - List.length D)%nat by lia. reflexivity.
Qed.
Lemma pad_dec w z : (0 < w)%nat -> 0 <= z < 10 ^ Z.of_nat w -> pad w (dec z) = columns w z.
Proof.
  intros W R. unfold dec. destruct (dec_fuel_columns w (S (Z.to_nat (Z.log2 z))) z [] R W) as (D & A & L & C); [|lia|].
  - split; [lia|]. destruct (Z.eq_dec z 0) as [->|]; [cbn; lia|]. rewrite Nat2Z.inj_succ, Z2Nat.id by apply Z.log2_nonneg.
    apply Z.log2_spec. lia.
  - rewrite A, app_nil_r. unfold pad. exact C.
Qed.
Lemma fmt0_columns w z : (0 < w)%nat -> 0 <= z < 10 ^ Z.of_nat w -> fmt0 w z = columns w z.
Proof. intros W R. unfold fmt0. destruct (Z.ltb_spec z 0); [lia|]. apply pad_dec; assumption. Qed.
Lemma dec_digits z : 0 <= z -> exists c r, dec z = c :: r /\ forallb is_digit (dec z) = true /\ value (dec z) = z.
Proof.
  intro P. set (w := S (Z.to_nat (Z.log2 z))).
  assert (F : z < 2 ^ Z.of_nat w). { destruct (Z.eq_dec z 0) as [->|]; [cbn; lia|]. unfold w. rewrite Nat2Z.inj_succ, Z2Nat.id by apply Z.log2_nonneg. apply Z.log2_spec. lia. }
  assert (R : z < 10 ^ Z.of_nat w). { eapply Z.lt_le_trans; [exact F|]. apply Z.pow_le_mono_l. lia. }
  unfold dec. fold w. destruct (dec_fuel_columns w w z [] ltac:(lia) ltac:(unfold w; lia) ltac:(lia) ltac:(unfold w; lia)) as (D & A & L & C).
  rewrite A, app_nil_r.
  pose proof (columns_digits w z) as G. rewrite <- C in G. rewrite forallb_app in G. apply andb_true_iff in G as [_ G].
  pose proof (value_columns w z ltac:(lia)) as V. rewrite <- C in V.
  assert (VZ : forall n s, value (repeat 48 n ++ s) = value s).
  { induction n; intro s; [reflexivity|]. unfold value in *. cbn [repeat app fold_left]. apply IHn. }
  rewrite VZ in V. destruct D as [|c r].
  - exfalso. unfold w in A. cbn [dec_fuel] in A. destruct (z / 10 =? 0); [discriminate|].
    assert (LL : forall n z acc, acc <> [] -> dec_fuel n z acc <> []).
    { induction n as [|n IHn]; intros z1 acc Q; cbn [dec_fuel]; [exact Q|]. destruct (z1 / 10 =? 0); [intro X; discriminate X|]. apply IHn. intro X; discriminate X. }
    refine (LL _ _ _ _ A). intro X; discriminate X.
  - exists c, r. repeat split; assumption.
Qed.

(** reading numbers *)
Lemma digit_not_space c : is_digit c = true -> (c =? 32) = false /\ (c =? 45) = false /\ (c =? 43) = false /\ (c =? 46) = false /\ (c =? 58) = false.
Proof. unfold is_digit. lia. Qed.
Lemma lstrip_digits s : forallb is_digit s = true -> lstrip s = s.
Proof. destruct s as [|c r]; [reflexivity|]. cbn. intro H. apply andb_true_iff in H as [H _]. destruct (digit_not_space c H) as [-> _]. reflexivity. Qed.
Lemma forallb_rev {A} (f : A -> bool) l : forallb f (rev l) = forallb f l.
Proof. induction l; [reflexivity|]. cbn. rewrite forallb_app, IHl. cbn. destruct (f a), (forallb f l); reflexivity. Qed.
Lemma strip_digits s : forallb is_digit s = true -> strip s = s.
Proof. intro H. unfold strip. rewrite (lstrip_digits s H), (lstrip_digits (rev s)) by (rewrite forallb_rev; exact H). apply rev_involutive. Qed.
Lemma pyint_digits s : forallb is_digit s = true -> s <> [] -> pyint s = Ok (value s).
Proof.
  intros H N. unfold pyint. rewrite strip_digits by assumption. destruct s as [|c r]; [congruence|].
  pose proof H as H'. cbn in H'. apply andb_true_iff in H' as [C _]. destruct (digit_not_space c C) as (_ & -> & -> & _).
  unfold digits_int. rewrite H. reflexivity.
Qed.
Lemma pyint_columns w z : (0 < w)%nat -> 0 <= z < 10 ^ Z.of_nat w -> pyint (columns w z) = Ok z.
Proof.
  intros W R. rewrite pyint_digits; [rewrite value_columns by assumption; reflexivity|apply columns_digits|].
  intro E. pose proof (columns_len w z) as L. rewrite E in L. cbn in L. lia.
Qed.
Lemma pyint_minus w z : (0 < w)%nat -> 0 <= z < 10 ^ Z.of_nat w -> pyint (45 :: columns w z) = Ok (- z).
Proof.
  intros W R. unfold pyint. assert (S : strip (45 :: columns w z) = 45 :: columns w z).
  { unfold strip. cbn [lstrip Z.eqb Pos.eqb]. cbn [rev].
    pose proof (columns_digits w z) as D. rewrite <- forallb_rev in D. pose proof (columns_len w z) as L. rewrite <- rev_length in L.
    destruct (rev (columns w z)) as [|c r] eqn:E; [cbn in L; lia|]. cbn [app lstrip].
    cbn in D. apply andb_true_iff in D as [D _]. destruct (digit_not_space c D) as [-> _].
    rewrite app_comm_cons, rev_app_distr, <- E, rev_involutive. reflexivity. }
  rewrite S. cbn [Z.eqb Pos.eqb]. unfold digits_int. pose proof (columns_len w z) as L. destruct (columns w z) as [|c r] eqn:E; [cbn in L; lia|].
  rewrite <- E, columns_digits, value_columns by assumption. reflexivity.
Qed.

(** filters over texts *)
Lemma count_app c a b : count c (a ++ b) = (count c a + count c b)%nat.
Proof. unfold count. rewrite filter_app, app_length. reflexivity. Qed.
Lemma count_digits c s : forallb is_digit s = true -> is_digit c = false -> count c s = 0%nat.
Proof.
  intros H C. unfold count. induction s as [|x r IH]; [reflexivity|]. cbn in H |- *. apply andb_true_iff in H as [X H].
  destruct (Z.eqb_spec c x) as [->|]; [congruence|]. apply IH, H.
Qed.
Lemma count_columns c w z : is_digit c = false -> count c (columns w z) = 0%nat.
Proof. apply count_digits, columns_digits. Qed.
Lemma existsb_columns w z f : (forall c, is_digit c = true -> f c = false) -> existsb f (columns w z) = false.
Proof.
  intro H. pose proof (columns_digits w z) as D. induction (columns w z) as [|x r IH]; [reflexivity|].
  cbn in D |- *. apply andb_true_iff in D as [X D]. rewrite H, IH by assumption. reflexivity.
Qed.

Lemma app_inj_len {A} (a b c d : list A) : a ++ c = b ++ d -> List.length a = List.length b -> a = b /\ c = d.
Proof.
  revert b. induction a as [|x a IH]; intros [|y b] E L; try discriminate L; [split; [reflexivity|exact E]|].
  cbn in E. injection E as -> E. destruct (IH b E) as [-> ->]; [cbn in L; congruence|]. split; reflexivity.
Qed.
