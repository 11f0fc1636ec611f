(** TextProofs3.v -- ISO time texts. *)
From Coq Require Import ZArith QArith Qround Qabs List Bool Lia Lqa ZifyBool ZifyNat String Ascii.
From Verif Require Import Base Flt QUtil BaseModel MiscModel BadiModel BaseProofs TduModel DateModel TimeModel SpecTime TextModel SpecText TextProofs TextProofs2.
Import ListNotations.
Local Open Scope Z_scope.
Ltac Zify.zify_post_hook ::= Z.div_mod_to_equations.

Lemma value_cat a b : value (a ++ b) = value a * 10 ^ Z.of_nat (List.length b) + value b.
Proof.
  rewrite <- (rev_involutive b). induction (rev b) as [|x l IH]; [rewrite app_nil_r; cbn; lia|].
  cbn [rev]. rewrite app_assoc, !value_app, IH, app_length, Nat2Z.inj_add, Z.pow_add_r by lia. cbn [List.length]. change (10 ^ Z.of_nat 1) with 10. lia.
Qed.
Lemma split_one c s : count c s = 0%nat -> split c s = [s].
Proof.
  induction s as [|x r IH]; intro H; [reflexivity|]. unfold count in H. cbn [filter] in H. cbn [split]. rewrite (Z.eqb_sym x c). destruct (c =? x); [discriminate|].
  rewrite IH by exact H. reflexivity.
Qed.
Lemma split_sep c s t : count c s = 0%nat -> count c t = 0%nat -> split c (s ++ c :: t) = [s; t].
Proof.
  induction s as [|x r IH]; intros H K.
  - cbn [app split]. rewrite Z.eqb_refl, split_one by exact K. reflexivity.
  - unfold count in H. cbn [filter] in H. cbn [app split]. rewrite (Z.eqb_sym x c). destruct (c =? x); [discriminate|]. rewrite IH by assumption. reflexivity.
Qed.
Lemma lstrip_id s : count 32 s = 0%nat -> lstrip s = s.
Proof. destruct s as [|x r]; [reflexivity|]. unfold count. cbn [filter lstrip]. rewrite Z.eqb_sym. destruct (x =? 32); [discriminate|reflexivity]. Qed.
Lemma count_rev c s : count c (rev s) = count c s.
Proof. induction s as [|x r IH]; [reflexivity|]. cbn [rev]. rewrite count_app, IH. change (x :: r) with ([x] ++ r). rewrite (count_app c [x] r). lia. Qed.
Lemma strip_id s : count 32 s = 0%nat -> strip s = s.
Proof. intro H. unfold strip. rewrite (lstrip_id s H), (lstrip_id (rev s)) by (rewrite count_rev; exact H). apply rev_involutive. Qed.

Section T3.
Variable rnd : Q -> Q.
Hypothesis N : Nearest rnd.

Lemma pyfloat_int s : forallb is_digit s = true -> s <> [] -> pyfloat rnd s = Ok (rnd (inject_Z (value s))).
Proof.
  intros D E. unfold pyfloat. rewrite strip_id, split_one by (apply count_digits; [exact D|reflexivity]).
  unfold digits_int. destruct s as [|c r]; [congruence|]. rewrite D. reflexivity.
Qed.
Lemma pyfloat_frac i f : forallb is_digit i = true -> forallb is_digit f = true -> i ++ f <> [] ->
  pyfloat rnd (i ++ 46 :: f) = Ok (rnd (inject_Z (value (i ++ f)) / inject_Z (10 ^ Z.of_nat (List.length f)))).
Proof.
  intros I F E. unfold pyfloat.
  assert (S : count 32 (i ++ 46 :: f) = 0%nat). { change (46 :: f) with ([46] ++ f). rewrite !count_app, (count_digits 32 i I), (count_digits 32 f F) by reflexivity. reflexivity. }
  rewrite (strip_id _ S), split_sep by (apply count_digits; [assumption|reflexivity]).
  rewrite forallb_app, I, F. destruct (i ++ f) eqn:Q; [congruence|]. rewrite <- Q. reflexivity.
Qed.
Lemma digit_dot z k : (48 + z / 10 ^ k mod 10 =? 46) = false.
Proof. pose proof (Z.mod_pos_bound (z / 10 ^ k) 10 ltac:(lia)). lia. Qed.

(** the characters of the part after the T *)
Definition timec (s : text) : Prop := existsb (fun c => negb (is_digit c) && negb ((c =? 84) || (c =? 32) || (c =? 58) || (c =? 46))) s = false /\ count 84 s = 0%nat /\ count 32 s = 0%nat.
Lemma timec_app a b : timec a -> timec b -> timec (a ++ b).
Proof. intros (A & B & C) (A' & B' & C'). unfold timec. rewrite existsb_app, !count_app, A, B, C, A', B', C'. tauto. Qed.
Lemma timec_columns w z : timec (columns w z).
Proof. unfold timec. rewrite existsb_columns, !count_columns; [tauto|reflexivity|reflexivity|]. intros c H. rewrite H. reflexivity. Qed.
Lemma timec_colon x : timec (colon x).
Proof. destruct x; repeat split. Qed.
Lemma timec_dot : timec (str ".").
Proof. repeat split. Qed.

Lemma parse_sep c s : (c = 84 \/ c = 32) -> timec s -> (count 58 s < 3)%nat -> (count 46 s <= 1)%nat -> (2 <= List.length s)%nat ->
  parse_time rnd (c :: s) = let* t := parse_time_tail rnd (84 :: s) in Ok (Some t).
Proof.
  intros C (B & T0 & S0) CC PC L. unfold parse_time. cbn [existsb]. rewrite B.
  replace (negb (is_digit c) && negb ((c =? 84) || (c =? 32) || (c =? 58) || (c =? 46))) with false by (destruct C as [->| ->]; reflexivity). cbn [orb].
  assert (K : forall x, count x (c :: s) = ((if (x =? c)%Z then 1 else 0) + count x s)%nat) by (intro x; unfold count; cbn [filter]; destruct (x =? c); reflexivity).
  assert (K' : forall x, x <> 84 -> count x (84 :: s) = count x s) by (intros x X; unfold count; cbn [filter]; destruct (Z.eqb_spec x 84); [contradiction|reflexivity]).
  rewrite !K, T0, S0.
  assert (S2 : (2 <? List.length (84%Z :: s))%nat = true) by (apply Nat.ltb_lt; cbn [List.length]; lia).
  destruct C as [->| ->]; cbn [Z.eqb Pos.eqb Nat.add Nat.eqb]; change (0 <? 1)%nat with true; change (0 <? 0)%nat with false;
    cbn [andb orb negb passert bind skipn Z.eqb Pos.eqb];
    rewrite !K' by lia; rewrite (proj2 (Nat.ltb_lt _ _) CC), (proj2 (Nat.leb_le _ _) PC), S2; reflexivity.
Qed.

Definition frac_text (w : nat) (f : Z) : list Z := match w with O => [] | _ => str "." ++ columns w f end.
Lemma timec_frac w f : timec (frac_text w f).
Proof. destruct w; [repeat split|]. apply timec_app; [apply timec_dot|apply timec_columns]. Qed.
(** the value of the seconds *)
Definition second_of (s : Z) (w : nat) (f : Z) : Q := rnd (inject_Z (s * 10 ^ Z.of_nat w + f) / inject_Z (10 ^ Z.of_nat w)).

Lemma dec_seconds s w f : 0 <= s < 100 -> 0 <= f < 10 ^ Z.of_nat w -> exists q, pyfloat rnd (columns 2 s ++ frac_text w f) = Ok q /\ q == second_of s w f.
Proof.
  intros SR F. destruct w as [|w].
  - cbn [frac_text]. rewrite app_nil_r, pyfloat_int; [|apply columns_digits|discriminate]. eexists. split; [reflexivity|].
    rewrite value_columns by (cbn; lia). unfold second_of. apply near_proper; [exact N|]. cbn in F |- *. replace (s * 1 + f) with s by lia. unfold Qeq. cbn. lia.
  - change (frac_text (S w) f) with (46 :: columns (S w) f). rewrite pyfloat_frac; [|apply columns_digits|apply columns_digits|discriminate].
    eexists. split; [reflexivity|]. rewrite value_cat, !value_columns, columns_len by (first [exact F|cbn; lia]). reflexivity.
Qed.

Lemma tail_hms x h mi s w f : 0 <= h < 100 -> 0 <= mi < 100 -> 0 <= s < 100 -> 0 <= f < 10 ^ Z.of_nat w ->
  exists q, parse_time_tail rnd (84 :: columns 2 h ++ colon x ++ columns 2 mi ++ colon x ++ columns 2 s ++ frac_text w f) = Ok (h, mi, q) /\ q == second_of s w f.
Proof.
  intros H M S F. destruct (dec_seconds s w f S F) as (q & Q & E). exists q. split; [|exact E]. unfold parse_time_tail.
  assert (FC : count 58 (frac_text w f) = 0%nat) by (destruct w; [reflexivity|]; cbn [frac_text]; rewrite count_app, count_columns by reflexivity; reflexivity).
  destruct x; cbn [colon].
  - replace (count 58 _) with 2%nat. 2:{ symmetry. change (84 :: columns 2 h ++ str ":" ++ columns 2 mi ++ str ":" ++ columns 2 s ++ frac_text w f) with ([84] ++ columns 2 h ++ str ":" ++ columns 2 mi ++ str ":" ++ columns 2 s ++ frac_text w f).
      rewrite !count_app, !count_columns, FC by reflexivity. reflexivity. }
    cbn [Nat.eqb Nat.add]. replace (slice 1 3 _) with (columns 2 h) by reflexivity. replace (slice 4 6 _) with (columns 2 mi) by reflexivity.
    rewrite !pyint_columns by (cbn; lia). cbn [bind].
    assert (L : exists k, List.length (84 :: columns 2 h ++ str ":" ++ columns 2 mi ++ str ":" ++ columns 2 s ++ frac_text w f) = (9 + k)%nat) by (eexists; reflexivity).
    destruct L as [k L]. rewrite L. cbn [Nat.ltb Nat.leb Nat.add Nat.eqb].
    replace (is_dot _ 3) with false by reflexivity. replace (is_dot _ 6) with false by reflexivity.
    replace (is_dot _ 8) with false by (symmetry; exact (digit_dot s (Z.of_nat 0))).
    replace (skipn 7 _) with (columns 2 s ++ frac_text w f) by reflexivity. rewrite Q. reflexivity.
  - cbn [app]. replace (count 58 _) with 0%nat. 2:{ symmetry. change (84 :: columns 2 h ++ columns 2 mi ++ columns 2 s ++ frac_text w f) with ([84] ++ columns 2 h ++ columns 2 mi ++ columns 2 s ++ frac_text w f).
      rewrite !count_app, !count_columns, FC by reflexivity. reflexivity. }
    cbn [Nat.eqb Nat.add]. replace (slice 1 3 _) with (columns 2 h) by reflexivity. replace (slice 3 5 _) with (columns 2 mi) by reflexivity.
    rewrite !pyint_columns by (cbn; lia). cbn [bind].
    assert (L : exists k, List.length (84 :: columns 2 h ++ columns 2 mi ++ columns 2 s ++ frac_text w f) = (7 + k)%nat) by (eexists; reflexivity).
    destruct L as [k L]. rewrite L. cbn [Nat.ltb Nat.leb Nat.add Nat.eqb].
    replace (is_dot _ 3) with false by (symmetry; exact (digit_dot mi (Z.of_nat 1))).
    replace (is_dot _ 5) with false by (symmetry; exact (digit_dot s (Z.of_nat 1))).
    replace (skipn 5 _) with (columns 2 s ++ frac_text w f) by reflexivity. rewrite Q. cbn [bind]. destruct (is_dot _ 7); reflexivity.
Qed.
Lemma tail_hm x h mi : 0 <= h < 100 -> 0 <= mi < 100 -> parse_time_tail rnd (84 :: columns 2 h ++ colon x ++ columns 2 mi) = Ok (h, mi, 0%Q).
Proof.
  intros H M. unfold parse_time_tail. destruct x; cbn [colon].
  - replace (count 58 _) with 1%nat. 2:{ symmetry. change (84 :: columns 2 h ++ str ":" ++ columns 2 mi) with ([84] ++ columns 2 h ++ str ":" ++ columns 2 mi).
      rewrite !count_app, !count_columns by reflexivity. reflexivity. }
    cbn [Nat.eqb Nat.add]. replace (slice 1 3 _) with (columns 2 h) by reflexivity. replace (slice 4 6 _) with (columns 2 mi) by reflexivity.
    rewrite !pyint_columns by (cbn; lia). reflexivity.
  - cbn [app]. replace (count 58 _) with 0%nat. 2:{ symmetry. change (84 :: columns 2 h ++ columns 2 mi) with ([84] ++ columns 2 h ++ columns 2 mi). rewrite !count_app, !count_columns by reflexivity. reflexivity. }
    cbn [Nat.eqb Nat.add]. replace (slice 1 3 _) with (columns 2 h) by reflexivity. replace (slice 3 5 _) with (columns 2 mi) by reflexivity.
    rewrite !pyint_columns by (cbn; lia). cbn [bind].
    replace (is_dot _ 3) with false by (symmetry; exact (digit_dot mi (Z.of_nat 1))). reflexivity.
Qed.
Lemma tail_h h : 0 <= h < 100 -> parse_time_tail rnd (84 :: columns 2 h) = Ok (h, 0, 0%Q).
Proof.
  intros H. unfold parse_time_tail. replace (slice 1 3 _) with (columns 2 h) by reflexivity. rewrite pyint_columns by (cbn; lia). reflexivity.
Qed.
(** a fraction of a minute, of an hour *)
Lemma dec_frac w f : (0 < w)%nat -> 0 <= f < 10 ^ Z.of_nat w -> pyfloat rnd (str "." ++ columns w f) = Ok (rnd (inject_Z f / inject_Z (10 ^ Z.of_nat w))).
Proof.
  intros W F. change (str "." ++ columns w f) with ([] ++ 46 :: columns w f). rewrite pyfloat_frac; [|reflexivity|apply columns_digits|].
  - cbn [app]. rewrite value_columns, columns_len by exact F. reflexivity.
  - cbn [app]. intro E. pose proof (columns_len w f) as L. rewrite E in L. cbn in L. lia.
Qed.
Lemma tail_hmf x h mi w f : 0 <= h < 100 -> 0 <= mi < 100 -> (0 < w)%nat -> 0 <= f < 10 ^ Z.of_nat w ->
  parse_time_tail rnd (84 :: columns 2 h ++ colon x ++ columns 2 mi ++ str "." ++ columns w f) = Ok (h, mi, fmul rnd (rnd (inject_Z f / inject_Z (10 ^ Z.of_nat w))) 60).
Proof.
  intros H M W F. unfold parse_time_tail. destruct x; cbn [colon].
  - replace (count 58 _) with 1%nat. 2:{ symmetry. change (84 :: columns 2 h ++ str ":" ++ columns 2 mi ++ str "." ++ columns w f) with ([84] ++ columns 2 h ++ str ":" ++ columns 2 mi ++ str "." ++ columns w f).
      rewrite !count_app, !count_columns by reflexivity. reflexivity. }
    cbn [Nat.eqb Nat.add]. replace (slice 1 3 _) with (columns 2 h) by reflexivity. replace (slice 4 6 _) with (columns 2 mi) by reflexivity.
    rewrite !pyint_columns by (cbn; lia). cbn [bind].
    assert (L : exists k, List.length (84 :: columns 2 h ++ str ":" ++ columns 2 mi ++ str "." ++ columns w f) = (7 + k)%nat) by (eexists; reflexivity).
    destruct L as [k L]. rewrite L. cbn [Nat.ltb Nat.leb Nat.add Nat.eqb].
    replace (is_dot _ 3) with false by reflexivity. replace (is_dot _ 6) with true by reflexivity.
    replace (skipn 6 _) with (str "." ++ columns w f) by reflexivity. rewrite dec_frac by assumption. reflexivity.
  - cbn [app]. replace (count 58 _) with 0%nat. 2:{ symmetry. change (84 :: columns 2 h ++ columns 2 mi ++ str "." ++ columns w f) with ([84] ++ columns 2 h ++ columns 2 mi ++ str "." ++ columns w f).
      rewrite !count_app, !count_columns by reflexivity. reflexivity. }
    cbn [Nat.eqb Nat.add]. replace (slice 1 3 _) with (columns 2 h) by reflexivity. replace (slice 3 5 _) with (columns 2 mi) by reflexivity.
    rewrite !pyint_columns by (cbn; lia). cbn [bind].
    assert (L : exists k, List.length (84 :: columns 2 h ++ columns 2 mi ++ str "." ++ columns w f) = (6 + k)%nat) by (eexists; reflexivity).
    destruct L as [k L]. rewrite L. cbn [Nat.ltb Nat.leb Nat.add Nat.eqb].
    replace (is_dot _ 3) with false by (symmetry; exact (digit_dot mi (Z.of_nat 1))). replace (is_dot _ 5) with true by reflexivity.
    replace (skipn 5 _) with (str "." ++ columns w f) by reflexivity. rewrite dec_frac by assumption. reflexivity.
Qed.
Lemma tail_hf h w f : 0 <= h < 100 -> (0 < w)%nat -> 0 <= f < 10 ^ Z.of_nat w ->
  parse_time_tail rnd (84 :: columns 2 h ++ str "." ++ columns w f) =
  let ph := fmul rnd (rnd (inject_Z f / inject_Z (10 ^ Z.of_nat w))) 60 in Ok (h, Qfloor ph, fmul rnd (fmod1 rnd ph) 60).
Proof.
  intros H W F. unfold parse_time_tail.
  replace (slice 1 3 _) with (columns 2 h) by reflexivity. rewrite pyint_columns by (cbn; lia). cbn [bind].
  assert (L : exists k, List.length (84 :: columns 2 h ++ str "." ++ columns w f) = (4 + k)%nat) by (eexists; reflexivity).
  destruct L as [k L]. rewrite L. cbn [Nat.ltb Nat.leb Nat.add]. replace (is_dot _ 3) with true by reflexivity.
  replace (skipn 3 _) with (str "." ++ columns w f) by reflexivity. rewrite dec_frac by assumption. reflexivity.
Qed.
End T3.
