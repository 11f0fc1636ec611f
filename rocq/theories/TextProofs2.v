(** TextProofs2.v -- ISO date texts. *)
From Coq Require Import ZArith QArith List Bool Lia ZifyBool ZifyNat String Ascii.
From Verif Require Import Base BaseModel MiscModel BadiModel TduModel DateModel TimeModel TextModel SpecText TextProofs.
Import ListNotations.
Local Open Scope Z_scope.
Ltac Zify.zify_post_hook ::= Z.div_mod_to_equations.

Ltac ctext := repeat (rewrite ?count_app, ?count_columns by reflexivity); cbn [count filter Z.eqb Pos.eqb List.length Nat.add].

Lemma head_columns w z : (0 < w)%nat -> exists c r, columns w z = c :: r /\ is_digit c = true.
Proof.
  intro W. pose proof (columns_len w z) as L. pose proof (columns_digits w z) as D. destruct (columns w z) as [|c r]; [cbn in L; lia|].
  exists c, r. split; [reflexivity|]. cbn in D. apply andb_true_iff in D. tauto.
Qed.

Section T2.
Variable rnd : Q -> Q.
Variable m : Q -> Q -> Q -> Q.
Notation bad := (fun c => negb (is_digit c) && negb ((c =? 45) || (c =? 87))).
Lemma bad_digit c : is_digit c = true -> bad c = false.
Proof. intro H. cbn beta. rewrite H. reflexivity. Qed.

Lemma parse_pos y tl : 0 <= y <= 1161 -> existsb bad tl = false ->
  parse_date rnd m (columns 4 y ++ tl) = parse_date_tail rnd m y (columns 4 y ++ tl).
Proof.
  intros Y B. unfold parse_date. rewrite existsb_app, (existsb_columns 4 y bad bad_digit), B. cbn [orb].
  destruct (head_columns 4 y ltac:(lia)) as (c & r & E & D). destruct (digit_not_space c D) as (_ & N & _).
  assert (P : pyint (slice 0 4 (columns 4 y ++ tl)) = Ok y).
  { replace (slice 0 4 (columns 4 y ++ tl)) with (columns 4 y) by reflexivity. apply pyint_columns; [lia|]. cbn; lia. }
  rewrite E in P |- *. cbn [app] in P |- *. rewrite N, P. cbn [bind].
  replace ((MINYEAR <=? y) && (y <=? MAXYEAR)) with true by (unfold MINYEAR, MAXYEAR; lia). reflexivity.
Qed.
Lemma parse_neg y tl : -1842 <= y <= -1 -> existsb bad tl = false ->
  parse_date rnd m (45 :: columns 4 (- y) ++ tl) = parse_date_tail rnd m y (columns 4 (- y) ++ tl).
Proof.
  intros Y B. unfold parse_date. cbn [existsb]. rewrite existsb_app, (existsb_columns 4 (- y) bad bad_digit), B. cbn [orb].
  replace (bad 45) with false by reflexivity. cbn [orb Z.eqb Pos.eqb].
  replace (slice 0 5 (45 :: columns 4 (- y) ++ tl)) with (45 :: columns 4 (- y)) by reflexivity.
  rewrite pyint_minus by (cbn; lia). cbn [bind]. rewrite Z.opp_involutive.
  replace ((MINYEAR <=? y) && (y <=? MAXYEAR)) with true by (unfold MINYEAR, MAXYEAR; lia). reflexivity.
Qed.

Lemma tail_ymd y yy mo d : 0 <= mo < 100 -> 0 <= d < 100 ->
  parse_date_tail rnd m y (columns 4 yy ++ str "-" ++ columns 2 mo ++ str "-" ++ columns 2 d) = Ok [y; mo; d].
Proof.
  intros M D. unfold parse_date_tail. replace (count 87 _) with 0%nat by (symmetry; ctext; reflexivity).
  replace (count 45 _) with 2%nat by (symmetry; ctext; reflexivity). cbn [Nat.leb Nat.eqb andb negb passert bind].
  replace (slice 5 7 _) with (columns 2 mo) by reflexivity. replace (slice 8 10 _) with (columns 2 d) by reflexivity.
  rewrite !pyint_columns by (cbn; lia). reflexivity.
Qed.
Lemma tail_ym y yy mo : 0 <= mo < 100 -> parse_date_tail rnd m y (columns 4 yy ++ str "-" ++ columns 2 mo) = Ok [y; mo; 1].
Proof.
  intros M. unfold parse_date_tail. replace (count 87 _) with 0%nat by (symmetry; ctext; reflexivity).
  replace (count 45 _) with 1%nat by (symmetry; ctext; reflexivity). cbn [Nat.leb Nat.eqb andb negb passert bind].
  replace (List.length _) with 7%nat by reflexivity. cbn [Nat.eqb andb].
  replace (slice 5 7 _) with (columns 2 mo) by reflexivity. rewrite pyint_columns by (cbn; lia). reflexivity.
Qed.
(** the second digit of the day only *)
Lemma tail_basic y yy mo d : 0 <= mo < 100 -> 0 <= d < 100 ->
  parse_date_tail rnd m y (columns 4 yy ++ columns 2 mo ++ columns 2 d) = Ok [y; mo; d mod 10].
Proof.
  intros M D. unfold parse_date_tail. replace (count 87 _) with 0%nat by (symmetry; ctext; reflexivity).
  replace (count 45 _) with 0%nat by (symmetry; ctext; reflexivity). cbn [Nat.leb Nat.eqb andb negb passert bind].
  replace (List.length _) with 8%nat by reflexivity. cbn [Nat.eqb andb].
  replace (slice 4 6 _) with (columns 2 mo) by reflexivity. rewrite pyint_columns by (cbn; lia). cbn [bind].
  replace (slice 7 9 _) with (columns 1 d) by reflexivity.
  replace (columns 1 d) with (columns 1 (d mod 10)). 2:{ unfold columns. cbn [seq rev map app]. rewrite Z.pow_0_r, !Z.div_1_r, Z.mod_mod by lia. reflexivity. }
  rewrite pyint_columns by (cbn; lia). reflexivity.
Qed.
Lemma tail_doy (dash : bool) y yy n leap : is_leap_badi (year_table rnd m) y = Ok leap -> 0 <= n < 1000 ->
  parse_date_tail rnd m y (columns 4 yy ++ (if dash then str "-" else []) ++ columns 3 n) =
  let '(mo, d) := find_month (month_days leap) n 0 in Ok [y; mo; d].
Proof.
  intros L R. unfold parse_date_tail. destruct dash.
  - replace (count 87 _) with 0%nat by (symmetry; ctext; reflexivity).
    replace (count 45 _) with 1%nat by (symmetry; ctext; reflexivity). cbn [Nat.leb Nat.eqb andb negb passert bind].
    replace (List.length _) with 8%nat by reflexivity. cbn [Nat.eqb andb orb]. rewrite L. cbn [bind].
    replace (slice 5 8 _) with (columns 3 n) by reflexivity. rewrite pyint_columns by (cbn; lia). reflexivity.
  - cbn [app]. replace (count 87 _) with 0%nat by (symmetry; ctext; reflexivity).
    replace (count 45 _) with 0%nat by (symmetry; ctext; reflexivity). cbn [Nat.leb Nat.eqb andb negb passert bind].
    replace (List.length _) with 7%nat by reflexivity. cbn [Nat.eqb andb orb]. rewrite L. cbn [bind].
    replace (slice 4 7 _) with (columns 3 n) by reflexivity. rewrite pyint_columns by (cbn; lia). reflexivity.
Qed.
Lemma tail_week (dash : bool) y yy w d : 0 <= w < 100 -> 0 <= d < 10 ->
  parse_date_tail rnd m y (columns 4 yy ++ (if dash then str "-" else []) ++ str "W" ++ columns 2 w ++ (if dash then str "-" else []) ++ columns 1 d) =
  let* b := isoweek_to_badi rnd m true y w d in Ok (firstn 3 (bdate_fields b)).
Proof.
  intros W D. unfold parse_date_tail.
  assert (V : match columns 1 d with [] => 1 | _ => if forallb is_digit (columns 1 d) then value (columns 1 d) else 1 end = d).
  { rewrite columns_digits, value_columns by (cbn; lia). reflexivity. }
  destruct dash.
  - replace (count 87 _) with 1%nat by (symmetry; ctext; reflexivity).
    replace (count 45 _) with 2%nat by (symmetry; ctext; reflexivity). cbn [Nat.leb Nat.eqb andb negb passert bind].
    replace (List.length _) with 10%nat by reflexivity. cbn [Nat.eqb Nat.leb Nat.ltb Nat.add andb orb negb passert bind].
    replace (slice 6 8 _) with (columns 2 w) by reflexivity. rewrite pyint_columns by (cbn; lia). cbn [bind].
    replace (skipn 9 _) with (columns 1 d) by reflexivity. rewrite V. reflexivity.
  - cbn [app]. replace (count 87 _) with 1%nat by (symmetry; ctext; reflexivity).
    replace (count 45 _) with 0%nat by (symmetry; ctext; reflexivity). cbn [Nat.leb Nat.eqb andb negb passert bind].
    replace (List.length _) with 8%nat by reflexivity. cbn [Nat.eqb Nat.leb Nat.ltb Nat.add andb orb negb passert bind].
    replace (slice 5 7 _) with (columns 2 w) by reflexivity. rewrite pyint_columns by (cbn; lia). cbn [bind].
    replace (skipn 7 _) with (columns 1 d) by reflexivity. rewrite V. reflexivity.
Qed.
End T2.
