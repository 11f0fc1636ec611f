(** StrfProofs.v -- the scanner of strftime and the validation of time tuples. *)
From Coq Require Import ZArith QArith Qround Qabs List Bool Lia Lqa String.
From Coq Require Import ZifyBool ZifyNat ZifyN.
From Verif Require Import Base Flt QUtil BaseModel MiscModel BadiModel BaseProofs SunProofs SpecBadi BadiProofs BadiProofs2 BadiProofs3 DecProofs BadiProofs4 LongYear LongProofs BadiProofs5
  ClockProofs3 ClockProofs4 TduModel DateModel SpecDate TduProofs TduProofs2 TduProofs3 DateProofs
  TimeModel SpecTime TimeProofs TextModel SpecText TextProofs StrfModel SpecStrf.
Import ListNotations.
Local Open Scope Z_scope.
Ltac Zify.zify_post_hook ::= Z.div_mod_to_equations.

Lemma in_mem c s : In c s <-> mem c s = true.
Proof.
  unfold mem. rewrite existsb_exists. split; [intro I; exists c; split; [exact I|lia]|]. intros (x & I & E). apply Z.eqb_eq in E. subst. exact I.
Qed.
Lemma letters_valid c : In c (str "aAbBcCdDefGhHIjkKlmMnprSTuUVWxXyYzZ") -> mem c VALID_CHARS = true /\ c <> 37 /\ c <> 45 /\ c <> 58.
Proof.
  intro I. assert (A : forallb (fun c => mem c VALID_CHARS && negb (c =? 37) && negb (c =? 45) && negb (c =? 58)) (str "aAbBcCdDefGhHIjkKlmMnprSTuUVWxXyYzZ") = true) by reflexivity.
  rewrite forallb_forall in A. specialize (A c I). rewrite !andb_true_iff, !negb_true_iff in A. destruct A as (((A & B) & C) & E). repeat split; [exact A|lia..].
Qed.
Lemma mods_valid md c : md = 45 /\ In c (str "dHjlmMSy") \/ md = 58 /\ In c (str "KVz") ->
  mem c VALID_CHARS = true /\ c <> 37 /\ mem md [45; 58] = true /\ md <> 37 /\
  (negb (mem c VALID_CHARS) || ((md =? 45) && negb (mem c (lit "dHjlmMSy"))) || ((md =? 58) && negb (mem c (lit "KVz")))) = false.
Proof.
  intros [[-> I]|[-> I]].
  - assert (A : forallb (fun c => mem c VALID_CHARS && negb (c =? 37)) (str "dHjlmMSy") = true) by reflexivity.
    rewrite forallb_forall in A. specialize (A c I). apply in_mem in I. change (str "dHjlmMSy") with (lit "dHjlmMSy") in I. rewrite I.
    apply andb_true_iff in A as [A B]. rewrite negb_true_iff in B. rewrite A. repeat split; try reflexivity; lia.
  - assert (A : forallb (fun c => mem c VALID_CHARS && negb (c =? 37)) (str "KVz") = true) by reflexivity.
    rewrite forallb_forall in A. specialize (A c I). apply in_mem in I. change (str "KVz") with (lit "KVz") in I. rewrite I.
    apply andb_true_iff in A as [A B]. rewrite negb_true_iff in B. rewrite A. repeat split; try reflexivity; lia.
Qed.
Lemma mark_mem c : mem c [37; 45; 58] = is_mark c.
Proof. unfold mem, is_mark. cbn [existsb]. rewrite orb_false_r, orb_assoc. reflexivity. Qed.

Lemma last_cons {A} (x : A) r d : last (x :: r) d = last r x.
Proof. revert x d. induction r as [|y r IH]; intros x d; [reflexivity|]. change (last (x :: y :: r) d) with (last (y :: r) d). rewrite (IH y d), (IH y x). reflexivity. Qed.

Section Loop.
Variable rnd : Q -> Q.
Variable m : Q -> Q -> Q -> Q.
Variables (lo : locale) (st : stm).

(** one step on a character that starts no directive *)
Lemma step_char prev ch r : ch <> 37 -> strftime_loop rnd m lo st prev (ch :: r) =
  let* rest := strftime_loop rnd m lo st ch r in Ok ((if is_mark prev then [] else [ch]) ++ rest).
Proof. intro C. cbn [strftime_loop]. rewrite mark_mem. destruct r; [reflexivity|]. replace (ch =? 37) with false by lia. reflexivity. Qed.

Definition pval (p : piece) : res text :=
  match p with L c => Ok [c] | D c => directive rnd m lo st c 0 | DM md c => directive rnd m lo st c md end.
Lemma cat_cons x l : cat (x :: l) = let* a := x in let* b := cat l in Ok (a ++ b).
Proof. destruct x; [|reflexivity]. cbn [cat bind]. destruct (cat l); reflexivity. Qed.
Lemma bind_ret {A} (x : res A) : (let* a := x in Ok a) = x.
Proof. destruct x; reflexivity. Qed.

Lemma loop_pieces l : Forall well_formed l -> forall prev tl,
  strftime_loop rnd m lo st prev (format_text l ++ tl) =
  let* a := cat (map pval (surviving prev l)) in
  let* b := strftime_loop rnd m lo st (last (map end_of l) prev) tl in Ok (a ++ b).
Proof.
  induction l as [|p l IH]; intros W prev tl.
  - cbn. symmetry. apply bind_ret.
  - inversion W as [|? ? W1 W2]; subst. specialize (IH W2).
    assert (LE : last (map end_of (p :: l)) prev = last (map end_of l) (end_of p)) by (cbn [map]; apply last_cons).
    rewrite LE. unfold format_text. cbn [flat_map surviving]. fold (format_text l). rewrite <- app_assoc. destruct p as [c|c|md c]; cbn [piece_text end_of].
    + cbn [app]. cbn in W1. rewrite step_char by exact W1. rewrite IH. rewrite map_app.
      destruct (is_mark prev); cbn [app map].
      * destruct (cat _); [|reflexivity]. cbn [bind]. destruct (strftime_loop _ _ _ _ _ tl); reflexivity.
      * rewrite cat_cons. cbn [pval bind]. destruct (cat _); [|reflexivity]. cbn [bind]. destruct (strftime_loop _ _ _ _ _ tl); reflexivity.
    + destruct (letters_valid c W1) as (V & N37 & N45 & N58).
      change ((str "%" ++ [c]) ++ format_text l ++ tl) with (37 :: c :: format_text l ++ tl).
      change (strftime_loop rnd m lo st prev (37 :: c :: format_text l ++ tl)) with
        (let* out := (if mem c [45; 58] then match format_text l ++ tl with c' :: _ => directive rnd m lo st c' c | [] => Err IndexError end else directive rnd m lo st c 0) in
         let* rest := strftime_loop rnd m lo st 37 (c :: format_text l ++ tl) in Ok (out ++ rest)).
      replace (mem c [45; 58]) with false by (symmetry; unfold mem; cbn [existsb]; lia).
      rewrite step_char by exact N37. change (is_mark 37) with true. cbn [app map]. rewrite IH, cat_cons. cbn [pval].
      destruct (directive _ _ _ _ c 0); [|reflexivity]. cbn [bind]. destruct (cat _); [|reflexivity]. cbn [bind]. destruct (strftime_loop _ _ _ _ _ tl); [|reflexivity].
      cbn [bind app]. rewrite app_assoc. reflexivity.
    + destruct (mods_valid md c W1) as (V & N37 & ME & NM & _).
      change ((str "%" ++ [md; c]) ++ format_text l ++ tl) with (37 :: md :: c :: format_text l ++ tl).
      change (strftime_loop rnd m lo st prev (37 :: md :: c :: format_text l ++ tl)) with
        (let* out := (if mem md [45; 58] then directive rnd m lo st c md else directive rnd m lo st md 0) in
         let* rest := strftime_loop rnd m lo st 37 (md :: c :: format_text l ++ tl) in Ok (out ++ rest)).
      rewrite ME. rewrite step_char by exact NM. change (is_mark 37) with true. rewrite step_char by exact N37.
      replace (is_mark md) with true by (symmetry; cbn in W1; unfold is_mark; lia).
      cbn [app map]. rewrite IH, cat_cons. cbn [pval].
      destruct (directive _ _ _ _ c md); [|reflexivity]. cbn [bind]. destruct (cat _); [|reflexivity]. cbn [bind]. destruct (strftime_loop _ _ _ _ _ tl); [|reflexivity].
      cbn [bind app]. rewrite app_assoc. reflexivity.
Qed.
End Loop.

Lemma check_char prev ch r : ch <> 37 -> check_format_loop prev (ch :: r) = check_format_loop ch r.
Proof. intro C. cbn [check_format_loop]. replace (ch =? 37) with false by lia. reflexivity. Qed.
Lemma check_pieces l : Forall well_formed l -> forall prev tl,
  check_format_loop prev (format_text l ++ tl) = check_format_loop (last (map end_of l) prev) tl.
Proof.
  induction l as [|p l IH]; intros W prev tl; [reflexivity|].
  inversion W as [|? ? W1 W2]; subst. specialize (IH W2).
  assert (LE : last (map end_of (p :: l)) prev = last (map end_of l) (end_of p)) by (cbn [map]; apply last_cons).
  rewrite LE. unfold format_text. cbn [flat_map]. fold (format_text l). rewrite <- app_assoc. destruct p as [c|c|md c]; cbn [piece_text end_of].
  - cbn [app]. cbn in W1. rewrite check_char by exact W1. apply IH.
  - destruct (letters_valid c W1) as (V & N37 & N45 & N58).
    change ((str "%" ++ [c]) ++ format_text l ++ tl) with (37 :: c :: format_text l ++ tl). remember (format_text l ++ tl) as r eqn:R.
    cbn [check_format_loop]. replace (mem c [45; 58]) with false by (symmetry; unfold mem; cbn [existsb]; lia). cbn [bind]. rewrite V.
    replace (c =? 45) with false by lia. replace (c =? 58) with false by lia. replace (c =? 37) with false by lia. cbn [negb orb andb bind].
    destruct ((37 =? 37) && negb (prev =? 37)); cbn [bind]; subst r; apply IH.
  - destruct (mods_valid md c W1) as (V & N37 & ME & NM & C).
    change ((str "%" ++ [md; c]) ++ format_text l ++ tl) with (37 :: md :: c :: format_text l ++ tl). remember (format_text l ++ tl) as r eqn:R.
    cbn [check_format_loop]. rewrite ME. cbn [bind]. rewrite C.
    replace (md =? 37) with false by lia. replace (c =? 37) with false by lia. cbn [andb bind].
    destruct ((37 =? 37) && negb (prev =? 37)); cbn [bind]; subst r; apply IH.
Qed.
Lemma last_format l d : l <> [] -> last (format_text l) d = last (map end_of l) d.
Proof.
  induction l as [|p l IH]; [congruence|]. intros _. destruct l as [|q l].
  - destruct p; reflexivity.
  - assert (Q : format_text (q :: l) <> []) by (destruct q; discriminate).
    change (last (map end_of (p :: q :: l)) d) with (last (map end_of (q :: l)) d). rewrite <- IH by discriminate.
    change (format_text (p :: q :: l)) with (piece_text p ++ format_text (q :: l)). destruct (format_text (q :: l)) as [|x r]; [congruence|].
    destruct p; reflexivity.
Qed.
Lemma surviving_all l prev : unmarked prev l -> surviving prev l = l.
Proof.
  revert prev. induction l as [|p l IH]; intros prev U; [reflexivity|]. destruct U as [U1 U2]. cbn [surviving]. rewrite (IH _ U2).
  destruct p; [rewrite U1|..]; reflexivity.
Qed.
