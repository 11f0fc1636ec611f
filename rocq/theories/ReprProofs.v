(** ReprProofs.v -- reading back the text of an expression. *)
From Coq Require Import ZArith QArith List Bool Lia String Ascii.
From Coq Require Import ZifyBool ZifyNat ZifyN.
From Verif Require Import Base BaseModel BadiModel TduModel DateModel TimeModel TextModel SpecText TextProofs StateModel ReprModel SpecRepr.
Import ListNotations.
Local Open Scope Z_scope.
Ltac Zify.zify_post_hook ::= Z.div_mod_to_equations.

(** ** The text of an expression *)
Definition key (k : option text) : text := match k with Some k => k ++ [61] | None => [] end.
Fixpoint show (e : expr) : text :=
  match e with
  | Num z => int_text z
  | Str s => str_repr s
  | Var n => n
  | Call f l => f ++ [40] ++ commas (map (fun a => key (fst a) ++ show (snd a)) l) ++ [41]
  end.
Definition show_arg (a : option text * expr) : text := key (fst a) ++ show (snd a).
Definition name_ok (n : text) : Prop := exists c r, n = c :: r /\ forallb name_char n = true /\ digit c = false.
Definition byte (c : Z) : Prop := 0 <= c < 256.
Fixpoint wf (e : expr) : Prop :=
  match e with
  | Num _ => True
  | Str s => Forall byte s
  | Var n => name_ok n
  | Call f l => name_ok f /\ fold_right (fun a P => match fst a with Some k => name_ok k | None => True end /\ wf (snd a) /\ P) True l
  end.
Definition wf_args (l : list (option text * expr)) : Prop := fold_right (fun a P => match fst a with Some k => name_ok k | None => True end /\ wf (snd a) /\ P) True l.

(** ** Tokens *)
Lemma span_app p a b : forallb p a = true -> (match b with c :: _ => p c = false | [] => True end) -> span p (a ++ b) = (a, b).
Proof.
  induction a as [|c a IH]; intros A B.
  - cbn [app]. destruct b as [|c b]; [reflexivity|]. cbn [span]. rewrite B. reflexivity.
  - cbn in A. apply andb_true_iff in A as [A1 A2]. cbn [app span]. rewrite A1, (IH A2 B). reflexivity.
Qed.
Lemma repr_read q s r : (q = 39 \/ q = 34) -> Forall byte s -> read_str q (flat_map (repr_char q) s ++ q :: r) = Some (s, r).
Proof.
  intro Q. induction 1 as [|c s B F IH]; [cbn; rewrite Z.eqb_refl; reflexivity|].
  cbn [flat_map]. rewrite <- app_assoc. unfold repr_char at 1. unfold byte in B.
  destruct ((c =? q) || (c =? 92)) eqn:E1.
  - cbn [app read_str]. replace (92 =? q) with false by lia. replace (92 =? 92) with true by lia.
    replace (c =? 120) with false by lia. replace (c =? 110) with false by lia. replace (c =? 114) with false by lia. replace (c =? 116) with false by lia.
    replace ((c =? 92) || (c =? 39) || (c =? 34)) with true by lia. rewrite IH. reflexivity.
  - destruct (Z.eqb_spec c 9) as [->|]; [cbn [app read_str]; replace (92 =? q) with false by lia; cbn [Z.eqb Pos.eqb]; rewrite IH; reflexivity|].
    destruct (Z.eqb_spec c 10) as [->|]; [cbn [app read_str]; replace (92 =? q) with false by lia; cbn [Z.eqb Pos.eqb]; rewrite IH; reflexivity|].
    destruct (Z.eqb_spec c 13) as [->|]; [cbn [app read_str]; replace (92 =? q) with false by lia; cbn [Z.eqb Pos.eqb]; rewrite IH; reflexivity|].
    destruct ((c <? 32) || ((127 <=? c) && (c <=? 160)) || (c =? 173)) eqn:E2.
    + cbn [app read_str]. replace (92 =? q) with false by lia. cbn [Z.eqb Pos.eqb]. rewrite IH. do 3 f_equal. unfold hex, hex_digit.
      destruct (Z.ltb_spec (c / 16) 10), (Z.ltb_spec (c mod 16) 10); repeat match goal with |- context [?a <=? 57] => destruct (Z.leb_spec a 57) end; lia.
    + cbn [app read_str]. replace (c =? q) with false by lia. replace (c =? 92) with false by lia. replace (c <? 32) with false by lia. rewrite IH. reflexivity.
Qed.
Lemma str_read s r : Forall byte s -> exists q t, str_repr s ++ r = q :: t /\ ((q =? 39) || (q =? 34)) = true /\ read_str q t = Some (s, r) /\ name_char q = false.
Proof.
  intro F. unfold str_repr. set (q := if existsb (Z.eqb 39) s && negb (existsb (Z.eqb 34) s) then 34 else 39). exists q, (flat_map (repr_char q) s ++ q :: r).
  assert (Q : q = 39 \/ q = 34) by (unfold q; destruct (_ && _); auto).
  split; [cbn [app]; rewrite <- app_assoc; reflexivity|]. split; [lia|]. split; [apply repr_read; assumption|destruct Q as [-> | ->]; reflexivity].
Qed.
Lemma digit_name c : digit c = true -> name_char c = true.
Proof. unfold name_char. intros ->. rewrite orb_true_r. reflexivity. Qed.
Definition stop (r : text) : Prop := r = [] \/ exists c t, r = c :: t /\ (c = 44 \/ c = 41).
Lemma stop_class r p : stop r -> p 44 = false -> p 41 = false -> match r with c :: _ => p c = false | [] => True end.
Proof. intros [->|(c & t & -> & [-> | ->])] A B; auto. Qed.
Lemma dec_read z r : 0 <= z -> stop r -> exists c t, dec z ++ r = c :: t /\ digit c = true /\ exists ds, span digit (dec z ++ r) = (ds, r) /\ number ds = z /\ ds <> [].
Proof.
  intros P S. destruct (dec_digits z P) as (c & t & E & A & V). exists c, (t ++ r). rewrite E. split; [reflexivity|].
  rewrite E in A, V. pose proof A as A'. cbn in A'. apply andb_true_iff in A' as [A1 _]. split; [exact A1|]. exists (c :: t).
  split; [apply span_app; [exact A|apply (stop_class r digit S); reflexivity]|]. split; [exact V|discriminate].
Qed.

(** ** Reading *)
Lemma commas_cons (x : text) l : commas (x :: l) = x ++ (match l with [] => [] | _ => [44; 32] ++ commas l end).
Proof. destruct l; [cbn; rewrite app_nil_r; reflexivity|reflexivity]. Qed.
(** no keyword is seen in front of an expression *)
Lemma no_keyword e r : wf e -> stop r -> exists k t, span name_char (show e ++ r) = (k, t) /\ match t with 61 :: _ => False | _ => True end.
Proof.
  intros W S.
  assert (E : forall c t, name_char c = false -> c <> 61 -> exists k t', span name_char (c :: t) = (k, t') /\ match t' with 61 :: _ => False | _ => True end).
  { intros c t A B. exists [], (c :: t). cbn [span]. rewrite A. split; [reflexivity|]. destruct c; try exact Logic.I. repeat (destruct p; try exact Logic.I). contradiction. }
  assert (R : match r with 61 :: _ => False | _ => True end) by (destruct S as [->|(c & t & -> & [-> | ->])]; exact Logic.I).
  destruct e; cbn [show wf] in *.
  - unfold int_text. destruct (Z.ltb_spec z 0); [cbn [app]; apply E; [reflexivity|lia]|].
    destruct (dec_digits z ltac:(lia)) as (c & t & EQ & A & V). exists (dec z), r. split; [|exact R]. apply span_app; [|apply (stop_class r name_char S); reflexivity].
    apply forallb_forall. intros x I. rewrite forallb_forall in A. apply digit_name, (A x I).
  - destruct (str_read s r W) as (q & t & -> & Q & _ & N). apply E; [exact N|lia].
  - destruct W as (c & t & -> & A & _). exists (c :: t), r. split; [apply span_app; [exact A|apply (stop_class r name_char S); reflexivity]|exact R].
  - destruct W as ((c & t & -> & A & _) & _). eexists (c :: t), _. split; [rewrite <- app_assoc; apply span_app; [exact A|reflexivity]|exact Logic.I].
Qed.
Lemma match_not_40 {A} (r : text) (x : text -> A) y : stop r -> match r with 40 :: r' => x r' | _ => y end = y.
Proof. intros [->|(c & t & -> & [-> | ->])]; reflexivity. Qed.
Lemma read_show n :
  (forall e r, wf e -> stop r -> (List.length (show e) < n)%nat -> read n (show e ++ r) = Some (e, r)) /\
  (forall l r, wf_args l -> (List.length (commas (map show_arg l)) + 1 < n)%nat -> read_args n (commas (map show_arg l) ++ 41 :: r) = Some (l, r)).
Proof.
  induction n as [|n (IHE & IHA)]; [split; intros; lia|]. split.
  - intros e r W S L. destruct e.
    + cbn [show]. unfold int_text. destruct (Z.ltb_spec z 0) as [Q|Q].
      * cbn [app read]. replace ((45 =? 39) || (45 =? 34)) with false by reflexivity. replace (digit 45) with false by reflexivity. replace (45 =? 45) with true by reflexivity.
        destruct (dec_read (- z) r ltac:(lia) S) as (c & t & _ & _ & ds & SP & N & NE). rewrite SP. destruct ds; [contradiction|]. rewrite N. do 3 f_equal. lia.
      * destruct (dec_read z r ltac:(lia) S) as (c & t & E & D & ds & SP & N & NE). cbn [read]. rewrite E in *. replace ((c =? 39) || (c =? 34)) with false by (unfold digit in D; lia).
        rewrite D, SP, N. reflexivity.
    + cbn [show]. destruct (str_read s r W) as (q & t & E & Q & R & _). cbn [read]. rewrite E, Q, R. reflexivity.
    + cbn [show wf] in *. destruct W as (c & t & -> & A & D). cbn [read app].
      assert (NC : name_char c = true) by (cbn in A; apply andb_true_iff in A as [A _]; exact A).
      assert (C : c <> 39 /\ c <> 34 /\ c <> 45) by (unfold name_char, digit in NC; lia). replace ((c =? 39) || (c =? 34)) with false by lia. rewrite D. replace (c =? 45) with false by lia.
      change (c :: t ++ r) with ((c :: t) ++ r). rewrite (span_app name_char (c :: t) r A) by (apply (stop_class r name_char S); reflexivity).
      apply (match_not_40 r (fun r' => match read_args n r' with Some (l, r'') => Some (Call (c :: t) l, r'') | None => None end)). exact S.
    + cbn [wf] in W. destruct W as ((c & t & -> & A & D) & WA). fold (wf_args args) in WA. change (show (Call (c :: t) args)) with ((c :: t) ++ [40] ++ commas (map show_arg args) ++ [41]) in *.
      rewrite !app_length in L. cbn [List.length] in L. rewrite <- !app_assoc. cbn [read app].
      assert (NC : name_char c = true) by (cbn in A; apply andb_true_iff in A as [A _]; exact A).
      assert (C : c <> 39 /\ c <> 34 /\ c <> 45) by (unfold name_char, digit in NC; lia). replace ((c =? 39) || (c =? 34)) with false by lia. rewrite D. replace (c =? 45) with false by lia.
      change (c :: t ++ 40 :: ?x) with ((c :: t) ++ 40 :: x). rewrite (span_app name_char (c :: t) _ A) by reflexivity.
      rewrite (IHA args r WA) by lia. reflexivity.
  - intros l r W L. destruct l as [|[k e] l]; [reflexivity|]. cbn [map] in *. rewrite commas_cons in *. cbn [wf_args fold_right fst snd] in W. destruct W as (WK & WE & WL). fold (wf_args l) in WL.
    rewrite app_length in L. set (tl := match map show_arg l with [] => [] | _ => [44; 32] ++ commas (map show_arg l) end) in *.
    assert (ST : stop (tl ++ 41 :: r)). { right. unfold tl. destruct (map show_arg l); cbn [app]; eauto. }
    assert (AFTER : match read n (show e ++ tl ++ 41 :: r) with Some (e, 41 :: r) => Some ([(k, e)], r)
                    | Some (e, 44 :: 32 :: r) => match read_args n r with Some (l, r') => Some ((k, e) :: l, r') | None => None end | _ => None end = Some ((k, e) :: l, r)).
    { unfold show_arg in L at 1. cbn [fst snd] in L. rewrite app_length in L. rewrite (IHE e (tl ++ 41 :: r) WE ST) by lia.
      unfold tl in *. destruct l as [|a l]; [reflexivity|]. cbn [map] in *. set (R := commas _) in *. cbn [app]. cbn [app List.length] in L.
      unfold R. change (show_arg a :: map show_arg l) with (map show_arg (a :: l)). rewrite (IHA (a :: l) r WL) by (cbn [map]; fold R; lia). reflexivity. }
    rewrite <- app_assoc. unfold show_arg at 1. cbn [fst snd].
    assert (NB : match (key k ++ show e) ++ tl ++ 41 :: r with 41 :: _ => False | _ => True end).
    { destruct k as [k|]; cbn [key].
      - destruct WK as (c & t & -> & A & _). cbn [app]. cbn in A. apply andb_true_iff in A as [A _]. destruct c; try exact Logic.I. repeat (destruct p; try exact Logic.I). discriminate.
      - cbn [app]. clear - WE. destruct e; cbn [show wf] in *.
        + unfold int_text. destruct (Z.ltb_spec z 0); [exact Logic.I|]. destruct (dec_digits z ltac:(lia)) as (c & t & -> & A & _). cbn in A. apply andb_true_iff in A as [A _]. cbn [app]. destruct c; try exact Logic.I. repeat (destruct p; try exact Logic.I). discriminate.
        + unfold str_repr. destruct (_ && _); exact Logic.I.
        + destruct WE as (c & t & -> & A & _). cbn in A. apply andb_true_iff in A as [A _]. cbn [app]. destruct c; try exact Logic.I. repeat (destruct p; try exact Logic.I). discriminate.
        + destruct WE as ((c & t & -> & A & _) & _). cbn in A. apply andb_true_iff in A as [A _]. cbn [app]. destruct c; try exact Logic.I. repeat (destruct p; try exact Logic.I). discriminate. }
    cbn [read_args]. set (s := (key k ++ show e) ++ tl ++ 41 :: r) in *.
    assert (KS : match span name_char s with (k, 61 :: r) => (Some k, r) | _ => (None, s) end = (k, show e ++ tl ++ 41 :: r)).
    { unfold s. destruct k as [k|]; cbn [key app].
      - destruct WK as (c & t & -> & A & _). rewrite <- !app_assoc. rewrite (span_app name_char (c :: t) _ A) by reflexivity. reflexivity.
      - destruct (no_keyword e (tl ++ 41 :: r) WE ST) as (x & t & E & NK). rewrite E. destruct t as [|[|p|p] t]; try reflexivity. repeat (destruct p; try reflexivity). contradiction. }
    rewrite KS. rewrite AFTER. destruct s as [|[|p|p] s']; try reflexivity. repeat (destruct p; try reflexivity). contradiction.
Qed.
Lemma read_all_show e : wf e -> read_all (show e) = Some e.
Proof.
  intro W. unfold read_all. destruct (read_show (S (List.length (show e)))) as [R _]. specialize (R e [] W (or_introl eq_refl) ltac:(lia)). rewrite app_nil_r in R. rewrite R. reflexivity.
Qed.
