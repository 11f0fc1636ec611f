(** LocProofs.v -- proof support: str.replace and the magic date. *)
From Coq Require Import ZArith QArith List Bool String Lia Permutation.
From Verif Require Import Base BaseModel TextModel SpecText StrfModel StrpModel LocModel SpecLoc.
Import ListNotations.
Local Open Scope Z_scope.

Lemma starts_in old s c : starts old s = true -> In c old -> In c s.
Proof.
  revert s. induction old as [|a old IH]; intros [|b s] H I; try destruct I; try discriminate.
  - cbn in H. apply andb_true_iff in H as [H1 _]. apply Z.eqb_eq in H1. left. congruence.
  - cbn in H. apply andb_true_iff in H as [_ H2]. right. apply IH; assumption.
Qed.
Lemma replace_id old new s : (forall t, List.length t <= List.length s -> (exists u, s = u ++ t) -> t <> [] -> starts old t = false)%nat -> replace old new s = s.
Proof.
  unfold replace. induction s as [|c s IH]; intro H; [reflexivity|]. cbn [replace_from]. rewrite (H (c :: s)); [|lia|exists []; reflexivity|discriminate].
  f_equal. apply IH. intros t L [v E] NE. apply H; [cbn; lia|exists (c :: v); cbn; congruence|exact NE].
Qed.
Lemma replace_char old new s c : In c old -> ~ In c s -> replace old new s = s.
Proof.
  intros I NI. apply replace_id. intros t _ [v E] _. destruct (starts old t) eqn:S; [|reflexivity]. exfalso. apply NI. rewrite E. apply in_or_app. right. apply (starts_in old t c S I).
Qed.
(** every three characters in a row hold a percent sign *)
Fixpoint dense (s : text) : bool :=
  match s with
  | a :: r => match r with b :: c :: _ => ((a =? 37) || (b =? 37) || (c =? 37)) && dense r | _ => true end
  | [] => true
  end.
Lemma dense_tail v t : dense (v ++ t) = true -> dense t = true.
Proof.
  induction v as [|a v IH]; [exact (fun H => H)|]. intro H. apply IH. cbn [app dense] in H. destruct (v ++ t) as [|b [|c r]]; [reflexivity|reflexivity|]. apply andb_true_iff in H as [_ H]. exact H.
Qed.
Lemma replace_dense old new s : (3 <= List.length old)%nat -> ~ In 37 old -> dense s = true -> replace old new s = s.
Proof.
  intros L NI D. apply replace_id. intros t _ [v E] _. rewrite E in D. apply dense_tail in D. destruct (starts old t) eqn:S; [|reflexivity]. exfalso.
  destruct old as [|a [|b [|c old]]]; try (cbn in L; lia). destruct t as [|x [|y [|z t]]]; cbn [starts] in S; try (rewrite ?andb_false_r in S; discriminate).
  cbn [dense] in D. apply andb_true_iff in D as [D _]. apply andb_true_iff in S as [S1 S]. apply andb_true_iff in S as [S2 S]. apply andb_true_iff in S as [S3 _].
  apply Z.eqb_eq in S1, S2, S3. subst. apply NI. apply orb_true_iff in D as [D|D]; [apply orb_true_iff in D as [D|D]|]; apply Z.eqb_eq in D; subst; cbn; tauto.
Qed.
Lemma starts_cut old x s y : ~ In s old -> starts old (x ++ s :: y) = starts old x.
Proof.
  revert x. induction old as [|a old IH]; intros x NI; [destruct x; reflexivity|]. destruct x as [|b x]; cbn [app starts].
  - destruct (Z.eqb_spec a s) as [->|_]; [|reflexivity]. exfalso. apply NI. left. reflexivity.
  - rewrite IH; [reflexivity|]. intro I. apply NI. right. exact I.
Qed.
Lemma starts_len old x : starts old x = true -> (List.length old <= List.length x)%nat.
Proof. revert x. induction old as [|a old IH]; intros [|b x] H; cbn in *; try lia; try discriminate. apply andb_true_iff in H as [_ H]. specialize (IH x H). lia. Qed.
Lemma replace_cut old new x s y : old <> [] -> ~ In s old -> replace old new (x ++ s :: y) = replace old new x ++ s :: replace old new y.
Proof.
  intros NE NI. unfold replace. assert (G : forall k, (k <= List.length x)%nat -> replace_from k old new (x ++ s :: y) = replace_from k old new x ++ s :: replace_from 0 old new y); [|apply G; lia].
  induction x as [|c x IH]; intros k L.
  - cbn in L. assert (k = O) as -> by lia. cbn [app replace_from]. change (s :: y) with ([] ++ s :: y). rewrite starts_cut by exact NI. destruct old; [congruence|]. reflexivity.
  - cbn [app replace_from]. destruct k as [|k]; [|apply IH; cbn in L; lia]. change (c :: x ++ s :: y) with ((c :: x) ++ s :: y). rewrite starts_cut by exact NI. destruct (starts old (c :: x)) eqn:S.
    + apply starts_len in S. cbn in S. rewrite IH by lia. rewrite <- app_assoc. reflexivity.
    + rewrite IH by lia. reflexivity.
Qed.
Definition step (s : text) (x : text * text) : text := match fst x with [] => s | _ => replace (fst x) (snd x) s end.
Definition clean (s : Z) (ps : list (text * text)) : Prop := Forall (fun x => ~ In s (fst x)) ps.
Lemma fold_cut s ps x y : clean s ps -> fold_left step ps (x ++ s :: y) = fold_left step ps x ++ s :: fold_left step ps y.
Proof.
  intro C. revert x y. induction C as [|[old new] ps H C IH]; intros x y; [reflexivity|]. cbn [fold_left]. cbn [fst] in H.
  assert (E : step (x ++ s :: y) (old, new) = step x (old, new) ++ s :: step y (old, new)).
  { unfold step. cbn [fst snd]. destruct old as [|a old]; [reflexivity|]. apply replace_cut; [discriminate|exact H]. }
  rewrite E. apply IH.
Qed.
Lemma fold_zones zs t : Forall (fun n => n = [] \/ (3 <= List.length n)%nat /\ ~ In 37 n) zs -> dense t = true -> fold_left step (map (fun n => (n, lit "%Z")) zs) t = t.
Proof.
  intros F D. induction F as [|n zs [->|[L NI]] F IH]; [reflexivity|exact IH|]. cbn [map fold_left]. unfold step at 2. cbn [fst snd]. destruct n as [|a n]; [exact IH|]. rewrite replace_dense by assumption. exact IH.
Qed.

(** the pairs before and after the word for PM *)
Definition names : list (text * text) :=
  [(lit "%", lit "%%"); (lower_text (nth 2 DAYNAMES []), lit "%A"); (lower_text (nth 3 MONTHNAMES []), lit "%B"); (lower_text (nth 2 DAYNAMES_ABV []), lit "%a");
   (lower_text (nth 3 MONTHNAMES_ABV []), lit "%b")].
Definition numbers : list (text * text) :=
  [(lit "0199", lit "%Y"); (lit "99", lit "%y"); (lit "22", lit "%H"); (lit "04", lit "%M"); (lit "4", lit "%-M"); (lit "30", lit "%S"); (lit "55", lit "%j"); (lit "17", lit "%d");
   (lit "03", lit "%m"); (lit "3", lit "%-m"); (lit "2", lit "%w"); (lit "10", lit "%I")].
Lemma to_format_eq p z t : to_format (pairs calc_weekday calc_month p z) t =
  replace (lit "11") (lit "%U") (fold_left step (map (fun n => (n, lit "%Z")) (fst z ++ snd z)) (fold_left step numbers (step (fold_left step names t) (p, lit "%p")))).
Proof. unfold to_format, pairs. rewrite fold_left_app. reflexivity. Qed.

Lemma delim_clean s : delimiter s -> clean s names /\ clean s numbers /\ ~ In s (lit "11").
Proof.
  intros (_ & H1 & H2).
  assert (G : forall l, forallb (fun c => existsb (Z.eqb c) (str "%0123456789kamjl") || existsb (Z.eqb c) (u "á")) l = true -> ~ In s l).
  { intros l F I. rewrite forallb_forall in F. specialize (F s I). apply orb_true_iff in F as [F|F]; apply existsb_exists in F as (c & C & E); apply Z.eqb_eq in E; subst c; contradiction. }
  repeat split; [| |apply G; reflexivity]; repeat (constructor; [cbn [fst]; apply G; vm_compute; reflexivity|]); constructor.
Qed.
Definition part (c : Z) : text :=
  if c =? 100 then str "17" else if c =? 109 then str "03" else if c =? 121 then str "99" else if c =? 89 then str "0199"
  else if c =? 98 then str "jam" else if c =? 66 then lower_text (u "Jamál") else if c =? 97 then str "kam" else if c =? 65 then lower_text (u "Kamál")
  else if c =? 72 then str "22" else if c =? 73 then str "10" else if c =? 77 then str "04" else str "30".
Definition fields : text := str "dmyYbBaAHIMS".
Lemma part_ok c : In c fields ->
  let t := fold_left step names (part c) in
  forallb (fun x => mem x (str "%aAbB0123456789")) t = true /\ replace (lit "11") (lit "%U") (fold_left step numbers t) = [37; c] /\ fold_left step numbers t = [37; c].
Proof.
  intro I. assert (Q : forallb (fun c => let t := fold_left step names (part c) in forallb (fun x => mem x (str "%aAbB0123456789")) t
     && (if text_dec (replace (lit "11") (lit "%U") (fold_left step numbers t)) [37; c] then true else false) && (if text_dec (fold_left step numbers t) [37; c] then true else false)) fields = true) by (vm_compute; reflexivity).
  rewrite forallb_forall in Q. specialize (Q c I). cbv zeta in Q. apply andb_true_iff in Q as [Q Q3]. apply andb_true_iff in Q as [Q1 Q2]. cbv zeta.
  destruct (text_dec (replace _ _ _) _) as [Q2'|]; [|discriminate]. destruct (text_dec (fold_left step numbers _) _) as [Q3'|]; [|discriminate]. repeat split; assumption.
Qed.

(** three fields with a delimiter *)
Lemma three_fields a b c s (p : text) z : delimiter s -> In a fields -> In b fields -> In c fields ->
  (p = [] \/ exists x, In x p /\ ~ In x (str "%aAbB: 0123456789") /\ x <> s) ->
  Forall (fun n => n = [] \/ (3 <= List.length n)%nat /\ ~ In 37 n) (fst z ++ snd z) ->
  to_format (pairs calc_weekday calc_month p z) (part a ++ s :: part b ++ s :: part c) = [37; a; s; 37; b; s; 37; c].
Proof.
  intros D A B C P Z. destruct (delim_clean s D) as (C1 & C2 & C3). destruct (part_ok a A) as (A1 & A2 & A3). destruct (part_ok b B) as (B1 & B2 & B3). destruct (part_ok c C) as (D1 & D2 & D3).
  rewrite to_format_eq, !(fold_cut s names) by exact C1. set (ta := fold_left step names (part a)) in *. set (tb := fold_left step names (part b)) in *. set (tc := fold_left step names (part c)) in *.
  assert (PE : step (ta ++ s :: tb ++ s :: tc) (p, lit "%p") = ta ++ s :: tb ++ s :: tc).
  { unfold step. cbn [fst snd]. destruct P as [->|(x & X1 & X2 & X3)]; [reflexivity|]. destruct p as [|y p]; [destruct X1|]. apply (replace_char _ _ _ x X1).
    assert (G : forall l, forallb (fun x => mem x (str "%aAbB0123456789")) l = true -> ~ In x l).
    { intros l F I. rewrite forallb_forall in F. specialize (F x I). apply X2. unfold mem in F. apply existsb_exists in F as (w & W & E). apply Z.eqb_eq in E. subst w.
      assert (Q : forallb (fun c => mem c (str "%aAbB: 0123456789")) (str "%aAbB0123456789") = true) by reflexivity. rewrite forallb_forall in Q. specialize (Q x W).
      unfold mem in Q. apply existsb_exists in Q as (w & W' & E). apply Z.eqb_eq in E. subst w. exact W'. }
    intro I. apply in_app_or in I as [I|[I|I]]; [exact (G _ A1 I)|congruence|]. apply in_app_or in I as [I|[I|I]]; [exact (G _ B1 I)|congruence|exact (G _ D1 I)]. }
  rewrite PE, !(fold_cut s numbers) by exact C2. rewrite A3, B3, D3.
  assert (DN : dense ([37; a] ++ s :: [37; b] ++ s :: [37; c]) = true) by (cbn [app dense]; change (37 =? 37) with true; rewrite ?orb_true_r; reflexivity).
  rewrite fold_zones by assumption. rewrite A3 in A2. rewrite B3 in B2. rewrite D3 in D2. rewrite !replace_cut by (try exact C3; discriminate). rewrite A2, B2, D2. reflexivity.
Qed.
(** the date and time *)
Lemma whole (p : text) z : (p = [] \/ exists x, In x p /\ ~ In x (str "%aAbB: 0123456789")) -> Forall (fun n => n = [] \/ (3 <= List.length n)%nat /\ ~ In 37 n) (fst z ++ snd z) ->
  to_format (pairs calc_weekday calc_month p z) (str "kam jam 17 22:04:30 0199") = str "%a %b %d %H:%M:%S %Y".
Proof.
  intros P Z. rewrite to_format_eq. assert (E1 : fold_left step names (str "kam jam 17 22:04:30 0199") = str "%a %b 17 22:04:30 0199") by (vm_compute; reflexivity). rewrite E1.
  assert (PE : step (str "%a %b 17 22:04:30 0199") (p, lit "%p") = str "%a %b 17 22:04:30 0199").
  { unfold step. cbn [fst snd]. destruct P as [->|(x & X1 & X2)]; [reflexivity|]. destruct p as [|y p]; [destruct X1|]. apply (replace_char _ _ _ x X1). intro I. apply X2.
    assert (Q : forallb (fun c => mem c (str "%aAbB: 0123456789")) (str "%a %b 17 22:04:30 0199") = true) by (vm_compute; reflexivity). rewrite forallb_forall in Q. specialize (Q x I).
    unfold mem in Q. apply existsb_exists in Q as (w & W' & E). apply Z.eqb_eq in E. subst w. exact W'. }
  rewrite PE. assert (E2 : fold_left step numbers (str "%a %b 17 22:04:30 0199") = str "%a %b %d %H:%M:%S %Y") by (vm_compute; reflexivity). rewrite E2, fold_zones; [vm_compute; reflexivity|exact Z|vm_compute; reflexivity].
Qed.
