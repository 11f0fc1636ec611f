(** StrpProofs.v -- lemmas about the pattern and the match of strptime. *)
From Coq Require Import ZArith QArith Qround Qabs List Bool Lia Lqa String.
From Coq Require Import ZifyBool ZifyNat ZifyN.
From Verif Require Import Base BadiModel BadiProofs TextModel SpecText TextProofs StrfModel SpecStrf StrfProofs SpecStrp StrpModel.
Import ListNotations.
Local Open Scope Z_scope.
Ltac Zify.zify_post_hook ::= Z.div_mod_to_equations.

(** ** The first match *)
Definition first (r : rx) (s : text) : option (list (Z * text) * text) := hd_error (rmatch r s).
Lemma hd_map {A B} (f : A -> B) l : hd_error (map f l) = option_map f (hd_error l).
Proof. destruct l; reflexivity. Qed.
Lemma hd_app {A} (l l' : list A) x : hd_error l = Some x -> hd_error (l ++ l') = Some x.
Proof. destruct l; [discriminate|]. intro H. exact H. Qed.
Lemma first_seq a b s g1 s1 g2 s2 : first a s = Some (g1, s1) -> first b s1 = Some (g2, s2) -> first (RSeq a b) s = Some (g1 ++ g2, s2).
Proof.
  unfold first. cbn [rmatch]. destruct (rmatch a s) as [|x l]; [discriminate|]. intros A B. cbn in A. injection A as ->. cbn [flat_map fst snd].
  apply hd_app. rewrite hd_map, B. reflexivity.
Qed.
Lemma first_grp n a t s g : first a (t ++ s) = Some (g, s) -> first (RGrp n a) (t ++ s) = Some ((n, t) :: g, s).
Proof.
  unfold first. cbn [rmatch]. destruct (rmatch a (t ++ s)) as [|x l]; [discriminate|]. intro H. cbn in H. injection H as ->. cbn [map hd_error fst snd]. do 3 f_equal. rewrite app_length.
  replace (List.length t + List.length s - List.length s)%nat with (List.length t) by lia. rewrite firstn_app, Nat.sub_diag, firstn_all. cbn. rewrite app_nil_r. reflexivity.
Qed.
Lemma first_alt a b s x : first a s = Some x -> first (RAlt a b) s = Some x.
Proof. unfold first. cbn [rmatch]. apply hd_app. Qed.
Lemma first_alt2 a b s x : rmatch a s = [] -> first b s = Some x -> first (RAlt a b) s = Some x.
Proof. unfold first. cbn [rmatch]. intros -> H. exact H. Qed.
Lemma first_upto n ds s : forallb is_digit ds = true -> List.length ds = S n -> first (upto (S n)) (ds ++ s) = Some ([], s).
Proof.
  revert ds. induction n as [|n IH]; intros ds D Ln.
  - destruct ds as [|c [|? ?]]; try discriminate. cbn [forallb] in D. apply andb_true_iff in D as [D _]. unfold first. cbn. rewrite D. reflexivity.
  - destruct ds as [|c ds]; [discriminate|]. cbn [forallb] in D. apply andb_true_iff in D as [D1 D2]. change (upto (S (S n))) with (RSeq dg (opt (upto (S n)))).
    apply (first_seq dg _ _ [] (ds ++ s)).
    + unfold first. cbn. rewrite D1. reflexivity.
    + apply first_alt. apply IH; [exact D2|]. cbn in Ln. lia.
Qed.
Lemma ws_star_hd s : exists x l, ws_star s = x :: l.
Proof. induction s as [|c s (x & l & IH)]; [exists [], []; reflexivity|]. cbn [ws_star]. destruct (is_space c); [rewrite IH; eexists; eexists; reflexivity|eexists; eexists; reflexivity]. Qed.

(** finite domains, for statements with other variables *)
Lemma zmap {B} (f : Z -> B) x a n : map f (zlist a n) = repeat x n -> forall z, a <= z < a + Z.of_nat n -> f z = x.
Proof.
  intros H z R. assert (I : In (f z) (map f (zlist a n))) by (apply in_map, zlist_in, R). rewrite H in I. apply repeat_spec in I. exact I.
Qed.

(** ** The numeric directives on their columns *)
Definition inner (lo : sloc) (c : Z) : rx := match table0 lo c with Some (RGrp _ a) => a | _ => REps end.
Lemma d_cols lo z s : 1 <= z <= 19 -> first (inner lo 100) (columns 2 z ++ s) = Some ([], s).
Proof. intro H. apply (zmap (fun z => first (inner lo 100) (columns 2 z ++ s)) _ 1 19); [vm_compute; reflexivity|lia]. Qed.
Lemma m_cols lo z s : 0 <= z <= 19 -> first (inner lo 109) (columns 2 z ++ s) = Some ([], s).
Proof. intro H. apply (zmap (fun z => first (inner lo 109) (columns 2 z ++ s)) _ 0 20); [vm_compute; reflexivity|lia]. Qed.
Lemma H_cols lo z s : 0 <= z <= 23 -> first (inner lo 72) (columns 2 z ++ s) = Some ([], s).
Proof. intro H. apply (zmap (fun z => first (inner lo 72) (columns 2 z ++ s)) _ 0 24); [vm_compute; reflexivity|lia]. Qed.
Lemma M_cols lo z s : 0 <= z <= 59 -> first (inner lo 77) (columns 2 z ++ s) = Some ([], s).
Proof. intro H. apply (zmap (fun z => first (inner lo 77) (columns 2 z ++ s)) _ 0 60); [vm_compute; reflexivity|lia]. Qed.
Lemma S_cols lo z s : 0 <= z <= 61 -> first (inner lo 83) (columns 2 z ++ s) = Some ([], s).
Proof. intro H. apply (zmap (fun z => first (inner lo 83) (columns 2 z ++ s)) _ 0 62); [vm_compute; reflexivity|lia]. Qed.
Lemma j_cols lo z s : 1 <= z <= 366 -> first (inner lo 106) (columns 3 z ++ s) = Some ([], s).
Proof. intro H. apply (zmap (fun z => first (inner lo 106) (columns 3 z ++ s)) _ 1 366); [vm_compute; reflexivity|lia]. Qed.
Lemma U_cols lo z s : 0 <= z <= 52 -> first (inner lo 85) (columns 2 z ++ s) = Some ([], s).
Proof. intro H. apply (zmap (fun z => first (inner lo 85) (columns 2 z ++ s)) _ 0 53); [vm_compute; reflexivity|lia]. Qed.
Lemma W_cols lo z s : 0 <= z <= 52 -> first (inner lo 87) (columns 2 z ++ s) = Some ([], s).
Proof. intro H. apply (zmap (fun z => first (inner lo 87) (columns 2 z ++ s)) _ 0 53); [vm_compute; reflexivity|lia]. Qed.
Lemma V_cols lo z s : 1 <= z <= 53 -> first (inner lo 86) (columns 2 z ++ s) = Some ([], s).
Proof. intro H. apply (zmap (fun z => first (inner lo 86) (columns 2 z ++ s)) _ 1 53); [vm_compute; reflexivity|lia]. Qed.
Lemma u_cols lo z s : 1 <= z <= 7 -> first (inner lo 117) (columns 1 z ++ s) = Some ([], s).
Proof. intro H. apply (zmap (fun z => first (inner lo 117) (columns 1 z ++ s)) _ 1 7); [vm_compute; reflexivity|lia]. Qed.
Lemma I_cols lo z s : 1 <= z <= 12 -> first (inner lo 73) (columns 2 z ++ s) = Some ([], s).
Proof. intro H. apply (zmap (fun z => first (inner lo 73) (columns 2 z ++ s)) _ 1 12); [vm_compute; reflexivity|lia]. Qed.
Lemma f_cols lo z s : first (inner lo 102) (columns 6 z ++ s) = Some ([], s).
Proof. change (inner lo 102) with (upto 6). apply (first_upto 5); [apply columns_digits|apply columns_len]. Qed.
Lemma sign_cols r y s : (forall t, first r (columns 4 (Z.abs y) ++ t) = Some ([], t)) ->
  first (RSeq (opt (one 45)) r) (signed_year y ++ s) = Some ([], s).
Proof.
  intro H. unfold signed_year. destruct (Z.ltb_spec y 0).
  - apply (first_seq _ _ _ [] (columns 4 (- y) ++ s)); [reflexivity|]. replace (- y) with (Z.abs y) by lia. apply H.
  - replace y with (Z.abs y) by lia. set (t := columns 4 (Z.abs y)) in *. apply (first_seq _ _ _ [] (t ++ s)); [|apply H].
    apply first_alt2; [|reflexivity]. assert (DG : forallb is_digit t = true) by apply columns_digits. assert (Ln : List.length t = 4%nat) by apply columns_len.
    destruct t as [|c t]; [discriminate|]. cbn [forallb] in DG. apply andb_true_iff in DG as [DG _]. cbn. unfold is_digit in DG. unfold lower.
    replace ((65 <=? c) && (c <=? 90)) with false by lia. replace ((192 <=? c) && (c <=? 222) && negb (c =? 215)) with false by lia.
    replace (c =? 256) with false by lia. replace (7680 <=? c) with false by lia. cbn [andb]. change (45 =? 45) with true. cbn. replace (c =? 45) with false by lia. reflexivity.
Qed.
Lemma Y_cols lo y s : first (inner lo 89) (signed_year y ++ s) = Some ([], s).
Proof. change (inner lo 89) with (RSeq (opt (one 45)) (upto 4)). apply sign_cols. intro t. apply (first_upto 3); [apply columns_digits|apply columns_len]. Qed.
Lemma first_digits4 ds s : forallb is_digit ds = true -> List.length ds = 4%nat -> first (seqs [dg; dg; dg; dg]) (ds ++ s) = Some ([], s).
Proof.
  intros D Ln. destruct ds as [|a [|b [|c [|e [|]]]]]; try discriminate. cbn [forallb] in D. repeat (apply andb_true_iff in D as [?D0 D]).
  unfold first. cbn. rewrite D0. cbn. rewrite D1. cbn. rewrite D2. cbn. rewrite D3. reflexivity.
Qed.
Lemma G_cols lo y s : first (inner lo 71) (signed_year y ++ s) = Some ([], s).
Proof. change (inner lo 71) with (RSeq (opt (one 45)) (seqs [dg; dg; dg; dg])). apply sign_cols. intro t. apply first_digits4; [apply columns_digits|apply columns_len]. Qed.

(** ** The names *)
Lemma name_first lo c names i t s : table0 lo c = Some (seq_rx (map lower_text names) c) ->
  Forall (fun x => first (inner lo c) (x ++ s) = Some ([], s)) names -> nth_error names i = Some t -> first (inner lo c) (t ++ s) = Some ([], s).
Proof. intros _ F I. rewrite Forall_forall in F. apply F. eapply nth_error_In, I. Qed.
Lemma A_names lo s : std lo -> Forall (fun x => first (inner lo 65) (x ++ s) = Some ([], s)) DAYNAMES.
Proof. intros (A & _). unfold inner. change (table0 lo 65) with (Some (seq_rx (sl_A lo) 65)). rewrite A. repeat constructor; vm_compute; reflexivity. Qed.
Lemma a_names lo s : std lo -> Forall (fun x => first (inner lo 97) (x ++ s) = Some ([], s)) DAYNAMES_ABV.
Proof. intros (_ & A & _). unfold inner. change (table0 lo 97) with (Some (seq_rx (sl_a lo) 97)). rewrite A. repeat constructor; vm_compute; reflexivity. Qed.
Lemma B_names lo s : std lo -> Forall (fun x => first (inner lo 66) (x ++ s) = Some ([], s)) MONTHNAMES.
Proof. intros (_ & _ & A & _). unfold inner. change (table0 lo 66) with (Some (seq_rx (sl_B lo) 66)). rewrite A. repeat constructor; vm_compute; reflexivity. Qed.
Lemma b_names lo s : std lo -> Forall (fun x => first (inner lo 98) (x ++ s) = Some ([], s)) MONTHNAMES_ABV.
Proof. intros (_ & _ & _ & A). unfold inner. change (table0 lo 98) with (Some (seq_rx (sl_b lo) 98)). rewrite A. repeat constructor; vm_compute; reflexivity. Qed.

(** ** The pattern of a list of pieces *)
Section Pieces.
Variable lo : sloc.
Fixpoint prx (ws : bool) (l : list piece) : rx :=
  match l with
  | [] => REps
  | L c :: l => if is_space c then if ws then prx true l else RSeq RWs (prx true l) else RSeq (one c) (prx false l)
  | D c :: l => RSeq (match table lo c with Some x => x | None => REps end) (prx false l)
  | DM _ _ :: l => prx false l
  end.
Definition known (p : piece) : Prop :=
  match p with L c => c <> 37 | D c => special c = false /\ is_space c = false /\ exists a, table lo c = Some (RGrp c a) /\ groups a = [] | DM _ _ => False end.
Lemma pattern_pieces l : Forall known l -> forall ws, pattern (table lo) ws (format_text l) = Ok (prx ws l).
Proof.
  induction 1 as [|p l P K IH]; intro ws; [reflexivity|]. destruct p as [c|c|]; [| |destruct P].
  - cbn in P. change (format_text (L c :: l)) with (c :: format_text l). cbn [pattern prx]. replace (c =? 37) with false by lia.
    destruct (is_space c); rewrite IH; reflexivity.
  - destruct P as (S1 & S2 & a & T & _). change (format_text (D c :: l)) with (37 :: c :: format_text l). cbn [pattern prx Z.eqb Pos.eqb]. rewrite S1, S2. cbn [orb]. rewrite T, IH. reflexivity.
Qed.
Lemma prx_groups l : Forall known l -> forall ws, groups (prx ws l) = letters l.
Proof.
  induction 1 as [|p l P K IH]; intro ws; [reflexivity|]. destruct p as [c|c|]; [| |destruct P].
  - cbn [prx]. change (letters (L c :: l)) with (letters l). destruct (is_space c); [destruct ws|]; cbn; apply IH.
  - destruct P as (_ & _ & a & T & G). cbn [prx groups]. rewrite T. cbn [groups]. rewrite G, IH. reflexivity.
Qed.
Lemma no_dup_ok l : NoDup l -> no_dup l = true.
Proof.
  induction 1 as [|x l NI ND IH]; [reflexivity|]. cbn [no_dup]. rewrite IH. destruct (mem x l) eqn:M; [|reflexivity]. apply in_mem in M. contradiction.
Qed.

(** the text printed for a directive, and the match *)
Variable txt : Z -> text.
Definition ptext (p : piece) : text := match p with L c => [c] | D c => txt c | DM _ _ => [] end.
Definition printed (l : list piece) : text := flat_map ptext l.
Definition found (l : list piece) : list (Z * text) := map (fun c => (c, txt c)) (letters l).
Fixpoint dropws (l : list piece) : list piece := match l with L c :: r => if is_space c then dropws r else l | _ => l end.
Definition reads (p : piece) : Prop :=
  match p with
  | D c => exists a, table lo c = Some (RGrp c a) /\ (forall s, first a (txt c ++ s) = Some ([], s)) /\ exists x t, txt c = x :: t /\ is_space x = false
  | DM _ _ => False
  | L _ => True
  end.
Lemma one_self c s : first (one c) (c :: s) = Some ([], s).
Proof. unfold first. cbn. rewrite Z.eqb_refl. reflexivity. Qed.
Definition nosp (r : text) : Prop := match r with x :: _ => is_space x = false | [] => True end.
Lemma ws_none r : nosp r -> hd_error (ws_star r) = Some r.
Proof. destruct r as [|x t]; [reflexivity|]. cbn. intros ->. reflexivity. Qed.
Lemma ws_dropped l r : nosp r -> Forall reads l -> hd_error (ws_star (printed l ++ r)) = Some (printed (dropws l) ++ r).
Proof.
  intro NS. induction 1 as [|p l P K IH]; [apply ws_none, NS|]. destruct p as [c|c|]; [| |destruct P].
  - change (printed (L c :: l)) with (c :: printed l). cbn [dropws]. destruct (is_space c) eqn:C; [|apply (ws_none (c :: _)), C].
    cbn [ws_star app]. rewrite C. apply hd_app, IH.
  - destruct P as (_ & _ & _ & x & t & X & XS). cbn [dropws]. change (printed (D c :: l)) with (txt c ++ printed l). rewrite X. apply (ws_none (x :: _)), XS.
Qed.
(** a format that goes on with [l2] after pieces that are read *)
Lemma match_prefix l l2 r g r' : Forall reads l -> nosp r -> first (prx false l2) r = Some (g, r') -> (match l2 with L _ :: _ => False | _ => True end) ->
  first (prx false (l ++ l2)) (printed l ++ r) = Some (found l ++ g, r') /\ first (prx true (l ++ l2)) (printed (dropws l) ++ r) = Some (found l ++ g, r').
Proof.
  intros R NS F2 HL2. induction R as [|p l P K [IH1 IH2]].
  { change (found []) with (@nil (Z * text)). cbn [printed flat_map dropws app]. split; [exact F2|]. destruct l2 as [|[]]; [exact F2|destruct HL2|exact F2|exact F2]. }
  destruct p as [c|c|]; [| |destruct P].
  - change (found (L c :: l)) with (found l). cbn [prx dropws app]. change (printed (L c :: l)) with (c :: printed l). destruct (is_space c) eqn:C.
    + split; [|exact IH2]. change (found l ++ g) with ([] ++ (found l ++ g)). apply (first_seq _ _ _ [] (printed (dropws l) ++ r)); [|exact IH2].
      unfold first. cbn [rmatch ws_plus app]. rewrite C, hd_map, (ws_dropped l r NS K). reflexivity.
    + assert (X : first (RSeq (one c) (prx false (l ++ l2))) (c :: printed l ++ r) = Some (found l ++ g, r')). { change (found l ++ g) with ([] ++ (found l ++ g)). apply (first_seq _ _ _ [] (printed l ++ r)); [apply one_self|exact IH1]. }
      split; exact X.
  - destruct P as (a & T & F & _). cbn [prx dropws app]. rewrite T. change (found (D c :: l) ++ g) with ([(c, txt c)] ++ (found l ++ g)). change (printed (D c :: l)) with (txt c ++ printed l). rewrite <- app_assoc.
    assert (X : first (RSeq (RGrp c a) (prx false (l ++ l2))) (txt c ++ printed l ++ r) = Some ([(c, txt c)] ++ (found l ++ g), r')) by (apply (first_seq _ _ _ _ (printed l ++ r)); [apply first_grp, F|exact IH1]).
    split; exact X.
Qed.
Lemma match_pieces l : Forall reads l -> first (prx false l) (printed l) = Some (found l, []).
Proof.
  intro R. pose proof (proj1 (match_prefix l [] [] [] [] R Logic.I eq_refl Logic.I)) as H. rewrite !app_nil_r in H. exact H.
Qed.
(** text after everything is read is refused *)
Lemma find_trailing l r : Forall known l -> Forall reads l -> NoDup (letters l) -> nosp r -> r <> [] -> find_regex lo (format_text l) (printed l ++ r) = Err ValueError.
Proof.
  intros K R ND NS NE. unfold find_regex, compile. rewrite (pattern_pieces l K false). cbn [bind]. rewrite (prx_groups l K), (no_dup_ok _ ND).
  unfold run. pose proof (proj1 (match_prefix l [] r [] r R NS eq_refl Logic.I)) as M. rewrite !app_nil_r in M. unfold first in M. destruct (rmatch _ _) as [|[g r'] rest]; [discriminate|]. cbn in M. injection M as -> ->. destruct r; [congruence|reflexivity].
Qed.
(** what _find_regex returns for the printed text *)
Lemma find_pieces l : Forall known l -> Forall reads l -> NoDup (letters l) -> find_regex lo (format_text l) (printed l) = Ok (found l).
Proof.
  intros K R ND. unfold find_regex, compile. rewrite (pattern_pieces l K false). cbn [bind]. rewrite (prx_groups l K), (no_dup_ok _ ND).
  unfold run. pose proof (match_pieces l R) as M. unfold first in M. destruct (rmatch _ _) as [|[g r] rest]; [discriminate|]. cbn in M. injection M as -> ->. reflexivity.
Qed.

(** ** The values *)
Variables (fld : Z -> field) (tv : field -> Z).
Lemma found_values g ls st : (forall c st, In c ls -> found_step lo g st (c, txt c) = Ok (put st (fld c) (tv (fld c)))) ->
  exists st', found_loop lo g (map (fun c => (c, txt c)) ls) st = Ok st' /\
    forall f, st' f = if existsb (fun c => field_eqb f (fld c)) ls then Some (tv f) else st f.
Proof.
  revert st. induction ls as [|c ls IH]; intros st H; [exists st; split; [reflexivity|intro; reflexivity]|]. cbn [map found_loop]. rewrite H by (left; reflexivity). cbn [bind].
  destruct (IH (put st (fld c) (tv (fld c)))) as (st' & E & V); [intros c' s' I; apply H; right; exact I|]. exists st'. split; [exact E|]. intro f. rewrite V. cbn [existsb].
  unfold put. destruct (field_eqb f (fld c)) eqn:Q; cbn [orb]; [|reflexivity]. assert (f = fld c) by (destruct f, (fld c); try reflexivity; discriminate). subst f. destruct (existsb _ ls); reflexivity.
Qed.
End Pieces.
