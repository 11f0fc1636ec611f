(** PropertiesStrp2.v -- C66 (limits of the round trip), C67: what strptime returns and refuses. *)
From Coq Require Import ZArith QArith Qround Qabs List Bool Lia Lqa String.
From Coq Require Import ZifyBool ZifyNat ZifyN.
From Verif Require Import Base Flt QUtil BaseModel MiscModel BadiModel BaseProofs SunProofs SpecBadi BadiProofs BadiProofs2 BadiProofs3 DecProofs BadiProofs4 LongYear LongProofs BadiProofs5 MeeusFloat
  ClockProofs3 ClockProofs4 TduModel DateModel SpecDate TduProofs TduProofs2 TduProofs3 DateProofs SampleSun PropertiesBadi PropertiesDate PropertiesDate2
  TimeModel SpecTime TimeProofs PropertiesTime PropertiesDt TextModel SpecText TextProofs PropertiesText StrfModel SpecStrf StrfProofs PropertiesStrf PropertiesStrf2 PropertiesStrf3 PropertiesStrf4 PropertiesStrf5
  SpecStrp StrpModel StrpProofs PropertiesStrp.
Import ListNotations.
Local Open Scope Z_scope.
Ltac Zify.zify_post_hook ::= Z.div_mod_to_equations.

(** C66 (nothing left over): text after what the format describes is refused, whatever it is, unless it begins with white space. *)
Theorem C66_trailing : forall rnd m lo sl zid a zi y mo d l x r, Nearest rnd -> evening rnd m -> naw_ruz_order rnd m -> printable rnd m a zi y mo d -> std sl ->
  Forall readable l -> l <> [] -> NoDup (letters l) -> faithful_format (f_as_literal l) -> (has l "H" = true -> dt_h a <= 23) -> is_space x = false ->
  exists t, dt_strftime rnd m lo a zi (format_text l) = Ok t /\ strptime rnd m sl zid (t ++ x :: r) (format_text l) = Err ValueError.
Proof.
  intros rnd m lo sl zid a zi y mo d l x r N E O P SL R LN ND F HH SP. destruct (print_rt rnd m a zi y mo d N E O P) as (w & W & WR & PR).
  destruct P as (SU & (C & _) & _). destruct (sup_ok rnd m (dt_d a) y mo d N E SU) as (DN & K & YL). pose proof K as (KY & KM & KD). pose proof (ok_small y mo d K) as (_ & DS).
  assert (I72 : In 72 (letters l) -> dt_h a <= 23) by (intro I; apply HH, has_in; exists 72; split; [exact I|left; reflexivity]).
  eexists. split; [apply PR; assumption|]. unfold strptime, start. rewrite find_trailing; [reflexivity|apply (Forall_impl _ (known_ok sl SL) R)| |exact ND|exact SP|discriminate].
  apply reads_ok; try assumption; try lia. pose proof (doy_range (leap_of rnd m y) mo d KM) as Q. rewrite (leap_of_ok rnd N m E) in * by lia. specialize (Q KD). destruct (zleap y); lia.
Qed.
Print Assumptions C66_trailing.

(** Refuted: hour 24, which a datetime may have, is printed by %H and not read back. *)
Theorem C66_hour_24_refuted : forall rnd m lo sl zid a zi y mo d, Nearest rnd -> evening rnd m -> naw_ruz_order rnd m -> printable rnd m a zi y mo d -> std sl -> dt_h a = 24 ->
  exists t, dt_strftime rnd m lo a zi (str "%Y-%m-%d %H") = Ok t /\ strptime rnd m sl zid t (str "%Y-%m-%d %H") = Err ValueError.
Proof.
  intros rnd m lo sl zid a zi y mo d N E O P SL H. destruct (print_rt rnd m a zi y mo d N E O P) as (w & W & WR & PR).
  destruct P as (SU & (C & _) & _). destruct (sup_ok rnd m (dt_d a) y mo d N E SU) as (DN & K & YL). pose proof K as (KY & KM & KD). pose proof (ok_small y mo d K) as (_ & DS).
  pose (l := [D 89; L 45; D 109; L 45; D 100; L 32]).
  assert (RL : Forall readable (l ++ [D 72])) by (repeat (constructor; [first [apply in_mem; reflexivity|discriminate]|]); constructor).
  assert (R : Forall readable l) by (apply Forall_app in RL; tauto).
  assert (FE : str "%Y-%m-%d %H" = format_text (l ++ [D 72])) by reflexivity. rewrite FE.
  eexists. split; [apply PR; [exact RL|discriminate|cbn; tauto]|].
  set (txt := rt_txt a y mo d w (bday_of_year (leap_of rnd m y) mo d)). assert (PE : printed txt (l ++ [D 72]) = printed txt l ++ str "24").
  { unfold printed. rewrite flat_map_app. f_equal. cbn [flat_map ptext]. rewrite app_nil_r. unfold txt, rt_txt. cbn [Z.eqb Pos.eqb]. rewrite H. reflexivity. }
  rewrite PE. unfold strptime, start, find_regex, compile. rewrite (pattern_pieces sl (l ++ [D 72]) (Forall_impl _ (known_ok sl SL) RL) false). cbn [bind].
  rewrite (prx_groups sl _ (Forall_impl _ (known_ok sl SL) RL)). change (no_dup (letters (l ++ [D 72]))) with true. unfold run.
  assert (RD : Forall (reads sl txt) l).
  { apply reads_ok; try assumption; try lia; [|intro I; exfalso; revert I; cbn; intuition discriminate]. pose proof (doy_range (leap_of rnd m y) mo d KM) as Q. rewrite (leap_of_ok rnd N m E) in * by lia. specialize (Q KD). destruct (zleap y); lia. }
  pose proof (proj1 (match_prefix sl txt l [D 72] (str "24") [(72, str "2")] (str "4") RD eq_refl eq_refl Logic.I)) as M. unfold first in M.
  destruct (rmatch _ _) as [|[g r] rest]; [discriminate|]. cbn in M. injection M as -> ->. reflexivity.
Qed.
Print Assumptions C66_hour_24_refuted.

(** Refuted: the abbreviation of month 15 is that of month 11, and is read as month 11. *)
Theorem C66_month_15_refuted : forall rnd m lo sl zid a zi y d, Nearest rnd -> evening rnd m -> naw_ruz_order rnd m -> printable rnd m a zi y 15 d -> std sl ->
  exists t, dt_strftime rnd m lo a zi (str "%Y %b %d") = Ok t /\ strptime rnd m sl zid t (str "%Y %b %d") = Ok (mk_dt y 11 d 0 0 0 0 None).
Proof.
  intros rnd m lo sl zid a zi y d N E O P SL. destruct (print_rt rnd m a zi y 15 d N E O P) as (w & W & WR & PR).
  destruct P as (SU & (C & _) & _). destruct (sup_ok rnd m (dt_d a) y 15 d N E SU) as (DN & K & YL). pose proof K as (KY & KM & KD). pose proof (ok_small y 15 d K) as (_ & DS).
  pose (l := [D 89; L 32; D 98; L 32; D 100]).
  assert (RL : Forall readable l) by (repeat (constructor; [first [apply in_mem; reflexivity|discriminate]|]); constructor).
  assert (FE : str "%Y %b %d" = format_text l) by reflexivity. rewrite FE.
  eexists. split; [apply PR; [exact RL|discriminate|cbn; tauto]|].
  assert (PE : printed (rt_txt a y 15 d w (bday_of_year (leap_of rnd m y) 15 d)) l = printed (rt_txt (mk_dt y 11 d 0 0 0 0 None) y 11 d w 1) l) by reflexivity.
  assert (K11 : okd y 11 d) by (split; [exact KY|]; split; [lia|]; exact KD).
  unfold strptime, start. rewrite PE, find_pieces; [|apply (Forall_impl _ (known_ok sl SL) RL)|apply reads_ok; try assumption; try lia; [cbn; unfold valid_clock; lia|cbn; lia]|apply nodup_check; reflexivity].
  cbn [bind]. destruct (set_fields sl (mk_dt y 11 d 0 0 0 0 None) y 11 d w 1 SL) with (l := l) as (st & PF & ST); try assumption; try lia; [cbn; unfold valid_clock; lia|apply nodup_check; reflexivity|].
  rewrite PF. cbn [bind]. assert (A1 : st IsoYear = None) by (rewrite ST; reflexivity). assert (A2 : st IsoWeek = None) by (rewrite ST; reflexivity). assert (A3 : st WeekOfYear = None) by (rewrite ST; reflexivity).
  assert (A4 : st Gmtoff = None) by (rewrite ST; reflexivity).
  unfold check_iso_week. rewrite A1, A2. cbn [bind]. destruct (misc_ok rnd N m E O st y 11 d K11 YL) as (w' & j & MS); [rewrite ST; reflexivity|exact A1|exact A3|left; rewrite !ST; repeat split|].
  rewrite MS. cbn [bind]. rewrite A4. cbn [bind]. rewrite !ST. cbn -[date_new dt_new]. rewrite dt_new_eq, (new_short rnd N m E y 11 d K11). reflexivity.
Qed.
Print Assumptions C66_month_15_refuted.
Example C66_limits_case : forall rnd, Nearest rnd -> printable rnd sample_sun (before_noon 24) None (-1797) 19 18 /\
  dt_strftime b64 sample_sun sample_locale (before_noon 24) None (str "%Y-%m-%d %H") = Ok (str "-1797-19-18 24") /\
  strptime b64 sample_sun sample_sloc 0 (str "-1797-19-18 24") (str "%Y-%m-%d %H") = Err ValueError /\
  printable rnd sample_sun (mk_dt 183 15 4 0 0 0 0 None) None 183 15 4 /\
  strptime b64 sample_sun sample_sloc 0 (str "0183 Mas 04") (str "%Y %b %d") = Ok (mk_dt 183 11 4 0 0 0 0 None).
Proof.
  intros rnd N. split; [split; [sup|split; [split; [cbn; unfold valid_clock; lia|split; [left; reflexivity|intros o OO; discriminate]]|split; [reflexivity|left; reflexivity]]]|].
  split; [vm_compute; reflexivity|]. split; [vm_compute; reflexivity|].
  split; [split; [sup|split; [split; [cbn; unfold valid_clock; lia|split; [left; reflexivity|intros o OO; discriminate]]|split; [reflexivity|left; reflexivity]]]|].
  vm_compute. reflexivity.
Qed.
