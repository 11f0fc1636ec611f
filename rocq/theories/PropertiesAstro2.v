(** PropertiesAstro2.v -- the order of the sunsets that open the years, and what the date classes do with the sunsets the
    code itself computes: nothing is assumed of the sun any more, only correct rounding and an accurate library. *)
From Coq Require Import ZArith QArith Qreals Reals List Bool Lia Lra.
From Verif Require Import Base Flt QUtil BaseModel BadiModel BadiProofs DateModel TimeModel SpecBadi SpecDate SpecTime AstroModel SpecAstro TduProofs2 AstroNaw3 PropertiesAstro PropertiesDate PropertiesDate2 PropertiesDt.
Import ListNotations.
Local Open Scope Z_scope.

(** ** C87: no Naw-Ruz opens earlier in the day than (-1843, 19, 19) did *)
Theorem C87_naw_ruz_order : forall rnd lm, Nearest rnd -> accurate lm -> naw_ruz_order rnd (astro_set rnd lm).
Proof. intros rnd lm N A y Y. exact (none_earlier rnd N lm A y Y). Qed.
Print Assumptions C87_naw_ruz_order.
(** The same with the moments named: the Naw-Ruz of every year, and (-1843, 19, 19), have a first moment, and the
    fraction of the day (from noon, Universal Time) of the former is the later one. *)
Theorem C87_openings : forall rnd lm y, Nearest rnd -> accurate lm -> -1843 <= y <= 1162 -> let m := astro_set rnd lm in
  exists f f0, opening rnd m y 1 1 f /\ opening rnd m (-1843) 19 19 f0 /\ (f0 <= f)%Q.
Proof.
  intros rnd lm y N A Y m. pose proof (C87_naw_ruz_order rnd lm N A y Y) as O. pose proof (C86_evening rnd lm N A) as EV.
  destruct (TduProofs2.naw_ruz_AE rnd N m EV y Y) as (j & J & _). destruct (day0_AE rnd N lm A) as (j0 & J0 & _).
  exists (j - inject_Z (Qround.Qfloor j))%Q, (j0 - inject_Z (Qround.Qfloor j0))%Q.
  assert (P : opening rnd m y 1 1 (j - inject_Z (Qround.Qfloor j))%Q) by (exists j; split; [exact J|reflexivity]).
  assert (P0 : opening rnd m (-1843) 19 19 (j0 - inject_Z (Qround.Qfloor j0))%Q) by (exists j0; split; [exact J0|reflexivity]).
  split; [exact P|]. split; [exact P0|]. apply Qnot_lt_le. intro L. apply O. unfold opens_earlier. eauto.
Qed.
Print Assumptions C87_openings.
(** Hence, of the program with its own sunsets: ordinals count days, ... *)
Theorem C87_toordinal : forall rnd lm a y mo d, Nearest rnd -> accurate lm -> let m := astro_set rnd lm in
  supported rnd m a y mo d -> exists r, rata_die rnd m y mo d r /\ toordinal rnd m a = Ok (if existsb (Z.eqb y) [-1796; -1792; -1788] then r + 1 else r).
Proof.
  intros rnd lm a y mo d N A m S. pose proof (C86_evening rnd lm N A) as EV. pose proof (C87_naw_ruz_order rnd lm N A) as O.
  change [-1796; -1792; -1788] with stale_years. destruct (existsb (Z.eqb y) stale_years) eqn:X.
  - apply existsb_exists in X. destruct X as (z & I & Z). apply Z.eqb_eq in Z. subst z. exact (proj1 (C12_stale_refuted rnd m y N EV O I) a mo d S).
  - apply (C12_toordinal_counts_days rnd m a y mo d N EV O S). intro I.
    assert (existsb (Z.eqb y) stale_years = true) by (apply existsb_exists; exists y; split; [exact I|apply Z.eqb_refl]). congruence.
Qed.
Print Assumptions C87_toordinal.
(** ... fromordinal brings them back, ... *)
Theorem C87_roundtrip : forall rnd lm a y mo d, Nearest rnd -> accurate lm -> let m := astro_set rnd lm in
  supported rnd m a y mo d -> (y <= 1160 \/ (mo = 1 /\ d = 1)) -> ~ In (y, mo, d) refused_bdates -> ~ In y [-1796; -1792; -1788] ->
  exists n, toordinal rnd m a = Ok n /\ fromordinal rnd m (is_short a) n = Ok a.
Proof. intros rnd lm a y mo d N A m. apply C13_roundtrip; [exact N|exact (C86_evening rnd lm N A)|exact (C87_naw_ruz_order rnd lm N A)]. Qed.
Print Assumptions C87_roundtrip.
(** ... and in the three years singled out by the code, whose correction no sunset asks for, they bring back the next day. *)
Theorem C87_stale_years_refuted : forall rnd lm a y mo d y' mo' d' short, Nearest rnd -> accurate lm -> let m := astro_set rnd lm in
  supported rnd m a y mo d -> In y [-1796; -1792; -1788] -> next_bday (leap_of rnd m) (y, mo, d) (y', mo', d') ->
  exists n b, toordinal rnd m a = Ok n /\ fromordinal rnd m short n = Ok b /\ denotes b y' mo' d' /\ is_short b = short.
Proof. intros rnd lm a y mo d y' mo' d' short N A m. apply C13_stale_refuted; [exact N|exact (C86_evening rnd lm N A)|exact (C87_naw_ruz_order rnd lm N A)]. Qed.
Print Assumptions C87_stale_years_refuted.
(** Consecutive days have consecutive weekdays, ... *)
Theorem C87_weekdays : forall rnd lm a y mo d b y' mo' d', Nearest rnd -> accurate lm -> let m := astro_set rnd lm in
  supported rnd m a y mo d -> supported rnd m b y' mo' d' -> next_bday (leap_of rnd m) (y, mo, d) (y', mo', d') ->
  ~ In y [-1796; -1792; -1788] -> ~ In y' [-1796; -1792; -1788] ->
  exists w, weekday rnd m a = Ok w /\ weekday rnd m b = Ok ((w + 1) mod 7).
Proof. intros rnd lm a y mo d b y' mo' d' N A m. apply C18_cycle; [exact N|exact (C86_evening rnd lm N A)|exact (C87_naw_ruz_order rnd lm N A)]. Qed.
Print Assumptions C87_weekdays.
(** ... adding days to a date counts days, ... *)
Theorem C87_add : forall rnd lm a y mo d r n, Nearest rnd -> accurate lm -> let m := astro_set rnd lm in
  supported rnd m a y mo d -> rata_die rnd m y mo d r -> ~ In y [-1796; -1792; -1788] ->
  (r + n < 78 \/ 1097267 < r + n -> date_add rnd m a n = Err OverflowError) /\
  (1096902 < r + n <= 1097267 -> date_add rnd m a n = Err AssertionError) /\
  (78 <= r + n <= 1096902 -> exists y' mo' d', -1842 <= y' <= 1161 /\ valid_bday (leap_of rnd m) y' mo' d' /\ rata_die rnd m y' mo' d' (r + n) /\
     (In (y', mo', d') refused_bdates -> date_add rnd m a n = Err ValueError) /\
     (~ In (y', mo', d') refused_bdates -> exists b, date_add rnd m a n = Ok b /\ denotes b y' mo' d' /\ is_short b = is_short a)).
Proof. intros rnd lm a y mo d r n N A m. apply C17_add; [exact N|exact (C86_evening rnd lm N A)|exact (C87_naw_ruz_order rnd lm N A)]. Qed.
Print Assumptions C87_add.
(** ... and the difference of two datetimes is the time between them. *)
Theorem C87_difference : forall rnd lm a b l l', Nearest rnd -> accurate lm -> let m := astro_set rnd lm in
  on_line rnd m a l -> on_line rnd m b l' -> steady_dt a -> steady_dt b ->
  good_offset (dt_tz a) -> good_offset (dt_tz b) -> coherent (dt_tz a) (dt_tz b) ->
  dt_sub rnd m a b = match offset (dt_tz a), offset (dt_tz b) with
                     | None, None => Ok (l - l')
                     | Some x, Some y => Ok ((l - x) - (l' - y))
                     | _, _ => Err TypeError
                     end.
Proof. intros rnd lm a b l l' N A m. apply C25_difference; [exact N|exact (C86_evening rnd lm N A)|exact (C87_naw_ruz_order rnd lm N A)]. Qed.
Print Assumptions C87_difference.
Example C87_case : Nearest b64 /\ accurate real_libm /\ let m := astro_set b64 real_libm in
  supported b64 m (DShort 181 19 19) 181 19 19 /\ supported b64 m (DShort 182 1 1) 182 1 1 /\
  next_bday (leap_of b64 m) (181, 19, 19) (182, 1, 1) /\ supported b64 m (DShort (-1796) 3 7) (-1796) 3 7.
Proof.
  split; [exact b64_nearest|]. split; [exact real_libm_accurate|]. cbv zeta.
  assert (V : forall y mo d, 1 <= mo <= 19 -> 1 <= d <= 19 -> valid_bday (leap_of b64 (astro_set b64 real_libm)) y mo d)
    by (intros y mo d M D; split; [lia|]; unfold bmonth_len; destruct (Z.eqb_spec mo 0); [lia|exact D]).
  repeat split; try lia; try (constructor); try (apply V; lia).
Qed.
