(** PropertiesDate2.v -- C14 to C21 and C48 for dates: order, hashing, arithmetic, weeks, pickling, replace. *)
From Coq Require Import ZArith QArith Qround Qabs List Bool Lia.
From Coq Require Import ZifyBool ZifyNat ZifyN.
From Verif Require Import Base Flt BaseModel MiscModel BadiModel SpecBadi BadiProofs BadiProofs2 BadiProofs3 DecProofs BadiProofs4 LongYear LongProofs BadiProofs5
  TduModel DateModel SpecDate TduProofs TduProofs2 TduProofs3 DateProofs SampleSun PropertiesBadi PropertiesDate.
Import ListNotations.
Local Open Scope Z_scope.
Ltac Zify.zify_post_hook ::= Z.div_mod_to_equations.
Ltac sup := split; [cbn; lia|]; split; [lia|]; split; [lia|vm_compute; split; discriminate].

(** ** C14: order and chronology *)
Lemma cmp3 y mo d y' mo' d' : let c := cmp_tuple [y; mo; d] [y'; mo'; d'] in
  (c <? 0) = ((y <? y') || (y =? y') && ((mo <? mo') || (mo =? mo') && (d <? d'))) /\
  (c =? 0) = ((y =? y') && (mo =? mo') && (d =? d')).
Proof.
  cbn [cmp_tuple]. destruct (Z.eqb_spec y y'), (Z.ltb_spec y' y); try lia; cbn [andb orb];
  destruct (Z.eqb_spec mo mo'), (Z.ltb_spec mo' mo); try lia; cbn [andb orb]; destruct (Z.eqb_spec d d'), (Z.ltb_spec d' d); cbn [andb orb]; lia.
Qed.
(** Days of one year, one in Ayyam-i-Ha and the other in months 1..18. *)
Definition ayyam_clash (y mo y' mo' : Z) : Prop := y = y' /\ (mo = 0 /\ 1 <= mo' <= 18 \/ mo' = 0 /\ 1 <= mo <= 18).
Theorem C14_order_chronological : forall rnd m y mo d y' mo' d', Nearest rnd -> evening rnd m ->
  supported rnd m (DShort y mo d) y mo d -> supported rnd m (DShort y' mo' d') y' mo' d' -> ~ ayyam_clash y mo y' mo' ->
  (date_lt (DShort y mo d) (DShort y' mo' d') = Ok true <-> bearlier y mo d y' mo' d') /\
  (date_eq (DShort y mo d) (DShort y' mo' d') = Ok true <-> (y, mo, d) = (y', mo', d')).
Proof.
  intros rnd m y mo d y' mo' d' N E S S' C. destruct (sup_ok rnd m _ y mo d N E S) as (_ & K & _). destruct (sup_ok rnd m _ y' mo' d' N E S') as (_ & K' & _).
  unfold date_lt, date_eq, date_cmp. cbn [bind]. destruct (cmp3 y mo d y' mo' d') as [L Q]. rewrite L, Q. clear L Q. 
  unfold bearlier, bmonth_pos, ayyam_clash, okd in *. split.
  - split; [intro H; assert (B : (y <? y') || (y =? y') && ((mo <? mo') || (mo =? mo') && (d <? d')) = true) by congruence; clear H|intro H; f_equal];
    destruct (Z.eqb_spec mo 0), (Z.eqb_spec mo' 0), (Z.eqb_spec mo 19), (Z.eqb_spec mo' 19); lia.
  - split; intro H; [assert (B : (y =? y') && (mo =? mo') && (d =? d') = true) by congruence; do 2 f_equal; lia|].
    assert (y = y' /\ mo = mo' /\ d = d') as (-> & -> & ->) by (repeat split; congruence). rewrite !Z.eqb_refl. reflexivity.
Qed.
Print Assumptions C14_order_chronological.
(** In terms of ordinals. *)
Theorem C14_order_ordinals : forall rnd m y mo d y' mo' d', Nearest rnd -> evening rnd m -> naw_ruz_order rnd m ->
  supported rnd m (DShort y mo d) y mo d -> supported rnd m (DShort y' mo' d') y' mo' d' -> ~ In y stale_years -> ~ In y' stale_years ->
  exists n n', toordinal rnd m (DShort y mo d) = Ok n /\ toordinal rnd m (DShort y' mo' d') = Ok n' /\
    (~ ayyam_clash y mo y' mo' -> (date_lt (DShort y mo d) (DShort y' mo' d') = Ok true <-> n < n')) /\
    (ayyam_clash y mo y' mo' -> (date_lt (DShort y mo d) (DShort y' mo' d') = Ok true <-> n' < n)).
Proof.
  intros rnd m y mo d y' mo' d' N E O S S' ST ST'. destruct (sup_ok rnd m _ y mo d N E S) as (D & K & _). destruct (sup_ok rnd m _ y' mo' d' N E S') as (D' & K' & _).
  exists (zrd y mo d), (zrd y' mo' d'). split; [rewrite <- (zord_steady y mo d ST); apply (toord_ok rnd N m E O); assumption|].
  split; [rewrite <- (zord_steady y' mo' d' ST'); apply (toord_ok rnd N m E O); assumption|].
  split; intro C.
  - rewrite (proj1 (C14_order_chronological rnd m y mo d y' mo' d' N E S S' C)). apply earlier_rd; assumption.
  - rewrite <- earlier_rd by assumption. unfold date_lt, date_cmp. cbn [bind]. destruct (cmp3 y mo d y' mo' d') as [L _]. rewrite L.
    unfold bearlier, bmonth_pos, ayyam_clash in *. destruct C as [-> C]. 
    split; [intro H; assert (B : (y' <? y') || (y' =? y') && ((mo <? mo') || (mo =? mo') && (d <? d')) = true) by congruence; clear H|intro H; f_equal];
    destruct (Z.eqb_spec mo 0), (Z.eqb_spec mo' 0), (Z.eqb_spec mo 19), (Z.eqb_spec mo' 19); lia.
Qed.
Print Assumptions C14_order_ordinals.
(** Long form dates: comparison is chronological with the same exception. *)
Theorem C14_order_long : forall rnd m k v yy mo d y k' v' yy' mo' d' y', Nearest rnd -> evening rnd m ->
  supported rnd m (DLong k v yy mo d) y mo d -> supported rnd m (DLong k' v' yy' mo' d') y' mo' d' -> ~ ayyam_clash y mo y' mo' ->
  (date_lt (DLong k v yy mo d) (DLong k' v' yy' mo' d') = Ok true <-> bearlier y mo d y' mo' d').
Proof.
  intros rnd m k v yy mo d y k' v' yy' mo' d' y' N E S S' C. destruct (sup_ok rnd m _ y mo d N E S) as (D & K & _). destruct (sup_ok rnd m _ y' mo' d' N E S') as (D' & K' & _).
  cbn [denotes] in D, D'. destruct D as (V & Y & L & _). destruct D' as (V' & Y' & L' & _).
  unfold date_lt, date_cmp. cbn [bind cmp_tuple]. unfold bearlier, bmonth_pos, ayyam_clash, okd in *. 
  assert (Q : (if k =? k' then if v =? v' then if yy =? yy' then if mo =? mo' then if d =? d' then 0 else if d' <? d then 1 else -1 else if mo' <? mo then 1 else -1
     else if yy' <? yy then 1 else -1 else if v' <? v then 1 else -1 else if k' <? k then 1 else -1) =
     if y =? y' then if mo =? mo' then if d =? d' then 0 else if d' <? d then 1 else -1 else if mo' <? mo then 1 else -1 else if y' <? y then 1 else -1).
  { destruct (Z.eqb_spec k k') as [<-|]; [destruct (Z.eqb_spec v v') as [<-|]; [destruct (Z.eqb_spec yy yy') as [<-|]|]|].
    - assert (Z1 : (y =? y') = true) by lia. rewrite Z1. reflexivity.
    - assert (Z1 : (y =? y') = false) by lia. rewrite Z1. destruct (Z.ltb_spec yy' yy), (Z.ltb_spec y' y); lia.
    - assert (Z1 : (y =? y') = false) by lia. rewrite Z1. destruct (Z.ltb_spec v' v), (Z.ltb_spec y' y); lia.
    - assert (Z1 : (y =? y') = false) by lia. rewrite Z1. destruct (Z.ltb_spec k' k), (Z.ltb_spec y' y); lia. }
  rewrite Q. clear Q. split; [intro H; match type of H with Ok ?x = _ => assert (B : x = true) by congruence end; clear H|intro H; f_equal];
  destruct (Z.eqb_spec y y'), (Z.ltb_spec y' y); try lia; 
  destruct (Z.eqb_spec mo mo'), (Z.ltb_spec mo' mo), (Z.eqb_spec d d'), (Z.ltb_spec d' d); try lia;
  destruct (Z.eqb_spec mo 0), (Z.eqb_spec mo' 0), (Z.eqb_spec mo 19), (Z.eqb_spec mo' 19); lia.
Qed.
Print Assumptions C14_order_long.
Example C14_case : supported b64 sample_sun (DShort 181 0 1) 181 0 1 /\ supported b64 sample_sun (DShort 181 18 19) 181 18 19 /\
  ayyam_clash 181 0 181 18 /\ ~ ayyam_clash 181 18 181 19 /\
  date_lt (DShort 181 0 1) (DShort 181 18 19) = Ok true /\ date_lt (DShort 181 18 19) (DShort 181 19 1) = Ok true.
Proof. split; [sup|]. split; [sup|]. unfold ayyam_clash. split; [lia|]. split; [lia|]. vm_compute. tauto. Qed.

(** ** C15: total order on each form *)
Lemma cmp_eq a : forall b, length a = length b -> (cmp_tuple a b = 0 <-> a = b).
Proof.
  induction a as [|x a IH]; intros [|y b] L; try discriminate; [cbn; tauto|]. cbn [cmp_tuple]. cbn [length] in L. specialize (IH b ltac:(lia)).
  destruct (Z.eqb_spec x y) as [->|]; [rewrite IH; split; congruence|]. destruct (y <? x); split; intro; try lia; congruence.
Qed.
Lemma cmp_anti a : forall b, cmp_tuple b a = - cmp_tuple a b.
Proof.
  induction a as [|x a IH]; intros [|y b]; try reflexivity. cbn [cmp_tuple]. rewrite IH, (Z.eqb_sym y x).
  destruct (Z.eqb_spec x y); [reflexivity|]. destruct (Z.ltb_spec x y), (Z.ltb_spec y x); lia.
Qed.
Lemma cmp_trans a : forall b c, length a = length b -> length b = length c -> cmp_tuple a b < 0 -> cmp_tuple b c < 0 -> cmp_tuple a c < 0.
Proof.
  induction a as [|x a IH]; intros [|y b] [|z c] L L'; try discriminate; cbn [cmp_tuple]. cbn [length] in *. specialize (IH b c ltac:(lia) ltac:(lia)).
  destruct (Z.eqb_spec x y) as [->|], (Z.eqb_spec y z) as [->|]; rewrite ?Z.eqb_refl.
  - exact IH.
  - destruct (y =? z) eqn:?; [lia|]. tauto.
  - destruct (Z.eqb_spec x z); [lia|]. tauto.
  - destruct (Z.ltb_spec y x); [lia|]. destruct (Z.ltb_spec z y); [lia|]. destruct (Z.eqb_spec x z); [lia|]. destruct (Z.ltb_spec z x); lia.
Qed.
Lemma cmp_fields a b : is_short a = is_short b -> date_cmp a b = Ok (cmp_tuple (b_date a) (b_date b)) /\ length (b_date a) = length (b_date b).
Proof. destruct a, b; try discriminate; intros _; split; reflexivity. Qed.
Lemma b_date_inj a b : is_short a = is_short b -> b_date a = b_date b -> a = b.
Proof. destruct a, b; try discriminate; cbn; congruence. Qed.

Theorem C15_total_order : forall a b, is_short a = is_short b ->
  exists e l, date_eq a b = Ok e /\ date_lt a b = Ok l /\ (e = true <-> a = b) /\ (l = true -> e = false) /\
    date_le a b = Ok (l || e) /\ date_gt a b = Ok (negb (l || e)) /\ date_ge a b = Ok (negb l) /\
    date_eq b a = Ok e /\ date_lt b a = Ok (negb (l || e)).
Proof.
  intros a b F. destruct (cmp_fields a b F) as [C L]. destruct (cmp_fields b a (eq_sym F)) as [C' _]. rewrite (cmp_anti (b_date a)) in C'.
  unfold date_eq, date_lt, date_le, date_gt, date_ge. rewrite C, C'. cbn [bind].
  set (c := cmp_tuple (b_date a) (b_date b)) in *. exists (c =? 0), (c <? 0). pose proof (cmp_eq _ _ L) as Q. fold c in Q.
  split; [reflexivity|]. split; [reflexivity|]. split.
  { rewrite Z.eqb_eq, Q. split; [apply b_date_inj, F|congruence]. }
  split; [lia|]. repeat split; f_equal; lia.
Qed.
Print Assumptions C15_total_order.
Theorem C15_transitive : forall a b c, is_short a = is_short b -> is_short b = is_short c ->
  date_lt a b = Ok true -> date_lt b c = Ok true -> date_lt a c = Ok true.
Proof.
  intros a b c F G A B. destruct (cmp_fields a b F) as [C L]. destruct (cmp_fields b c G) as [C' L']. destruct (cmp_fields a c ltac:(congruence)) as [C'' _].
  unfold date_lt in *. rewrite C in A. rewrite C' in B. rewrite C''. cbn [bind] in *. f_equal.
  pose proof (cmp_trans _ _ (b_date c) L L'). assert (X : (cmp_tuple (b_date a) (b_date b) <? 0) = true) by congruence. assert (Y : (cmp_tuple (b_date b) (b_date c) <? 0) = true) by congruence. lia.
Qed.
Print Assumptions C15_transitive.
Example C15_case : date_lt (DLong 1 10 10 1 1) (DLong 1 10 10 19 19) = Ok true /\ date_eq (DShort 181 0 1) (DShort 181 0 1) = Ok true /\
  is_short (DShort 181 0 1) = is_short (DShort 182 1 1) /\ date_lt (DShort 181 0 1) (DShort 182 1 1) = Ok true.
Proof. vm_compute. tauto. Qed.

(** ** C16: equality and hashing *)
Theorem C16_equal_dates_hash_equal : forall rnd m a y mo d b, Nearest rnd -> evening rnd m -> supported rnd m a y mo d ->
  is_short a = is_short b -> date_eq a b = Ok true -> exists h, hash_key a = Ok h /\ hash_key b = Ok h.
Proof.
  intros rnd m a y mo d b N E S F Q. destruct (C15_total_order a b F) as (e & l & Q' & _ & I & _).
  assert (e = true) by congruence. assert (a = b) by tauto. subst b.
  destruct (sup_ok rnd m a y mo d N E S) as (D & K & L). cut (exists h, hash_key a = Ok h); [intros [h HH]; exists h; tauto|].
  unfold hash_key, getstate, to_bytes, MINYEAR, okd in *. assert (LE : bmonth_len (zleap y) mo <= 19) by (unfold bmonth_len; destruct (mo =? 0), (zleap y); lia).
  destruct a as [y0 mo0 d0|k v yy mo0 d0]; cbn [denotes] in D.
  - destruct D as (-> & -> & ->). assert (B : forallb (fun x => (0 <=? x) && (x <? 256)) [(y - -1842) / 256; (y - -1842) mod 256; mo; d] = true) by (cbn [forallb]; lia).
    rewrite B. eauto.
  - destruct D as (V & Y & LY & -> & ->). assert (B : forallb (fun x => (0 <=? x) && (x <? 256)) [k + 19; v; yy; mo; d] = true) by (cbn [forallb]; lia). rewrite B. eauto.
Qed.
Print Assumptions C16_equal_dates_hash_equal.
(** Dates of one form with equal hash keys are equal. *)
Theorem C16_hash_key_faithful : forall a b h, is_short a = is_short b -> hash_key a = Ok h -> hash_key b = Ok h -> a = b.
Proof.
  intros a b h F A B. unfold hash_key, getstate, to_bytes in *.
  destruct a as [y mo d|k v yy mo d], b as [y' mo' d'|k' v' yy' mo' d']; try discriminate.
  - destruct (forallb _ _); [|discriminate]. destruct (forallb _ _); [|discriminate].
    assert (Q : [(y - MINYEAR) / 256; (y - MINYEAR) mod 256; mo; d] = [(y' - MINYEAR) / 256; (y' - MINYEAR) mod 256; mo'; d']) by congruence.
    injection Q as Q1 Q2 -> ->. f_equal. lia.
  - destruct (forallb _ _); [|discriminate]. destruct (forallb _ _); [|discriminate].
    assert (Q : [k + 19; v; yy; mo; d] = [k' + 19; v'; yy'; mo'; d']) by congruence. injection Q as Q1 -> -> -> ->. f_equal. lia.
Qed.
Print Assumptions C16_hash_key_faithful.
(** Across forms: a short date equals every long date with the same year number, whatever day that is; the
    hashes differ and the reversed comparison raises AttributeError. *)
Theorem C16_mixed_forms_refuted : forall k v yy mo d,
  date_eq (DShort yy mo d) (DLong k v yy mo d) = Ok true /\
  date_eq (DLong k v yy mo d) (DShort yy mo d) = Err AttributeError /\
  (forall h h', hash_key (DShort yy mo d) = Ok h -> hash_key (DLong k v yy mo d) = Ok h' -> h <> h').
Proof.
  intros k v yy mo d. unfold date_eq, date_cmp. cbn [bind cmp_tuple]. rewrite !Z.eqb_refl. split; [reflexivity|]. split; [reflexivity|].
  intros h h' A B E. unfold hash_key, getstate, to_bytes in *. destruct (forallb _ _); [|discriminate]. destruct (forallb _ _); [|discriminate]. congruence.
Qed.
Print Assumptions C16_mixed_forms_refuted.
Example C16_case : supported b64 sample_sun (DShort 10 1 1) 10 1 1 /\ supported b64 sample_sun (DLong 1 10 10 1 1) 181 1 1 /\
  date_eq (DShort 10 1 1) (DLong 1 10 10 1 1) = Ok true /\ hash_key (DShort 10 1 1) = Ok [7; 60; 1; 1] /\ hash_key (DLong 1 10 10 1 1) = Ok [20; 10; 10; 1; 1].
Proof. split; [sup|]. split; [sup|]. vm_compute. tauto. Qed.

(** ** C17: arithmetic *)
(** What [d + timedelta(days=n)] does, by the rata die of the target day. *)
Theorem C17_add : forall rnd m a y mo d r n, Nearest rnd -> evening rnd m -> naw_ruz_order rnd m -> supported rnd m a y mo d -> rata_die rnd m y mo d r -> ~ In y stale_years ->
  (r + n < 78 \/ 1097267 < r + n -> date_add rnd m a n = Err OverflowError) /\
  (1096902 < r + n <= 1097267 -> date_add rnd m a n = Err AssertionError) /\
  (78 <= r + n <= 1096902 -> exists y' mo' d', -1842 <= y' <= 1161 /\ valid_bday (leap_of rnd m) y' mo' d' /\ rata_die rnd m y' mo' d' (r + n) /\
     (In (y', mo', d') refused_bdates -> date_add rnd m a n = Err ValueError) /\
     (~ In (y', mo', d') refused_bdates -> exists b, date_add rnd m a n = Ok b /\ denotes b y' mo' d' /\ is_short b = is_short a)).
Proof.
  intros rnd m a y mo d r n N E O S R ST. destruct (sup_ok rnd m a y mo d N E S) as (D & K & _).
  apply (rata_die_zrd rnd N m E) in R; [|apply K|apply K]. subst r. rewrite (add_ok rnd N m E O a y mo d n D K), (zord_steady y mo d ST).
  split; [|split].
  - intro H. assert (Q : (77 <? zrd y mo d + n) && (zrd y mo d + n <=? 1097267) = false) by lia. rewrite Q. reflexivity.
  - intro H. assert (Q : (77 <? zrd y mo d + n) && (zrd y mo d + n <=? 1097267) = true) by lia. rewrite Q. apply (fromord_out rnd N m E). lia.
  - intro H. assert (Q : (77 <? zrd y mo d + n) && (zrd y mo d + n <=? 1097267) = true) by lia. rewrite Q.
    destruct (rd_exists (zrd y mo d + n) ltac:(lia)) as (y' & mo' & d' & Y' & M' & D' & Z'). assert (K' : okd y' mo' d') by (unfold okd; tauto).
    exists y', mo', d'. split.
    { pose proof (rd_range y' mo' d' Y' M' D'). assert (ystart (-1842) = 78) by (vm_compute; reflexivity).
      destruct (Z.eq_dec y' (-1843)) as [->|]; [|lia]. change (-1843 + 1) with (-1842) in *. lia. }
    split; [apply (ok_valid rnd N m E), K'|]. split; [apply (rata_die_zrd rnd N m E); [exact Y'|exact M'|lia]|].
    rewrite <- Z'. rewrite (fromord_ok rnd N m E _ y' mo' d' K') by lia. split; intro I.
    + apply inb_in in I. rewrite I. reflexivity.
    + destruct (inb (y', mo', d') refused_bdates) eqn:J; [exfalso; apply I, inb_in, J|]. eexists. split; [reflexivity|]. apply (form_denotes rnd N). exact K'.
Qed.
Print Assumptions C17_add.
Lemma add_inv rnd m a y mo d n b : Nearest rnd -> evening rnd m -> naw_ruz_order rnd m -> denotes a y mo d -> okd y mo d -> date_add rnd m a n = Ok b ->
  exists y' mo' d', okd y' mo' d' /\ -1842 <= y' /\ zord y mo d + n = zrd y' mo' d' /\ b = form_of rnd (is_short a) y' mo' d' /\ denotes b y' mo' d' /\ is_short b = is_short a.
Proof.
  intros N E O D K A. rewrite (add_ok rnd N m E O a y mo d n D K) in A.
  destruct ((77 <? zord y mo d + n) && (zord y mo d + n <=? 1097267)) eqn:Q; [|discriminate].
  destruct (fromord_inv rnd N m E (is_short a) (zord y mo d + n) b ltac:(lia) A) as (y' & mo' & d' & K' & Z' & _ & _ & ->). exists y', mo', d'. split; [exact K'|]. split.
  { destruct K' as (Y' & M' & D'). pose proof (rd_range y' mo' d' Y' M' D'). assert (ystart (-1842) = 78) by (vm_compute; reflexivity).
    destruct (Z.eq_dec y' (-1843)) as [->|]; [|lia]. change (-1843 + 1) with (-1842) in *. lia. }
  split; [exact Z'|]. split; [reflexivity|]. apply (form_denotes rnd N). exact K'.
Qed.
(** (d + n) - d = n unless d + n is in a stale year, and the sum keeps the form. *)
Theorem C17_add_then_subtract : forall rnd m a y mo d n b, Nearest rnd -> evening rnd m -> naw_ruz_order rnd m -> supported rnd m a y mo d ->
  date_add rnd m a n = Ok b -> is_short b = is_short a /\ exists y' mo' d', supported rnd m b y' mo' d' /\ (~ In y' stale_years -> date_sub rnd m b a = Ok n).
Proof.
  intros rnd m a y mo d n b N E O S A. pose proof (sup_ok rnd m a y mo d N E S) as (D & K & _).
  destruct (add_inv rnd m a y mo d n b N E O D K A) as (y' & mo' & d' & K' & Y' & Z' & _ & D' & F).
  split; [exact F|]. exists y', mo', d'. split.
  - split; [exact D'|]. split; [unfold okd in K'; lia|]. apply (ok_valid rnd N m E), K'.
  - intro ST. unfold date_sub. rewrite (toord_ok rnd N m E O b y' mo' d' D' K'), (toord_ok rnd N m E O a y mo d D K), (zord_steady y' mo' d' ST). cbn [bind]. f_equal. lia.
Qed.
Print Assumptions C17_add_then_subtract.
(** d1 + (d2 - d1) = d2, unless d2 is a refused day, after the first day of 1161 or in a stale year. *)
Theorem C17_add_difference : forall rnd m a y mo d b y' mo' d', Nearest rnd -> evening rnd m -> naw_ruz_order rnd m ->
  supported rnd m a y mo d -> supported rnd m b y' mo' d' -> is_short a = is_short b ->
  (y' <= 1160 \/ (mo' = 1 /\ d' = 1)) -> ~ In (y', mo', d') refused_bdates -> ~ In y' stale_years ->
  exists n, date_sub rnd m b a = Ok n /\ date_add rnd m a n = Ok b.
Proof.
  intros rnd m a y mo d b y' mo' d' N E O S S' F L R ST. pose proof (sup_ok rnd m a y mo d N E S) as (D & K & _). pose proof (sup_ok rnd m b y' mo' d' N E S') as (D' & K' & Y').
  exists (zrd y' mo' d' - zord y mo d). split.
  - unfold date_sub. rewrite (toord_ok rnd N m E O b y' mo' d' D' K'), (toord_ok rnd N m E O a y mo d D K), (zord_steady y' mo' d' ST). reflexivity.
  - rewrite (add_ok rnd N m E O a y mo d _ D K). replace (zord y mo d + (zrd y' mo' d' - zord y mo d)) with (zrd y' mo' d') by lia.
    pose proof (late_bound y' mo' d' K' L) as LB. pose proof K' as (YY & MM & DD). pose proof (rd_range y' mo' d' YY MM DD) as RR.
    assert (B : 78 <= ystart y') by (assert (Q : ystart (-1842) = 78) by (vm_compute; reflexivity); pose proof (ystart_mono (-1842) y' ltac:(lia) ltac:(lia)); lia).
    assert (Q : (77 <? zrd y' mo' d') && (zrd y' mo' d' <=? 1097267) = true) by lia. rewrite Q.
    rewrite (fromord_ok rnd N m E) by (exact K' || exact LB). destruct (inb (y', mo', d') refused_bdates) eqn:J; [exfalso; apply R, inb_in, J|].
    f_equal. rewrite F. symmetry. apply (denotes_form_of rnd N); assumption.
Qed.
Print Assumptions C17_add_difference.
(** (d + n) + k = d + (n + k), errors included, unless d + n is in a stale year. *)
Theorem C17_add_add : forall rnd m a y mo d n k b y' mo' d', Nearest rnd -> evening rnd m -> naw_ruz_order rnd m -> supported rnd m a y mo d ->
  supported rnd m b y' mo' d' -> ~ In y' stale_years -> date_add rnd m a n = Ok b -> date_add rnd m b k = date_add rnd m a (n + k).
Proof.
  intros rnd m a y mo d n k b y0 mo0 d0 N E O S S0 ST A. pose proof (sup_ok rnd m a y mo d N E S) as (D & K & _).
  destruct (add_inv rnd m a y mo d n b N E O D K A) as (y' & mo' & d' & K' & Y' & Z' & _ & D' & F).
  assert (y' = y0). { destruct S0 as [S0 _]. destruct b; cbn [denotes] in S0, D'; lia. } subst y0.
  rewrite (add_ok rnd N m E O a y mo d _ D K), (add_ok rnd N m E O b y' mo' d' _ D' K'), F, (zord_steady y' mo' d' ST), <- Z'.
  replace (zord y mo d + n + k) with (zord y mo d + (n + k)) by lia. reflexivity.
Qed.
Print Assumptions C17_add_add.
(** Subtracting days undoes adding them. *)
Theorem C17_add_sub : forall rnd m a y mo d n b y' mo' d', Nearest rnd -> evening rnd m -> naw_ruz_order rnd m -> supported rnd m a y mo d ->
  (y <= 1160 \/ (mo = 1 /\ d = 1)) -> ~ In (y, mo, d) refused_bdates -> ~ In y stale_years ->
  supported rnd m b y' mo' d' -> ~ In y' stale_years -> date_add rnd m a n = Ok b -> date_sub_days rnd m b n = Ok a.
Proof.
  intros rnd m a y mo d n b y' mo' d' N E O S L R ST S' ST' A. unfold date_sub_days. rewrite (C17_add_add rnd m a y mo d n (- n) b y' mo' d' N E O S S' ST' A).
  destruct (C17_add_difference rnd m a y mo d a y mo d N E O S S eq_refl L R ST) as (k & K & Q).
  assert (k = 0). { unfold date_sub in K. destruct (toordinal rnd m a) as [x|]; [|discriminate]. cbn [bind] in K. assert (x - x = k) by congruence. lia. }
  subst k. replace (n + - n) with 0 by lia. exact Q.
Qed.
Print Assumptions C17_add_sub.
Example C17_case : supported b64 sample_sun (DShort 181 18 19) 181 18 19 /\ date_add b64 sample_sun (DShort 181 18 19) 5 = Ok (DShort 181 19 1) /\
  date_add b64 sample_sun (DLong 1 10 10 18 19) 5 = Ok (DLong 1 10 10 19 1) /\ date_sub b64 sample_sun (DShort 181 19 1) (DLong 1 10 10 18 19) = Ok 5 /\
  date_add b64 sample_sun (DShort (-1842) 1 1) (-1) = Err OverflowError /\ date_add b64 sample_sun (DShort 1161 1 1) 1 = Err AssertionError /\
  date_add b64 sample_sun (DShort (-261) 11 1) 10 = Err ValueError.
Proof. split; [sup|]. vm_compute. tauto. Qed.

(** ** C18: weekdays *)
Theorem C18_weekday : forall rnd m a y mo d r, Nearest rnd -> evening rnd m -> naw_ruz_order rnd m -> supported rnd m a y mo d -> rata_die rnd m y mo d r -> ~ In y stale_years ->
  exists w, weekday rnd m a = Ok w /\ 0 <= w <= 6 /\ isoweekday rnd m a = Ok (w + 1) /\ (w = 0 <-> is_saturday r) /\ (exists s, is_saturday s /\ r = s + w).
Proof.
  intros rnd m a y mo d r N E O S R ST. destruct (sup_ok rnd m a y mo d N E S) as (D & K & _).
  apply (rata_die_zrd rnd N m E) in R; [|apply K|apply K]. subst r. destruct (weekday_ok rnd N m E O a y mo d D K) as [W I]. rewrite (zord_steady y mo d ST) in W, I.
  exists ((zrd y mo d + 1) mod 7). split; [exact W|]. split; [lia|]. split; [exact I|]. unfold is_saturday. split; [lia|].
  exists (zrd y mo d - (zrd y mo d + 1) mod 7). lia.
Qed.
Print Assumptions C18_weekday.
(** In a stale year the weekday is the next one. *)
Theorem C18_stale_refuted : forall rnd m a y mo d r, Nearest rnd -> evening rnd m -> naw_ruz_order rnd m -> supported rnd m a y mo d -> rata_die rnd m y mo d r -> In y stale_years ->
  exists w s, weekday rnd m a = Ok w /\ 0 <= w <= 6 /\ is_saturday s /\ r + 1 = s + w.
Proof.
  intros rnd m a y mo d r N E O S R ST. destruct (sup_ok rnd m a y mo d N E S) as (D & K & _).
  apply (rata_die_zrd rnd N m E) in R; [|apply K|apply K]. subst r. destruct (weekday_ok rnd N m E O a y mo d D K) as [W I].
  assert (F : zord y mo d = zrd y mo d + 1) by (unfold zord; rewrite (proj1 (fudge_in y) ST); reflexivity). rewrite F in W.
  exists ((zrd y mo d + 1 + 1) mod 7), (zrd y mo d + 1 - (zrd y mo d + 1 + 1) mod 7). split; [exact W|]. unfold is_saturday. lia.
Qed.
Print Assumptions C18_stale_refuted.
(** No date outside the stale years interrupts the cycle of seven days. *)
Theorem C18_cycle : forall rnd m a y mo d b y' mo' d', Nearest rnd -> evening rnd m -> naw_ruz_order rnd m ->
  supported rnd m a y mo d -> supported rnd m b y' mo' d' -> next_bday (leap_of rnd m) (y, mo, d) (y', mo', d') ->
  ~ In y stale_years -> ~ In y' stale_years -> exists w, weekday rnd m a = Ok w /\ weekday rnd m b = Ok ((w + 1) mod 7).
Proof.
  intros rnd m a y mo d b y' mo' d' N E O S S' X ST ST'. destruct (sup_ok rnd m a y mo d N E S) as (D & K & _). destruct (sup_ok rnd m b y' mo' d' N E S') as (D' & K' & _).
  destruct (weekday_ok rnd N m E O a y mo d D K) as [W _]. destruct (weekday_ok rnd N m E O b y' mo' d' D' K') as [W' _]. rewrite zord_steady in W, W' by assumption.
  eexists. split; [exact W|]. rewrite W'. f_equal. rewrite (next_zrd rnd N m E y mo d y' mo' d') by (apply K || exact X). lia.
Qed.
Print Assumptions C18_cycle.
(** A Badi day is named after the civil day on which it opens, on the code's own day count: 1 Baha 1 is a Tuesday
    (Fidal, 3). *)
Example C18_case : supported b64 sample_sun (DShort 1 1 1) 1 1 1 /\ weekday b64 sample_sun (DShort 1 1 1) = Ok 3 /\
  weekday b64 sample_sun (DShort 181 18 19) = Ok 1 /\ weekday b64 sample_sun (DLong 1 10 10 0 1) = Ok 2.
Proof. split; [sup|]. vm_compute. tauto. Qed.

(** ** C19: isocalendar *)
Theorem C19_isocalendar : forall rnd m a y mo d r, Nearest rnd -> evening rnd m -> naw_ruz_order rnd m -> supported rnd m a y mo d -> rata_die rnd m y mo d r ->
  (forall y', y - 1 <= y' <= y + 1 -> ~ In y' stale_years) ->
  exists iy wk wd f w, isocalendar rnd m a = Ok (iy, wk, wd) /\ 1 <= wk <= 53 /\ 1 <= wd <= 7 /\ y - 1 <= iy <= y + 1 /\
    year_table rnd m iy = Some f /\ opens_week1 f w /\ r = w + 7 * (wk - 1) + (wd - 1) /\
    (iy <= 1161 -> exists f' w', year_table rnd m (iy + 1) = Some f' /\ opens_week1 f' w' /\ r < w').
Proof.
  intros rnd m a y mo d r N E O S R ST. destruct (sup_ok rnd m a y mo d N E S) as (D & K & Y0).
  apply (rata_die_zrd rnd N m E) in R; [|apply K|apply K]. subst r. destruct K as (Y & M & DD).
  rewrite (isocal_ok rnd N m E a y mo d D ltac:(unfold okd; tauto)).
  destruct (ywd_ok rnd N m E O y mo d ST Y M DD) as (iy & (I1 & I2) & Q & A & B).
  pose proof (w1_spec (ystart iy)) as W. set (w := w1 (ystart iy)) in *. set (t := zrd y mo d) in *.
  assert (WK : (t - w) / 7 <= 52).
  { pose proof (rd_range y mo d Y M DD) as RR. fold t in RR. destruct (Z_le_gt_dec iy 1161) as [L|L].
    - specialize (B L). pose proof (w1_spec (ystart (iy + 1))) as W'. pose proof (year_len iy ltac:(lia)). assert (b2z (zleap iy) <= 1) by (destruct (zleap iy); cbn; lia). lia.
    - assert (iy = 1162) by lia. assert (y = 1161) by lia. subst. change (1161 + 1) with 1162 in *. lia. }
  exists iy, ((t - w) / 7 + 1), ((t - w) mod 7 + 1), (ystart iy), w. split; [exact Q|]. split; [lia|]. split; [lia|]. split; [lia|].
  split; [apply (year_table_ok rnd N m E); lia|]. split; [unfold opens_week1, is_saturday; lia|]. split; [lia|].
  intro L. exists (ystart (iy + 1)), (w1 (ystart (iy + 1))). split; [apply (year_table_ok rnd N m E); lia|].
  pose proof (w1_spec (ystart (iy + 1))). split; [unfold opens_week1, is_saturday; lia|]. apply B, L.
Qed.
Print Assumptions C19_isocalendar.
Example C19_case : supported b64 sample_sun (DShort 181 1 1) 181 1 1 /\ isocalendar b64 sample_sun (DShort 181 1 1) = Ok (181, 1, 4) /\
  isocalendar b64 sample_sun (DShort 181 19 19) = Ok (181, 53, 4) /\ isocalendar b64 sample_sun (DShort 183 1 1) = Ok (182, 52, 7).
Proof. split; [sup|]. vm_compute. tauto. Qed.

(** ** C20: fromisocalendar *)
(** The year begins on the third or fourth weekday (Kamal or Fidal). *)
Definition begins_3_4 (rnd : Q -> Q) (m : Q -> Q -> Q -> Q) (y : Z) : Prop := exists f, year_table rnd m y = Some f /\ ((f + 1) mod 7 = 2 \/ (f + 1) mod 7 = 3).
Lemma begins_ok rnd m y : Nearest rnd -> evening rnd m -> -1843 <= y <= 1162 -> ~ In y stale_years -> (begins_3_4 rnd m y <-> starts34 y).
Proof.
  intros N E Y ST. unfold begins_3_4, starts34. rewrite (yord_steady y ST).
  rewrite (year_table_ok rnd N m E y Y). split.
  - intros (f & F & H). assert (f = ystart y) by congruence. subst. exact H.
  - intro H. eauto.
Qed.
Lemma fromiso_ord rnd m short y wk wd n : isoweek_to_badi rnd m short y wk wd = ord2ymd rnd m short n -> fromisocalendar rnd m short y wk wd = fromordinal rnd m short n.
Proof.
  intro H. unfold fromisocalendar, fromordinal. rewrite H. unfold ord2ymd, badi_date_from_jd.
  change (BaseModel.xor_boolean [false; false; true]) with true. cbn [passert bind].
  destruct (badi_day_from_jd _ _ _ _ _ _) as [[[[yy mo] d] fr]|e]; [|reflexivity]. cbn [bind]. destruct short; [reflexivity|].
  set (s := {| s_y := yy; s_m := mo; s_d := _; s_t := [] |}). unfold long_date_from_short_date. cbn [s s_t get_hms nth].
  destruct (long_year_parts rnd _) as [[k v] y0]. change (MiscModel.trim_hms [0; 0; 0; 0]%Q) with (@nil Q).
  destruct (check_long _ _ _); reflexivity.
Qed.
(** Below week 52, and for every week number (of any size or sign) in the years not beginning on those days,
    fromisocalendar returns the date with the given place in the ISO year, and no other. *)
Theorem C20_fromisocalendar : forall rnd m short y wk wd f w, Nearest rnd -> evening rnd m -> naw_ruz_order rnd m -> -1842 <= y <= 1161 -> ~ In y stale_years -> 1 <= wd <= 7 ->
  1 <= wk < 52 \/ ~ begins_3_4 rnd m y -> year_table rnd m y = Some f -> opens_week1 f w ->
  fromisocalendar rnd m short y wk wd = fromordinal rnd m short (w + 7 * (wk - 1) + (wd - 1)).
Proof.
  intros rnd m short y wk wd f w N E O Y ST W H F [A B]. rewrite (year_table_ok rnd N m E) in F by lia. assert (f = ystart y) by congruence. subst f.
  unfold is_saturday in A. rewrite (w1_unique (ystart y) w), <- (yord_steady y ST) by lia. apply fromiso_ord, (iso_regular rnd N m E O); [lia|exact W|].
  rewrite <- (begins_ok rnd m y N E) by (lia || exact ST). exact H.
Qed.
Print Assumptions C20_fromisocalendar.
(** isocalendar followed by fromisocalendar is the identity below week 52 and in the other years. *)
Theorem C20_roundtrip : forall rnd m a y mo d iy wk wd, Nearest rnd -> evening rnd m -> naw_ruz_order rnd m -> supported rnd m a y mo d ->
  (y <= 1160 \/ (mo = 1 /\ d = 1)) -> ~ In (y, mo, d) refused_bdates -> (forall y', y - 1 <= y' <= y + 1 -> ~ In y' stale_years) ->
  isocalendar rnd m a = Ok (iy, wk, wd) -> iy <= 1161 ->
  (wk < 52 \/ ~ begins_3_4 rnd m iy) -> fromisocalendar rnd m (is_short a) iy wk wd = Ok a.
Proof.
  intros rnd m a y mo d iy wk wd N E O S L R ST I IY H. destruct (sup_ok rnd m a y mo d N E S) as (D & K & _).
  assert (RD : rata_die rnd m y mo d (zrd y mo d)) by (apply (rata_die_zrd rnd N m E); [apply K|apply K|reflexivity]).
  destruct (C19_isocalendar rnd m a y mo d _ N E O S RD ST) as (iy' & wk' & wd' & f & w & I' & WK & WD & YY & F & W & T & _).
  assert (iy' = iy /\ wk' = wk /\ wd' = wd) as (-> & -> & ->) by (rewrite I in I'; repeat split; congruence).
  assert (Y2 : -1842 <= iy).
  { destruct (Z_lt_ge_dec iy (-1842)); [|lia]. exfalso. assert (y = -1842) by (unfold supported in S; lia). assert (iy = -1843) by lia. subst y iy.
    rewrite (year_table_ok rnd N m E) in F by lia. assert (f = ystart (-1843)) by congruence. subst f. pose proof (w1_unique (ystart (-1843)) w) as U.
    unfold opens_week1, is_saturday in W. rewrite U in T by lia. 
    destruct K as (KY & KM & KD). pose proof (rd_range _ _ _ KY KM KD). assert (Q1 : w1 (ystart (-1843)) = -288) by (vm_compute; reflexivity). assert (Q2 : ystart (-1842) = 78) by (vm_compute; reflexivity).
    destruct (ywd_ok rnd N m E O (-1842) mo d ST KY KM KD) as (i & (I1 & I2) & Q & A & B). rewrite (isocal_ok rnd N m E a (-1842) mo d D ltac:(unfold okd; tauto)) in I.
    assert (i = -1843) by congruence. subst i. specialize (B ltac:(lia)). change (-1843 + 1) with (-1842) in B. assert (Q3 : w1 (ystart (-1842)) = 76) by (vm_compute; reflexivity). lia. }
  rewrite (C20_fromisocalendar rnd m (is_short a) iy wk wd f w N E O ltac:(lia) (ST iy YY) WD ltac:(destruct H; [left; lia|right; assumption]) F W), <- T.
  destruct (C13_roundtrip rnd m a y mo d N E O S L R (ST y ltac:(lia))) as (n & TN & FN).
  rewrite (toord_ok rnd N m E O a y mo d D K), (zord_steady y mo d (ST y ltac:(lia))) in TN. assert (n = zrd y mo d) by congruence. subst n. exact FN.
Qed.
Print Assumptions C20_roundtrip.
(** In the years beginning on the third or fourth weekday week 52 is read seven days late, every week outside
    1..52 is rejected, among them week 53 whose dates isocalendar reports. *)
Theorem C20_week_52_late : forall rnd m short y wd f w, Nearest rnd -> evening rnd m -> naw_ruz_order rnd m -> -1842 <= y <= 1161 -> ~ In y stale_years -> 1 <= wd <= 7 ->
  begins_3_4 rnd m y -> year_table rnd m y = Some f -> opens_week1 f w ->
  fromisocalendar rnd m short y 52 wd = fromordinal rnd m short (w + 7 * (52 - 1) + (wd - 1) + 7) /\
  (forall wk, wk < 1 \/ 52 < wk -> fromisocalendar rnd m short y wk wd = Err AssertionError).
Proof.
  intros rnd m short y wd f w N E O Y ST W H F [A B]. rewrite (year_table_ok rnd N m E) in F by lia. assert (f = ystart y) by congruence. subst f.
  rewrite (begins_ok rnd m y N E) in H by (lia || exact ST). unfold is_saturday in A. split.
  - rewrite (w1_unique (ystart y) w) by lia. replace (w1 (ystart y) + 7 * (52 - 1) + (wd - 1) + 7) with (w1 (ystart y) + 7 * 52 + (wd - 1)) by lia.
    rewrite <- (yord_steady y ST). apply fromiso_ord, (iso_52 rnd N m E O); [lia|exact W|exact H].
  - intros wk WK. unfold fromisocalendar. rewrite (iso_other rnd N m E O) by (lia || exact H). reflexivity.
Qed.
Print Assumptions C20_week_52_late.
Theorem C20_bad_weekday : forall rnd m short y wk wd, Nearest rnd -> evening rnd m -> naw_ruz_order rnd m -> -1842 <= y <= 1161 -> ~ 1 <= wd <= 7 ->
  fromisocalendar rnd m short y wk wd = Err AssertionError.
Proof. intros rnd m short y wk wd N E O Y W. unfold fromisocalendar. rewrite (iso_badday rnd N m E O) by (lia || exact W). reflexivity. Qed.
Print Assumptions C20_bad_weekday.
Example C20_case : begins_3_4 b64 sample_sun 181 /\ ~ begins_3_4 b64 sample_sun 182 /\
  fromisocalendar b64 sample_sun true 181 10 4 = Ok (DShort 181 4 7) /\ isocalendar b64 sample_sun (DShort 181 4 7) = Ok (181, 10, 4) /\
  isocalendar b64 sample_sun (DShort 181 19 19) = Ok (181, 53, 4) /\ fromisocalendar b64 sample_sun true 181 53 4 = Err AssertionError /\
  fromisocalendar b64 sample_sun true 181 52 4 = Ok (DShort 181 19 19) /\
  fromisocalendar b64 sample_sun true 182 0 1 = Ok (DShort 181 19 16) /\ year_table b64 sample_sun 182 = Some 739329 /\ opens_week1 739329 739332.
Proof.
  split; [exists 738964; vm_compute; tauto|]. split; [intros (f & F & H); vm_compute in F; assert (f = 739329) by congruence; subst f; vm_compute in H; destruct H; discriminate|].
  do 7 (split; [vm_compute; reflexivity|]). unfold opens_week1, is_saturday. split; [reflexivity|lia].
Qed.

(** ** C21: pickling *)
Theorem C21_pickle_roundtrip : forall rnd m a y mo d, Nearest rnd -> evening rnd m -> supported rnd m a y mo d -> mo <> 0 ->
  exists bs, getstate a = Ok bs /\ date_unpickle rnd m bs = Ok a.
Proof.
  intros rnd m a y mo d N E S M. destruct (sup_ok rnd m a y mo d N E S) as (D & K & L).
  assert (LE : bmonth_len (zleap y) mo <= 19) by (unfold bmonth_len; destruct (mo =? 0), (zleap y); lia). pose proof K as (Y & MM & DD).
  unfold getstate, to_bytes, date_unpickle, MINYEAR. assert (Q : (1 <=? mo) && (mo <=? 19) = true) by lia.
  destruct a as [y0 mo0 d0|k v yy mo0 d0]; cbn [denotes] in D.
  - destruct D as (-> & -> & ->). assert (B : forallb (fun x => (0 <=? x) && (x <? 256)) [(y - -1842) / 256; (y - -1842) mod 256; mo; d] = true) by (cbn [forallb]; lia).
    rewrite B. eexists. split; [reflexivity|]. cbv beta iota. rewrite Q. replace ((y - -1842) / 256 * 256 + -1842 + (y - -1842) mod 256) with y by lia. apply (new_short rnd N m E), K.
  - destruct D as (V & YY & LY & -> & ->). assert (B : forallb (fun x => (0 <=? x) && (x <? 256)) [k + 19; v; yy; mo; d] = true) by (cbn [forallb]; lia). rewrite B.
    eexists. split; [reflexivity|]. cbv beta iota. rewrite Q. replace (k + 19 - 19) with k by lia. apply (new_long rnd N m E); [exact V|exact YY|]. unfold long_year. rewrite LY. exact K.
Qed.
Print Assumptions C21_pickle_roundtrip.
(** Dates of Ayyam-i-Ha pickle but never unpickle. *)
Theorem C21_ayyam_lost : forall rnd m a y d, Nearest rnd -> evening rnd m -> supported rnd m a y 0 d ->
  exists bs, getstate a = Ok bs /\ date_unpickle rnd m bs = Err AssertionError.
Proof.
  intros rnd m a y d N E S. destruct (C16_equal_dates_hash_equal rnd m a y 0 d a N E S eq_refl) as (h & H & _).
  { destruct (C15_total_order a a eq_refl) as (e & l & Q & _ & I & _). rewrite Q. f_equal. apply I. reflexivity. }
  exists h. split; [exact H|]. destruct S as (D & _). unfold hash_key, getstate, to_bytes in H. destruct a as [y0 mo0 d0|k v yy mo0 d0]; cbn [denotes] in D; (destruct (forallb _ _); [|discriminate]).
  - destruct D as (-> & -> & ->). assert (Q : h = [(y - MINYEAR) / 256; (y - MINYEAR) mod 256; 0; d]) by congruence. rewrite Q. reflexivity.
  - destruct D as (_ & _ & _ & -> & ->). assert (Q : h = [k + 19; v; yy; 0; d]) by congruence. rewrite Q. reflexivity.
Qed.
Print Assumptions C21_ayyam_lost.
(** The year before MINYEAR, which date() accepts, cannot be pickled or hashed. *)
Theorem C21_year_before_min : forall mo d, getstate (DShort (-1843) mo d) = Err ValueError /\ hash_key (DShort (-1843) mo d) = Err ValueError.
Proof. intros mo d. split; reflexivity. Qed.
Print Assumptions C21_year_before_min.
Example C21_case : supported b64 sample_sun (DLong (-5) 18 1 19 19) (-1842) 19 19 /\ getstate (DLong (-5) 18 1 19 19) = Ok [14; 18; 1; 19; 19] /\
  date_unpickle b64 sample_sun [14; 18; 1; 19; 19] = Ok (DLong (-5) 18 1 19 19) /\ supported b64 sample_sun (DShort 181 0 1) 181 0 1 /\
  date_new b64 sample_sun [-1843; 1; 1] = Ok (DShort (-1843) 1 1).
Proof. split; [sup|]. split; [reflexivity|]. split; [vm_compute; reflexivity|]. split; [sup|vm_compute; reflexivity]. Qed.

(** ** C48: replace, for dates *)
(** The result is the date built from the new fields, the unnamed ones unchanged. *)
Theorem C48_replace_short : forall rnd m y mo d y' mo' d', 
  replace rnd m (DShort y mo d) None None y' mo' d' =
    date_new rnd m [match y' with Some z => z | None => y end; match mo' with Some z => z | None => mo end; match d' with Some z => z | None => d end].
Proof. reflexivity. Qed.
Print Assumptions C48_replace_short.
Theorem C48_replace_long : forall rnd m k v y mo d k' v' y' mo' d', match y' with Some z => 1 <= z <= 19 | None => True end ->
  replace rnd m (DLong k v y mo d) k' v' y' mo' d' =
    date_new rnd m [match k' with Some z => z | None => k end; match v' with Some z => z | None => v end; match y' with Some z => z | None => y end;
                    match mo' with Some z => z | None => mo end; match d' with Some z => z | None => d end].
Proof.
  intros rnd m k v y mo d k' v' y' mo' d' H. unfold replace. destruct y' as [z|]; [|reflexivity].
  assert (Q : (z <? 1) || (19 <? z) = false) by lia. rewrite Q. reflexivity.
Qed.
Print Assumptions C48_replace_long.
Theorem C48_replace_nothing : forall rnd m a y mo d, Nearest rnd -> evening rnd m -> supported rnd m a y mo d -> replace rnd m a None None None None None = Ok a.
Proof.
  intros rnd m a y mo d N E S. destruct (sup_ok rnd m a y mo d N E S) as (D & K & _). destruct a as [y0 mo0 d0|k v yy mo0 d0]; cbn [denotes replace truthy orb dflt] in *.
  - destruct D as (-> & -> & ->). apply (new_short rnd N m E), K.
  - destruct D as (V & Y & L & -> & ->). apply (new_long rnd N m E); [exact V|exact Y|]. unfold long_year. rewrite L. exact K.
Qed.
Print Assumptions C48_replace_nothing.
(** Whatever replace returns has the new fields. *)
Theorem C48_replaced_fields : forall rnd m a k v y mo d b, replace rnd m a k v y mo d = Ok b -> is_short b = is_short a /\
  match a, b with
  | DShort y0 mo0 d0, DShort y1 mo1 d1 => y1 = dflt y y0 /\ mo1 = dflt mo mo0 /\ d1 = dflt d d0
  | DLong k0 v0 y0 mo0 d0, DLong k1 v1 y1 mo1 d1 => k1 = dflt k k0 /\ v1 = dflt v v0 /\ y1 = dflt y y0 /\ mo1 = dflt mo mo0 /\ d1 = dflt d d0
  | _, _ => False
  end.
Proof.
  intros rnd m a k v y mo d b H. destruct a as [y0 mo0 d0|k0 v0 y0 mo0 d0]; cbn [replace] in H.
  - destruct (_ || _); [discriminate|]. unfold date_new in H. destruct (check_short _ _ _); [|discriminate]. cbn [bind] in H.
    assert (Q : b = DShort (dflt y y0) (dflt mo mo0) (dflt d d0)) by congruence. subst b. cbn. tauto.
  - assert (Q : b = DLong (dflt k k0) (dflt v v0) (dflt y y0) (dflt mo mo0) (dflt d d0)).
    { destruct y as [z|]; [destruct (_ || _); [discriminate|]|]; unfold date_new in H; (destruct (check_long _ _ _); [|discriminate]); cbn [bind dflt] in *; congruence. }
    subst b. cbn. tauto.
Qed.
Print Assumptions C48_replaced_fields.
(** A long field on a short date is refused, except the value 0, which is ignored; so is a short year on a long date. *)
Theorem C48_wrong_form : forall rnd m k v y mo d y0 mo0 d0 k1 v1 y1 mo1 d1 z,
  (k = Some z \/ v = Some z -> z <> 0 -> replace rnd m (DShort y0 mo0 d0) k v y mo d = Err ValueError) /\
  (replace rnd m (DShort y0 mo0 d0) (Some 0) (Some 0) y mo d = replace rnd m (DShort y0 mo0 d0) None None y mo d) /\
  (z < 1 \/ 19 < z -> replace rnd m (DLong k1 v1 y1 mo1 d1) k v (Some z) mo d = Err ValueError).
Proof.
  intros rnd m k v y mo d y0 mo0 d0 k1 v1 y1 mo1 d1 z. split; [|split; [reflexivity|]].
  - intros H Z0. cbn [replace]. assert (Q : truthy k || truthy v = true).
    { destruct H as [->| ->]; unfold truthy; assert (X : negb (z =? 0) = true) by lia; rewrite X; [reflexivity|apply orb_true_r]. }
    rewrite Q. reflexivity.
  - intro H. cbn [replace]. assert (Q : (z <? 1) || (19 <? z) = true) by lia. rewrite Q. reflexivity.
Qed.
Print Assumptions C48_wrong_form.
Example C48_case : supported b64 sample_sun (DShort 181 18 19) 181 18 19 /\ replace b64 sample_sun (DShort 181 18 19) None None None (Some 0) (Some 4) = Ok (DShort 181 0 4) /\
  replace b64 sample_sun (DShort 181 18 19) (Some 1) None None None None = Err ValueError /\ replace b64 sample_sun (DShort 181 18 19) None None None (Some 0) None = Err AssertionError.
Proof. split; [sup|]. vm_compute. tauto. Qed.
