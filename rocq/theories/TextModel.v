(** TextModel.v -- model of the ISO 8601 text functions of /repo/badidatetime/datetime.py and _timedateutils.py.
    A Python str is the list of its code points.  The digits of [isnumeric], [isdigit], int() and float() are the
    ASCII ones: other Unicode digits are not modelled. *)
From Coq Require Import ZArith QArith Qround List Bool String Ascii.
From Verif Require Import Base BaseModel MiscModel BadiModel TduModel DateModel TimeModel.
Import ListNotations.
Local Open Scope Z_scope.

Definition text := list Z.
Definition lit (s : string) : text := map (fun c => Z.of_nat (nat_of_ascii c)) (list_ascii_of_string s).

(** ** Python text primitives (language features, no /repo lines) *)
Definition is_digit (c : Z) : bool := (48 <=? c) && (c <=? 57).
(** s[a:b] *)
Definition slice (a b : nat) (s : text) : text := firstn (b - a) (skipn a s).
(** s.count(c) *)
Definition count (c : Z) (s : text) : nat := List.length (filter (Z.eqb c) s).
(** s.rfind(c), None for -1 *)
Fixpoint rfind_from (c : Z) (s : text) (i : nat) : option nat :=
  match s with
  | [] => None
  | x :: r => match rfind_from c r (S i) with Some j => Some j | None => if x =? c then Some i else None end
  end.
Definition rfind (c : Z) (s : text) : option nat := rfind_from c s 0.
(** decimal digits of a natural number *)
Fixpoint dec_fuel (n : nat) (z : Z) (acc : text) : text :=
  match n with
  | O => acc
  | S n => let acc := (48 + z mod 10) :: acc in if z / 10 =? 0 then acc else dec_fuel n (z / 10) acc
  end.
Definition dec (z : Z) : text := dec_fuel (S (Z.to_nat (Z.log2 z))) z [].
Definition pad (w : nat) (s : text) : text := repeat 48 (w - List.length s) ++ s.
(** f"{z:0wd}": the sign counts in the width *)
Definition fmt0 (w : nat) (z : Z) : text := if z <? 0 then 45 :: pad (w - 1) (dec (- z)) else pad w (dec z).
(** int(s) of a str without underscores *)
Fixpoint lstrip (s : text) : text := match s with x :: r => if x =? 32 then lstrip r else s | [] => [] end.
Definition strip (s : text) : text := rev (lstrip (rev (lstrip s))).
Definition value (s : text) : Z := fold_left (fun a c => 10 * a + (c - 48)) s 0.
Definition digits_int (s : text) : res Z :=
  match s with [] => Err ValueError | _ => if forallb is_digit s then Ok (value s) else Err ValueError end.
Definition pyint (s : text) : res Z :=
  match strip s with
  | c :: r => if c =? 45 then let* v := digits_int r in Ok (- v) else if c =? 43 then digits_int r else digits_int (c :: r)
  | [] => Err ValueError
  end.
(** s.split(c) *)
Fixpoint split (c : Z) (s : text) : list text :=
  match s with
  | [] => [[]]
  | x :: r => if x =? c then [] :: split c r else match split c r with h :: t => (x :: h) :: t | [] => [[x]] end
  end.

Section Text.
Variable rnd : Q -> Q.
Variable m : Q -> Q -> Q -> Q.
Let T := year_table rnd m.

(** float(s) of a str of digits, dots, spaces, colons and Ts (the only characters that reach it); correctly
    rounded.  A float result is a rational; -0.0, infinities and nan do not arise. *)
Definition pyfloat (s : text) : res Q :=
  match split 46 (strip s) with
  | [i] => let* v := digits_int i in Ok (rnd (inject_Z v))
  | [i; f] =>
    match i ++ f with
    | [] => Err ValueError
    | _ => if forallb is_digit (i ++ f) then Ok (rnd (inject_Z (value (i ++ f)) / inject_Z (10 ^ Z.of_nat (List.length f))))
           else Err ValueError
    end
  | _ => Err ValueError
  end.

(** ** output *)
(** datetime.py:122-155  _format_time *)
Inductive timespec := Auto | Hours | Minutes | Seconds | Milliseconds | Microseconds.
Definition format_time (hh mm ss us : Z) (spec : timespec) : text :=
  let h := fmt0 2 hh in
  let hm := h ++ [58] ++ fmt0 2 mm in
  let hms := hm ++ [58] ++ fmt0 2 ss in
  match spec with
  | Auto => if us =? 0 then hms else hms ++ [46] ++ fmt0 6 us
  | Hours => h
  | Minutes => hm
  | Seconds => hms
  | Milliseconds => hms ++ [46] ++ fmt0 3 (us / 1000)
  | Microseconds => hms ++ [46] ++ fmt0 6 us
  end.

(** datetime.py:158-190  _format_offset; the offset in microseconds *)
Definition format_offset (off : option Z) : text :=
  match off with
  | None => []
  | Some o =>
    let sign := if o / DAY <? 0 then 45 else 43 in
    let o := if o / DAY <? 0 then - o else o in
    let hh := o / HOUR in
    let mm := o mod HOUR / MINUTE in
    let ss := o mod HOUR mod MINUTE in
    [sign] ++ fmt0 2 hh ++ [58] ++ fmt0 2 mm ++
    (if ss =? 0 then [] else [58] ++ fmt0 2 (ss / 1000000) ++ (if ss mod 1000000 =? 0 then [] else [46] ++ fmt0 6 (ss mod 1000000)))
  end.

(** datetime.py:2796-2821  timezone._name_from_offset *)
Definition name_from_offset (o : Z) : text :=
  if o =? 0 then lit "UTC"
  else
    let sign := if o <? 0 then 45 else 43 in
    let o := if o <? 0 then - o else o in
    let hours := o / HOUR in
    let minutes := o mod HOUR / MINUTE in
    let seconds := o mod HOUR mod MINUTE / 1000000 in
    let microseconds := o mod HOUR mod MINUTE mod 1000000 in
    lit "UTC" ++ [sign] ++ fmt0 2 hours ++ [58] ++ fmt0 2 minutes ++
    (if negb (microseconds =? 0) then [58] ++ fmt0 2 seconds ++ [46] ++ fmt0 6 microseconds
     else if negb (seconds =? 0) then [58] ++ fmt0 2 seconds else []).

(** datetime.py:493-507  date.isoformat *)
Definition iso_ymd (y mo d : Z) : text := fmt0 4 y ++ [45] ++ fmt0 2 mo ++ [45] ++ fmt0 2 d.
Definition date_isoformat (a : pdate) : res text := let* (y, mo, d) := short_form rnd m a in Ok (iso_ymd y mo d).

(** datetime.py:509-529  date.__str__ *)
Definition date_str (a : pdate) : res text :=
  match a with
  | DShort _ _ _ => date_isoformat a
  | DLong k v y mo d => Ok (fmt0 (if k <? 0 then 3 else 2) k ++ [45] ++ fmt0 2 v ++ [45] ++ fmt0 2 y ++ [45] ++ fmt0 2 mo ++ [45] ++ fmt0 2 d)
  end.

(** datetime.py:1298-1306, 1336-1359  time.isoformat *)
Definition time_isoformat (a : ptime) (spec : timespec) : res text :=
  let* off := utcoffset (t_tz a) in
  Ok (format_time (t_h a) (t_mi a) (t_s a) (t_us a) spec ++ format_offset off).

(** datetime.py:2169-2203  datetime.isoformat *)
Definition dt_isoformat (a : pdt) (sep : text) (spec : timespec) : res text :=
  let '(y, mo, d) := ymd (dt_d a) in
  let* off := utcoffset (dt_tz a) in
  Ok (iso_ymd y mo d ++ sep ++ format_time (dt_h a) (dt_mi a) (dt_s a) (dt_us a) spec ++ format_offset off).

(** ** input *)
(** _timedateutils.py:1264-1272  the loop over the months of a year; [days] left over *)
Fixpoint find_month (l : list (Z * Z)) (days : Z) (last : Z) : Z * Z :=
  match l with
  | [] => (last, days)
  | (mo, ds) :: r => if days <=? ds then (mo, days) else find_month r (days - ds) mo
  end.
Definition month_days (leap : bool) : list (Z * Z) :=
  map (fun i => (Z.of_nat i, 19)) (seq 1 18) ++ [(0, 4 + b2z leap); (19, 19)].

(** _timedateutils.py:1208-1276  _parse_isoformat_date; () is [].  First 1235-1276, the text after its sign *)
Definition parse_date_tail (year : Z) (s : text) : res (list Z) :=
  let dc := count 45 s in
  let wc := count 87 s in
  let* _ := passert ((wc <=? 1) && (dc <=? 2))%nat in
  let n := List.length s in
  let nw := (wc =? 0)%nat in
  if ((dc =? 1) && (n =? 7))%nat && nw then let* mo := pyint (slice 5 7 s) in Ok [year; mo; 1]
  else if ((dc =? 0) && (n =? 8))%nat && nw then
    let* mo := pyint (slice 4 6 s) in let* d := pyint (slice 7 9 s) in Ok [year; mo; d]
  else if (dc =? 2)%nat && nw then
    let* mo := pyint (slice 5 7 s) in let* d := pyint (slice 8 10 s) in Ok [year; mo; d]
  else if negb nw && ((7 <=? n) && (n <=? 10))%nat then
    let pos := (if dc =? 0 then 5 else 6)%nat in
    let* week := pyint (slice pos (pos + 2) s) in
    let pos := (pos + if dc =? 0 then 2 else 3)%nat in
    let d := skipn pos s in
    let* _ := passert (7 <? n)%nat in
    let* _ := passert (((dc =? 1) && (n =? 8)) || ((dc =? 0) || (dc =? 2)))%nat in
    let day := match d with [] => 1 | _ => if forallb is_digit d then value d else 1 end in
    let* b := isoweek_to_badi rnd m true year week day in
    Ok (firstn 3 (bdate_fields b))
  else if ((n =? 7) || (n =? 8))%nat then
    let* leap := is_leap_badi T year in
    let* days := pyint (if (dc =? 0)%nat then slice 4 7 s else slice 5 8 s) in
    let '(mo, d) := find_month (month_days leap) days 0 in
    Ok [year; mo; d]
  else Ok [].
Definition parse_date (s : text) : res (list Z) :=
  if existsb (fun c => negb (is_digit c) && negb ((c =? 45) || (c =? 87))) s then Err ValueError
  else match s with
  | [] => Ok []
  | c0 :: tl =>
    let neg := c0 =? 45 in
    let* year := pyint (slice 0 (if neg then 5 else 4) s) in
    let* _ := passert ((MINYEAR <=? year) && (year <=? MAXYEAR)) in
    parse_date_tail year (if neg then tl else s)
  end.

(** datetime.py:343-378  date.fromisoformat *)
Definition date_fromisoformat (s : text) (short : bool) : res pdate :=
  if (0 <? count 84 s)%nat || (0 <? count 32 s)%nat then Err ValueError
  else match parse_date s with
  | Err _ => Err ValueError
  | Ok [] => Err ValueError
  | Ok date =>
    if short then date_new rnd m date
    else match date with
    | [y; mo; d] => let* l := long_date_from_short_date rnd T true (sd y mo d) in date_new rnd m (bdate_fields (Long l))
    | _ => Err ValueError
    end
  end.

(** _timedateutils.py:1278-1362  _parse_isoformat_time; () is None.  First 1321-1360, the text longer than two
    characters, its first one a T; math.floor(second) if second % 1 == 0 else second is the same number *)
Definition is_dot (s : text) (i : nat) : bool := match nth_error s i with Some c => c =? 46 | None => false end.
Definition parse_time_tail (s : text) : res (Z * Z * Q) :=
  let n := List.length s in
  let cc := count 58 s in
  let* hour := pyint (slice 1 3 s) in
  let pos0 := (if cc =? 0 then 0 else 1)%nat in
  let pos1 := (if cc =? 2 then 2 else 0)%nat in
  if (3 <? n)%nat then
    if is_dot s 3 then
      let* x := pyfloat (skipn 3 s) in
      let ph := fmul rnd x 60 in
      Ok (hour, Qfloor ph, fmul rnd (fmod1 rnd ph) 60)
    else if is_dot s (5 + pos0) then
      let* minute := pyint (slice (3 + pos0) (5 + pos0) s) in
      let* pm := pyfloat (skipn (5 + pos0) s) in
      Ok (hour, minute, fmul rnd pm 60)
    else if is_dot s (7 + pos0) then
      let* minute := pyint (slice (3 + pos0) (5 + pos0) s) in
      let* second := pyfloat (skipn (5 + pos0) s) in
      Ok (hour, minute, second)
    else if (n =? 5 + pos0)%nat then
      let* minute := pyint (slice (3 + pos0) (5 + pos0) s) in
      Ok (hour, minute, 0%Q)
    else if (7 + pos1 <=? n)%nat then
      let* minute := pyint (slice (3 + pos0) (5 + pos0) s) in
      let* second := pyfloat (skipn (5 + pos1) s) in
      Ok (hour, minute, second)
    else Err ValueError
  else Ok (hour, 0, 0%Q).
Definition parse_time (s : text) : res (option (Z * Z * Q)) :=
  if existsb (fun c => negb (is_digit c) && negb ((c =? 84) || (c =? 32) || (c =? 58) || (c =? 46))) s then Err ValueError
  else
  let tc := count 84 s in
  let sc := count 32 s in
  let* _ := passert (((tc =? 0) && (sc =? 0)) || (((tc =? 1) || (sc =? 1)) && negb ((0 <? tc) && (0 <? sc))))%nat in
  let s := if (0 <? sc)%nat then 84 :: skipn 1 s else s in
  match s with
  | c0 :: _ =>
    if negb (c0 =? 84) then Err ValueError
    else
    let* _ := passert (count 58 s <? 3)%nat in
    let* _ := passert (count 46 s <=? 1)%nat in
    if (2 <? List.length s)%nat then let* t := parse_time_tail s in Ok (Some t) else Ok None
  | [] => Ok None
  end.

(** datetime.py:1363-1378  time.fromisoformat, up to the fields of the result: the second keeps its fraction *)
Definition time_fromisoformat (s : text) : res (Z * Z * Q) :=
  match (let* f := parse_time s in
         let '(h, mi, sec) := match f with Some f => f | None => (0, 0, 0%Q) end in
         let* _ := check_time (inject_Z h) (inject_Z mi) sec 0 61 in Ok (h, mi, sec)) with
  | Ok f => Ok f
  | Err _ => Err ValueError
  end.

(** timezone.utc, timezone.badi or timezone(timedelta(...)), as the offset in microseconds; badi's is +03:30
    (datetime.py:2953, the zone member of BADI_COORD) *)
Definition BADI_OFFSET : Z := 12600000000.
(** _timedateutils.py:1364-1418  _parse_isoformat_timezone; [c_none] is always true *)
Definition parse_timezone (s : text) : res (option Z) :=
  if existsb (fun c => negb (is_digit c) && negb ((c =? 90) || (c =? 66) || (c =? 43) || (c =? 45) || (c =? 58))) s then Err ValueError
  else
  let n := List.length s in
  let nc := count 45 s in
  let* _ := passert (nc + count 43 s + count 90 s + count 66 s <=? 1)%nat in
  match s with
  | [] => Ok None
  | c0 :: tl =>
    if negb ((c0 =? 45) || (c0 =? 43) || (c0 =? 90) || (c0 =? 66)) then Err ValueError
    else
    let* _ := passert (count 58 s <? 2)%nat in
    if (c0 =? 90) && (n =? 1)%nat then Ok (Some 0)
    else if (c0 =? 66) && (n =? 1)%nat then Ok (Some BADI_OFFSET)
    else
      let* hm := (match split 58 tl with
                  | [h] => let* h := pyint h in Ok (h, 0)
                  | [h; mi] => let* h := pyint h in let* mi := pyint mi in Ok (h, mi)
                  | _ => Err ValueError
                  end) in
      let off := (if (0 <? nc)%nat then fst hm * -1 else fst hm) * HOUR + snd hm * MINUTE in
      if (off / DAY <? -999999999) || (999999999 <? off / DAY) then Err OverflowError   (* timedelta's limit *)
      else if (- (DAY - 1) <=? off) && (off <=? DAY - 1) then Ok (Some off) else Err ValueError
  end.

(** _timedateutils.py:1174-1206  _parse_isoformat_date_time_timezone.  [find_index]: the last position of the
    first character of [lst] that occurs *)
Definition find_index (s : text) (lst : list Z) : nat :=
  match flat_map (fun c => match rfind c s with Some i => [i] | None => [] end) lst with
  | i :: _ => i
  | [] => List.length s
  end.
Definition TZ_CHARS : list Z := [90; 66; 43; 45].
Definition parse_dtz (s : text) : res (list Z * option (Z * Z * Q) * option Z) :=
  let idx := find_index s ([84; 32] ++ TZ_CHARS) in
  let str_date := firstn idx s in
  let* date := (match str_date with [] => Ok [] | _ => parse_date str_date end) in
  let str_other := skipn idx s in
  match str_other with
  | [] => Err IndexError
  | c0 :: _ =>
    if existsb (Z.eqb c0) TZ_CHARS then let* tz := parse_timezone str_other in Ok (date, None, tz)
    else
    let idx := find_index str_other TZ_CHARS in
    let str_time := firstn idx str_other in
    let str_tz := skipn idx str_other in
    let* time := (match str_time with [] => Ok None | _ => parse_time str_time end) in
    let* tz := (match str_tz with [] => Ok None | _ => parse_timezone str_tz end) in
    Ok (date, time, tz)
  end.

(** datetime.py:1914-1931  datetime.fromisoformat; [mk] makes the tzinfo object of an offset (a new one, or the
    shared utc or badi) *)
Definition dt_fromisoformat (mk : Z -> tz) (s : text) : res pdt :=
  let* (date, time, tz) := parse_dtz s in
  let '(h, mi, sec) := match time with Some f => f | None => (0, 0, 0%Q) end in
  match date with
  | [] => Err TypeError     (* missing arguments *)
  | _ => dt_newf rnd m date (inject_Z h) (inject_Z mi) sec 0 (option_map mk tz) 0
  end.
End Text.
