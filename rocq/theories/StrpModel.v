(** StrpModel.v -- model of strptime (/repo/badidatetime/_strptime.py).  A format becomes a regular expression; its
    matches are listed in the order the backtracking matcher of Python tries them, and the first one counts.  Of the
    characters that match regardless of case, those of ASCII, Latin-1, A with macron and the Latin Extended Additional
    block are modelled (all letters of the names are among them); \d stands for the ASCII digits (as in TextModel.v). *)
From Coq Require Import ZArith QArith Qround List Bool String.
From Verif Require Import Base BaseModel BadiModel TduModel DateModel TimeModel TextModel StrfModel.
Import ListNotations.
Local Open Scope Z_scope.

(** ** Python's regular expressions (language features, no /repo lines) *)
Definition lower (c : Z) : Z :=
  if (65 <=? c) && (c <=? 90) then c + 32
  else if (192 <=? c) && (c <=? 222) && negb (c =? 215) then c + 32
  else if c =? 256 then 257
  else if (7680 <=? c) && (c <=? 7828) && (c mod 2 =? 0) then c + 1
  else c.
Definition lower_text (s : text) : text := map lower s.
(** \s on str *)
Definition is_space (c : Z) : bool :=
  ((9 <=? c) && (c <=? 13)) || ((28 <=? c) && (c <=? 32)) || (c =? 133) || (c =? 160) || (c =? 5760) || ((8192 <=? c) && (c <=? 8202))
  || (c =? 8232) || (c =? 8233) || (c =? 8239) || (c =? 8287) || (c =? 12288).
Inductive rx :=
| REps                          (* nothing *)
| RC (p : Z -> bool)            (* one character of a class *)
| RWs                           (* \s+ *)
| RSeq (a b : rx)
| RAlt (a b : rx)               (* a|b *)
| RGrp (name : Z) (a : rx).     (* (?P<name>a) *)
(** what is left after \s* and \s+, the longest match first *)
Fixpoint ws_star (s : text) : list text :=
  match s with
  | c :: r => (if is_space c then ws_star r else []) ++ [s]
  | [] => [s]
  end.
Definition ws_plus (s : text) : list text := match s with c :: r => if is_space c then ws_star r else [] | [] => [] end.
(** the matches at the start of [s]: groups, and what is left *)
Fixpoint rmatch (r : rx) (s : text) : list (list (Z * text) * text) :=
  match r with
  | REps => [([], s)]
  | RC p => match s with c :: s' => if p c then [([], s')] else [] | [] => [] end
  | RWs => map (fun s' => ([], s')) (ws_plus s)
  | RSeq a b => flat_map (fun x => map (fun y => (fst x ++ fst y, snd y)) (rmatch b (snd x))) (rmatch a s)
  | RAlt a b => rmatch a s ++ rmatch b s
  | RGrp n a => map (fun x => ((n, firstn (List.length s - List.length (snd x)) s) :: fst x, snd x)) (rmatch a s)
  end.
Fixpoint groups (r : rx) : list Z :=
  match r with
  | RSeq a b | RAlt a b => groups a ++ groups b
  | RGrp n a => n :: groups a
  | _ => []
  end.
(** re.error: raised for a group name used twice.  There is no constructor for it; OverflowError, which nothing else
    here raises, stands in. *)
Definition re_error : exn := OverflowError.

Definition rng (a b : Z) : rx := RC (fun c => (a <=? c) && (c <=? b)).
Definition dg : rx := RC is_digit.
Definition one (c : Z) : rx := RC (fun x => lower x =? lower c).
Definition opt (r : rx) : rx := RAlt r REps.
Fixpoint seqs (l : list rx) : rx := match l with [] => REps | [a] => a | a :: l => RSeq a (seqs l) end.
Fixpoint alts (l : list rx) : rx := match l with [] => REps | [a] => a | a :: l => RAlt a (alts l) end.
(** \d{1,n} *)
Fixpoint upto (n : nat) : rx := match n with O => REps | 1%nat => dg | S n => RSeq dg (opt (upto n)) end.
Definition lit_rx (s : text) : rx := seqs (map one s).

(** ** Tables *)
(** _strptime.py:44-66  LocaleTime: names in lower case, AM and PM, zone names (with and without summer time), and the
    formats behind %c, %x, %X (132-176; computed by the code from strftime: LocModel.v) *)
Record sloc := { sl_A : list text; sl_a : list text; sl_B : list text; sl_b : list text; sl_p : list text; sl_Z : list text * list text;
                 sl_c : text; sl_x : text; sl_X : text }.
(** sorted(l, key=len, reverse=True), which is stable *)
Fixpoint ins_len (x : text) (l : list text) : list text :=
  match l with
  | [] => [x]
  | y :: r => if (List.length x <=? List.length y)%nat then y :: ins_len x r else x :: l
  end.
Definition by_length (l : list text) : list text := fold_left (fun acc x => ins_len x acc) l [].
(** _strptime.py:249-269  __seqToRE *)
Definition seq_rx (l : list text) (c : Z) : rx :=
  if existsb (fun x => negb (List.length x =? 0)%nat) l then RGrp c (alts (map lit_rx (by_length l))) else REps.
(** _strptime.py:218-246  TimeRE, without c, x, X *)
Definition table0 (lo : sloc) (c : Z) : option rx :=
  let r a b := rng (48 + a) (48 + b) in
  let k a := one (48 + a) in
  let week x := RGrp x (alts [seqs [k 5; r 0 2]; seqs [r 0 4; dg]; dg]) in
  if c =? 100 then Some (RGrp c (alts [seqs [k 1; r 0 9]; seqs [k 0; r 1 9]; r 1 9; seqs [one 32; r 1 9]]))
  else if c =? 102 then Some (RGrp c (upto 6))
  else if c =? 72 then Some (RGrp c (alts [seqs [k 2; r 0 3]; seqs [r 0 1; dg]; dg]))
  else if c =? 73 then Some (RGrp c (alts [seqs [k 1; r 0 2]; seqs [k 0; r 1 9]; r 1 9]))
  else if c =? 71 then Some (RGrp c (seqs [opt (one 45); dg; dg; dg; dg]))
  else if c =? 106 then Some (RGrp c (alts [seqs [k 3; k 6; r 0 6]; seqs [k 3; r 0 5; dg]; seqs [r 1 2; dg; dg]; seqs [k 0; r 1 9; dg]; seqs [k 0; k 0; r 1 9];
                                            seqs [r 1 9; dg]; seqs [k 0; r 1 9]; r 1 9]))
  else if c =? 109 then Some (RGrp c (alts [seqs [k 1; r 0 9]; seqs [k 0; r 0 9]; r 0 9]))
  else if c =? 77 then Some (RGrp c (alts [seqs [r 0 5; dg]; dg]))
  else if c =? 83 then Some (RGrp c (alts [seqs [k 6; r 0 1]; seqs [r 0 5; dg]; dg]))
  else if (c =? 85) || (c =? 87) then Some (week c)
  else if c =? 119 then Some (RGrp c (r 0 6))
  else if c =? 117 then Some (RGrp c (r 1 7))
  else if c =? 86 then Some (RGrp c (alts [seqs [k 5; r 0 3]; seqs [k 0; r 1 9]; seqs [r 1 4; dg]; dg]))
  else if c =? 121 then Some (RGrp c (seqs [dg; dg]))
  else if c =? 89 then Some (RGrp c (seqs [opt (one 45); upto 4]))
  else if c =? 122 then
    Some (RGrp c (RAlt (seqs [RC (fun x => (x =? 43) || (x =? 45)); dg; dg; opt (one 58); r 0 5; dg;
                              opt (seqs [opt (one 58); r 0 5; dg; opt (seqs [one 46; upto 6])])])
                       (RC (fun x => x =? 90))))
  else if c =? 65 then Some (seq_rx (sl_A lo) c)
  else if c =? 97 then Some (seq_rx (sl_a lo) c)
  else if c =? 66 then Some (seq_rx (sl_B lo) c)
  else if c =? 98 then Some (seq_rx (sl_b lo) c)
  else if c =? 112 then Some (seq_rx (sl_p lo) c)
  else if c =? 90 then Some (seq_rx (fst (sl_Z lo) ++ snd (sl_Z lo)) c)
  else if c =? 37 then Some (one 37)
  else None.
(** _strptime.py:271-295  pattern.  The format is read directly; the code first puts a backslash before the special
    characters and \s+ for every run of white space, so that one of those after % is the unknown directive \ *)
Definition special (c : Z) : bool := mem c (lit "\.^$*+?(){}[]|").
Fixpoint pattern (table : Z -> option rx) (ws : bool) (f : text) : res rx :=
  match f with
  | [] => Ok REps
  | ch :: r =>
    if ch =? 37 then
      match r with
      | [] => Err IndexError
      | c :: r' =>
        if special c || is_space c then Err KeyError
        else match table c with None => Err KeyError | Some x => let* y := pattern table false r' in Ok (RSeq x y) end
      end
    else if is_space ch then let* y := pattern table true r in Ok (if ws then y else RSeq RWs y)
    else let* y := pattern table false r in Ok (RSeq (one ch) y)
  end.
(** _strptime.py:244-246; a failure here would be one of the import of the module *)
Definition table (lo : sloc) (c : Z) : option rx :=
  let sub f := match pattern (table0 lo) false f with Ok r => Some r | Err _ => None end in
  if c =? 99 then sub (sl_c lo) else if c =? 120 then sub (sl_x lo) else if c =? 88 then sub (sl_X lo) else table0 lo c.
(** _strptime.py:297-301  compile *)
Fixpoint no_dup (l : list Z) : bool := match l with [] => true | x :: r => negb (mem x r) && no_dup r end.
Definition compile (lo : sloc) (f : text) : res rx :=
  let* r := pattern (table lo) false f in if no_dup (groups r) then Ok r else Err re_error.
(** _strptime.py:424-436 the match *)
Definition run (r : rx) (data : text) : res (list (Z * text)) :=
  match rmatch r data with
  | [] => Err ValueError
  | (g, rest) :: _ => match rest with [] => Ok g | _ => Err ValueError end
  end.
(** _strptime.py:388-438  _find_regex, without the cache (StateModel.v) *)
Definition find_regex (lo : sloc) (f data : text) : res (list (Z * text)) :=
  match compile lo f with
  | Ok r => run r data
  | Err KeyError | Err IndexError => Err ValueError
  | Err x => Err x
  end.

(** ** The values found *)
Inductive field := IsoYear | Year | Month | Day | Hour | Minute | Second | Fraction | Gmtoff | GmtoffFraction | IsoWeek | WeekOfYear | Weekday | Julian.
Definition field_eqb (a b : field) : bool :=
  match a, b with
  | IsoYear, IsoYear | Year, Year | Month, Month | Day, Day | Hour, Hour | Minute, Minute | Second, Second | Fraction, Fraction | Gmtoff, Gmtoff
  | GmtoffFraction, GmtoffFraction | IsoWeek, IsoWeek | WeekOfYear, WeekOfYear | Weekday, Weekday | Julian, Julian => true
  | _, _ => false
  end.
(** DotDict: None is None *)
Definition dots := field -> option Z.
Definition put (st : dots) (f : field) (v : Z) : dots := fun x => if field_eqb x f then Some v else st x.
(** _strptime.py:441-444 *)
Definition dots0 : dots := fun f =>
  match f with Month | Day => Some 1 | Hour | Minute | Second | Fraction | GmtoffFraction => Some 0 | _ => None end.
(** list.index *)
Fixpoint index_from (x : text) (l : list text) (i : Z) : res Z :=
  match l with [] => Err ValueError | y :: r => if list_eq_dec Z.eq_dec x y then Ok i else index_from x r (i + 1) end.
Definition index (x : text) (l : list text) : res Z := index_from x l 0.
Fixpoint group_get (g : list (Z * text)) (c : Z) : option text := match g with [] => None | (k, t) :: g => if k =? c then Some t else group_get g c end.
(** _strptime.py:476-494  %I with %p *)
Definition hour12 (lo : sloc) (g : list (Z * text)) (h : Z) : Z :=
  let ampm := match group_get g 112 with Some t => lower_text t | None => [] end in
  let is x := if list_eq_dec Z.eq_dec ampm x then true else false in
  if is [] || is (nth 0 (sl_p lo) []) then if h =? 12 then 0 else h
  else if is (nth 1 (sl_p lo) []) then if h =? 12 then h else h + 12
  else h.
Definition zeros (n : nat) : text := repeat 48 n.
(** _strptime.py:523-556  %z: seconds and microseconds *)
Definition parse_z (z : text) : res (Z * Z) :=
  if list_eq_dec Z.eq_dec z [90] then Ok (0, 0)
  else
    let* z' := (if nth 3 z 0 =? 58 then
                  let z1 := firstn 3 z ++ skipn 4 z in
                  if (5 <? List.length z1)%nat then if nth 5 z1 0 =? 58 then Ok (firstn 5 z1 ++ skipn 6 z1) else Err ValueError else Ok z1
                else Ok z) in
    let* h := pyint (slice 1 3 z') in
    let* mi := pyint (slice 3 5 z') in
    let* s := (match slice 5 7 z' with [] => Ok 0 | t => pyint t end) in
    let rem := skipn 8 z' in
    let* fr := pyint (rem ++ zeros (6 - List.length rem)) in
    let off := h * 60 * 60 + mi * 60 + s in
    Ok (match z' with c :: _ => if c =? 45 then (- off, - fr) else (off, fr) | [] => (off, fr) end).
(** _strptime.py:450-573  _parse_found_dict: one group; the values of %Z do not reach a datetime *)
Definition found_step (lo : sloc) (g : list (Z * text)) (st : dots) (x : Z * text) : res dots :=
  let '(c, t) := x in
  if (c =? 121) || (c =? 89) then let* v := pyint t in Ok (put st Year v)
  else if c =? 71 then let* v := pyint t in Ok (put st IsoYear v)
  else if c =? 109 then let* v := pyint t in Ok (put st Month v)
  else if c =? 66 then let* v := index (lower_text t) (sl_B lo) in Ok (put st Month v)
  else if c =? 98 then let* v := index (lower_text t) (sl_b lo) in Ok (put st Month v)
  else if c =? 100 then let* v := pyint t in Ok (put st Day v)
  else if c =? 72 then let* v := pyint t in Ok (put st Hour v)
  else if c =? 73 then let* v := pyint t in Ok (put st Hour (hour12 lo g v))
  else if c =? 77 then let* v := pyint t in Ok (put st Minute v)
  else if c =? 83 then let* v := pyint t in Ok (put st Second v)
  else if c =? 102 then let* v := pyint (t ++ zeros (6 - List.length t)) in Ok (put st Fraction v)
  else if c =? 65 then let* v := index (lower_text t) (sl_A lo) in Ok (put st Weekday v)
  else if c =? 97 then let* v := index (lower_text t) (sl_a lo) in Ok (put st Weekday v)
  else if (c =? 119) || (c =? 117) then let* v := pyint t in Ok (put st Weekday v)
  else if c =? 106 then let* v := pyint t in Ok (put st Julian v)
  else if (c =? 85) || (c =? 87) then let* v := pyint t in Ok (put st WeekOfYear v)
  else if c =? 86 then let* v := pyint t in Ok (put st IsoWeek v)
  else if c =? 122 then let* (o, f) := parse_z t in Ok (put (put st Gmtoff o) GmtoffFraction f)
  else Ok st.
Fixpoint found_loop (lo : sloc) (g : list (Z * text)) (l : list (Z * text)) (st : dots) : res dots :=
  match l with [] => Ok st | x :: l => let* st' := found_step lo g st x in found_loop lo g l st' end.
Definition parse_found (lo : sloc) (g : list (Z * text)) : res dots := found_loop lo g g dots0.

(** _strptime.py:575-597  _check_iso_week *)
Definition check_iso_week (st : dots) : res unit :=
  match st IsoYear with
  | Some _ => match st Julian with
              | Some _ => Err ValueError
              | None => match st IsoWeek, st Weekday with Some _, Some _ => Ok tt | _, _ => Err ValueError end
              end
  | None => match st IsoWeek with Some _ => Err ValueError | None => Ok tt end
  end.

Section Strp.
Variable rnd : Q -> Q.
Variable m : Q -> Q -> Q -> Q.
Let T := year_table rnd m.

(** _strptime.py:309-333  _calc_julian_from_U_or_W *)
Definition calc_julian (year week wday : Z) : res Z :=
  let* d := date_new rnd m [year; 1; 1] in
  let* first := weekday rnd m d in
  let week_0_length := (7 - first) mod 7 in
  Ok (if week =? 0 then if wday <? first then 7 - first + wday + 1 else 1 + wday - first
      else 1 + (week_0_length + 7 * (week - 1)) + wday).
Definition dflt1 (o : option Z) : Z := match o with Some z => z | None => 0 end.
(** _strptime.py:599-646  _miscellaneous: year, month, day, weekday and day of the year *)
Definition miscellaneous (st : dots) : res (Z * Z * Z * Z * Z) :=
  let mo := dflt1 (st Month) in
  let d := dflt1 (st Day) in
  let year := match st Year with Some y => y | None => if (mo =? 0) && (d =? 5) then 1 else 2 end in
  let* (year, mo, d, julian) :=
    (match st Julian, st Weekday with
     | None, Some w =>
       match st WeekOfYear with
       | Some u =>
         let* j := calc_julian year u w in
         if j <=? 0 then let* b := is_leap_badi T (year - 1) in Ok (year - 1, mo, d, Some (j + (365 + b2z b))) else Ok (year, mo, d, Some j)
       | None =>
         match st IsoYear, st IsoWeek with
         | Some iy, Some iw =>
           let* a := fromisocalendar rnd m true iy iw (w + 1) in
           let '(y', mo', d') := ymd a in Ok (y', mo', d', None)
         | _, _ => Ok (year, mo, d, None)
         end
       end
     | j, _ => Ok (year, mo, d, j)
     end) in
  let* (year, mo, d, julian) :=
    (match julian with
     | None =>
       let* a := date_new rnd m [year; mo; d] in
       let* n := toordinal rnd m a in
       let* a1 := date_new rnd m [year; 1; 1] in
       let* n1 := toordinal rnd m a1 in
       Ok (year, mo, d, n - n1 + 1)
     | Some j =>
       let* a1 := date_new rnd m [year; 1; 1] in
       let* n1 := toordinal rnd m a1 in
       let* a := fromordinal rnd m true (j - 1 + n1) in
       let '(y', mo', d') := ymd a in Ok (y', mo', d', j)
     end) in
  let* w := (match st Weekday with
             | Some w => Ok w
             | None => let* a := date_new rnd m [year; mo; d] in weekday rnd m a
             end) in
  Ok (year, mo, d, w, julian).
(** _strptime.py:374-386  start: the dictionary and the date, after all checks *)
Definition start (lo : sloc) (data f : text) : res (dots * (Z * Z * Z * Z * Z) * option text) :=
  let* g := find_regex lo f data in
  let* st := parse_found lo g in
  let* _ := check_iso_week st in
  let* x := miscellaneous st in
  Ok (st, x, group_get g 90).
(** _strptime.py:648-655  _strptime_time *)
Definition strptime_time (lo : sloc) (data f : text) : res stm :=
  let* (st, x, _) := start lo data f in
  let '(y, mo, d, _, _) := x in
  build_struct_time rnd m (DShort y mo d) (dflt1 (st Hour)) (dflt1 (st Minute)) (dflt1 (st Second)) 0 None.
(** _strptime.py:658-679  _strptime_datetime, datetime.py:2262-2277  datetime.strptime; [zid] is the identity of the
    timezone object made (its name has no influence on the offset) *)
Definition strptime (lo : sloc) (zid : Z) (data f : text) : res pdt :=
  let* (st, x, _) := start lo data f in
  let '(y, mo, d, _, _) := x in
  let* tzi := (match st Gmtoff with
               | None => Ok None
               | Some o =>
                 let off := o * 1000000 + dflt1 (st GmtoffFraction) in
                 if (- (DAY - 1) <=? off) && (off <=? DAY - 1) then Ok (Some {| tz_id := zid; tz_off := Some off |}) else Err ValueError
               end) in
  dt_new rnd m [y; mo; d] (dflt1 (st Hour)) (dflt1 (st Minute)) (dflt1 (st Second)) (dflt1 (st Fraction)) tzi 0.
End Strp.
