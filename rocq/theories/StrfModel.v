(** StrfModel.v -- model of struct_time (/repo/badidatetime/_structures.py), of the format directives and
    strftime (/repo/badidatetime/_timedateutils.py) and of the methods that use them.
    Texts are lists of code points (TextModel.v).  Seconds of a struct are ints, as in every struct the library
    builds itself. *)
From Coq Require Import ZArith QArith Qround Qabs List Bool String Ascii.
From Verif Require Import Base BaseModel BadiModel TduModel DateModel TimeModel TextModel.
Import ListNotations.
Local Open Scope Z_scope.

(** Names are given in UTF-8 below; their code points (no /repo lines) *)
Fixpoint utf8 (s : list Z) : text :=
  match s with
  | a :: r =>
    if a <? 128 then a :: utf8 r
    else match r with
    | b :: r1 =>
      if a <? 224 then (a - 192) * 64 + (b - 128) :: utf8 r1
      else match r1 with
      | c :: r2 => (a - 224) * 4096 + (b - 128) * 64 + (c - 128) :: utf8 r2
      | [] => []
      end
    | [] => []
    end
  | [] => []
  end.
Definition u (s : string) : text := utf8 (lit s).

(** _timedateutils.py:27-33 *)
Definition DAYNAMES : list text := map u ["Jalál"; "Jamál"; "Kamál"; "Fiḍāl"; "`Idāl"; "Istijlāl"; "Istiqlāl"]%string.
Definition DAYNAMES_ABV : list text := map u ["Jal"; "Jam"; "Kam"; "Fiḍ"; "Idā"; "Isj"; "Isq"]%string.
(** _timedateutils.py:36-51, by month number 0..19 *)
Definition MONTHNAMES : list text := map u
  ["Ayyám-i-Há"; "Bahá"; "Jalál"; "Jamál"; "'Aẓamat"; "Núr"; "Raḥmat"; "Kalimát"; "Kamál"; "Asmá'"; "'Izzat"; "Mashíyyat"; "'Ilm"; "Qudrat";
   "Qawl"; "Masá’il"; "Sharaf"; "Sulṭán"; "Mulk"; "'Alá'"]%string.
Definition MONTHNAMES_ABV : list text := map u
  ["Ayy"; "Bah"; "Jal"; "Jam"; "Aẓa"; "Núr"; "Raḥ"; "Kal"; "Kam"; "Asm"; "Izz"; "Mas"; "Ilm"; "Qud"; "Qaw"; "Mas"; "Sha"; "Sul"; "Mul"; "Alá"]%string.
(** tuple and dict access; a negative index, which Python counts from the end, does not arise: _checktm has run, or
    the index is a weekday or month number *)
Definition name_of (e : exn) (l : list text) (i : Z) : res text :=
  if i <? 0 then Err e else match nth_error l (Z.to_nat i) with Some t => Ok t | None => Err e end.

(** what a tzinfo answers for a datetime: identity and utcoffset, tzname, dst in microseconds *)
Record zinfo := { zi_tz : tz; zi_name : option text; zi_dst : option Z }.

(** _structures.py:11-84  ShortFormStruct, LongFormStruct: [st_kv] the kull-i-shay and vahid of a long one *)
Record stm := { st_kv : option (Z * Z); st_year : Z; st_mon : Z; st_mday : Z; st_hour : Z; st_min : Z; st_sec : Z;
                st_wday : Z; st_yday : Z; st_isdst : Z; st_zone : option text; st_gmtoff : option Q }.
(** the integer items of the NamedTuple *)
Definition st_items (s : stm) : list Z :=
  (match st_kv s with Some (k, v) => [k; v] | None => [] end) ++
  [st_year s; st_mon s; st_mday s; st_hour s; st_min s; st_sec s; st_wday s; st_yday s; st_isdst s].

(** locale data: _timedateutils.py:84-104; separator and three codes each for dates and times *)
Record locale := { lo_am : text; lo_pm : text; lo_dsep : text; lo_d : list Z; lo_tsep : text; lo_t : list Z }.

(** _timedateutils.py:118-137  _order_format: the delimiter and the three codes *)
Definition order_format (fmt default : text) : Z * list Z :=
  let f := if (List.length fmt =? 8)%nat then fmt else default in
  (nth 2 f 0, [nth 1 f 0; nth 4 f 0; nth 7 f 0]).
(** _timedateutils.py:139-148  _find_time_order; [x] and [p] are what time.strftime gives for %X and %p *)
Definition find_time_order (x p : text) : res text :=
  match nth_error x 2 with
  | Some delim => let h := match p with [] => 72 | _ => 73 end in Ok [37; h; delim; 37; 77; delim; 37; 83]
  | None => Err IndexError
  end.
(** _timedateutils.py:98-116  _date_and_time_locale, from the texts the C library gives for the AM and PM names, the date
    format, and %X and %p of the current time *)
Definition locale_data (am pm d_fmt x p : text) : res locale :=
  let* t_fmt := find_time_order x p in
  let (ds, d) := order_format d_fmt (lit "%m/%d/%y") in
  let (ts, t) := order_format t_fmt (lit "%H:%M:%S") in
  Ok {| lo_am := am; lo_pm := pm; lo_dsep := [ds]; lo_d := d; lo_tsep := [ts]; lo_t := t |}.

(** f"{z}", f"{z: 2}" *)
Definition plain (z : Z) : text := if z <? 0 then 45 :: dec (- z) else dec z.
Definition space2 (z : Z) : text :=
  let t := if z <? 0 then 45 :: dec (- z) else 32 :: dec z in repeat 32 (2 - List.length t) ++ t.

Section Strf.
Variable rnd : Q -> Q.
Variable m : Q -> Q -> Q -> Q.
Let T := year_table rnd m.

(** _structures.py:87-188  struct_time.__new__ *)
Definition struct_time (date : list Z) (zi : option zinfo) : res stm :=
  let tzi := option_map zi_tz zi in
  let build kv (args : list Z) y mo d h mi s wd yd dst :=
    if negb (existsb (Z.eqb dst) [-1; 0; 1]) then Err ValueError
    else
    let* dt := dt_new rnd m args h mi s 0 tzi 0 in
    let dst := match zi with Some z => match zi_dst z with Some t => if t =? 0 then 0 else 1 | None => dst end | None => dst end in
    let* off := utcoffset (dt_tz dt) in
    let gmtoff := match off with Some o => if o =? 0 then None else Some (rnd (o # 1000000)) | None => None end in
    Ok {| st_kv := kv; st_year := y; st_mon := mo; st_mday := d; st_hour := h; st_min := mi; st_sec := s; st_wday := wd; st_yday := yd;
          st_isdst := dst; st_zone := match zi with Some z => zi_name z | None => None end; st_gmtoff := gmtoff |} in
  match date with
  | [y; mo; d; h; mi; s; wd; yd; dst] => build None [y; mo; d] y mo d h mi s wd yd dst
  | [k; v; y; mo; d; h; mi; s; wd; yd; dst] => build (Some (k, v)) [k; v; y; mo; d] y mo d h mi s wd yd dst
  | _ => Err TypeError
  end.

(** _timedateutils.py:185-267  _checktm, over the integer items (9 or 11 of them; 11 or 13 with the two defaulted
    items of a NamedTuple, which are not looked at) *)
Definition checktm_tail (year mo d h mi s wd yd dst : Z) : res unit :=
  let* _ := passert ((0 <=? mo) && (mo <? 20)) in
  let* cycle := (if mo =? 0 then let* b := is_leap_badi T year in Ok (4 + b2z b) else Ok 19) in
  let* _ := passert ((1 <=? d) && (d <=? cycle)) in
  let* _ := passert ((0 <=? h) && (h <=? 24)) in
  let* _ := passert ((0 <=? mi) && (mi <? 60)) in
  let* _ := passert ((0 <=? s) && (s <=? 61)) in
  let* _ := passert ((0 <=? wd) && (wd <=? 6)) in
  let* _ := passert ((1 <=? yd) && (yd <=? 366)) in
  passert ((-1 <=? dst) && (dst <=? 1)).
Definition checktm (items : list Z) : res unit :=
  match items with
  | [y; mo; d; h; mi; s; wd; yd; dst] =>
    let* _ := passert ((MINYEAR <=? y) && (y <=? MAXYEAR)) in checktm_tail y mo d h mi s wd yd dst
  | [k; v; y; mo; d; h; mi; s; wd; yd; dst] =>
    let* _ := passert ((KULLISHAY_MIN <=? k) && (k <=? KULLISHAY_MAX)) in
    let* _ := passert ((1 <=? v) && (v <? 20)) in
    let* _ := passert ((1 <=? y) && (y <? 20)) in
    checktm_tail ((k - 1) * 361 + (v - 1) * 19 + y) mo d h mi s wd yd dst
  | _ => Err TypeError
  end.

(** _timedateutils.py:1089-1111  _build_struct_time of a date and (hour, minute, second) *)
Definition build_struct_time (a : pdate) (h mi s dst : Z) (zi : option zinfo) : res stm :=
  let* (y, mo, d) :=
    (match a with
     | DShort y mo d => Ok (y, mo, d)
     | DLong k v y mo d =>
       let* x := short_date_from_long_date rnd T false
                   {| l_k := k; l_v := v; l_y := y; l_m := mo; l_d := inject_Z d; l_t := [inject_Z h; inject_Z mi; inject_Z s] |} in
       Ok (s_y x, s_m x, Qfloor (s_d x))
     end) in
  let* wday := day_of_week rnd m y mo d in
  let* before := days_before_month rnd m y mo in
  struct_time (b_date a ++ [h; mi; s; wday; before + d; dst]) zi.

(** datetime.py:611-619  date.timetuple, 1933-1942  datetime.timetuple; 1966-1986  utctimetuple *)
Definition date_timetuple (a : pdate) : res stm := build_struct_time a 0 0 0 (-1) None.
Definition dt_timetuple (a : pdt) (zi : option zinfo) : res stm := build_struct_time (dt_d a) (dt_h a) (dt_mi a) (dt_s a) (-1) zi.
Definition dt_utctimetuple (a : pdt) : res stm :=
  let* off := utcoffset (dt_tz a) in
  let* b := (match off with Some o => if o =? 0 then Ok a else dt_sub_td rnd m a o | None => Ok a end) in
  build_struct_time (dt_d b) (dt_h b) (dt_mi b) (dt_s b) 0 None.

(** badi_calendar.py:563-587  midday, hms=False; 34  _GMT_LOCATION *)
Definition GMT_LAT : Q := rnd (51477928 # 1000000).
Definition GMT_LON : Q := rnd (-1545 # 1000000).
Definition midday (d : sdate) : res Q :=
  let* jd := jd_from_badi_date rnd m T d (TEHRAN_LAT rnd) (TEHRAN_LON rnd) in
  let* jd1 := meeus_from_exact rnd jd in
  let ss0 := sun_setting rnd m jd1 GMT_LAT GMT_LON in
  let* jd2 := meeus_from_exact rnd (fadd rnd jd 1) in
  let ss1 := sun_setting rnd m jd2 GMT_LAT GMT_LON in
  let ut_mid := fdiv rnd (fsub rnd ss1 ss0) 2 in
  local_zone_correction rnd ut_mid (Some 0%Q) None false false.
(** _timedateutils.py:925-944  _find_midday *)
Definition find_midday (s : stm) : res Q :=
  let t := [inject_Z (st_hour s); inject_Z (st_min s); inject_Z (st_sec s)] in
  match st_kv s with
  | None => midday {| s_y := st_year s; s_m := st_mon s; s_d := inject_Z (st_mday s); s_t := t |}
  | Some (k, v) =>
    let* d := short_date_from_long_date rnd T true
                {| l_k := k; l_v := v; l_y := st_year s; l_m := st_mon s; l_d := inject_Z (st_mday s); l_t := t |} in
    midday d
  end.
(** _timedateutils.py:488-493, 601-606  the comparison with midday in %I and %p *)
Definition after_noon (s : stm) : res bool :=
  let* noon := find_midday s in
  let* t := decimal_day_from_hms rnd (inject_Z (st_hour s)) (inject_Z (st_min s)) (inject_Z (st_sec s)) 0 in
  Ok (Qleb noon t).

(** _timedateutils.py:946-957  _get_year *)
Definition get_year (s : stm) : Z :=
  match st_kv s with None => st_year s | Some (k, v) => (k - 1) * 361 + (v - 1) * 19 + st_year s end.

(** ** The directives, _timedateutils.py:266-848; [md] is 45 (-), 58 (:) or 0 *)
(** _timedateutils.py:277 %a, 290 %A, 303 %b and %h, 316 %B *)
Definition f_a (s : stm) : res text := name_of IndexError DAYNAMES_ABV (st_wday s).
Definition f_A (s : stm) : res text := name_of IndexError DAYNAMES (st_wday s).
Definition f_b (s : stm) : res text := name_of KeyError MONTHNAMES_ABV (st_mon s).
Definition f_B (s : stm) : res text := name_of KeyError MONTHNAMES (st_mon s).
(** _timedateutils.py:330-343 %c *)
Definition f_c (s : stm) : res text :=
  let* wd := f_a s in
  let* mn := f_b s in
  Ok (wd ++ [32] ++ mn ++ [32] ++ fmt0 2 (st_mday s) ++ [32] ++ fmt0 2 (st_hour s) ++ [58] ++ fmt0 2 (st_min s) ++ [58] ++ fmt0 2 (st_sec s) ++ [32] ++
      match st_kv s with
      | Some (k, v) => plain k ++ [32] ++ fmt0 2 v ++ [32] ++ fmt0 2 (st_year s)
      | None => fmt0 4 (st_year s)
      end).
(** _timedateutils.py:357-359 %C *)
Definition minus (y : Z) : text := if y <? 0 then [45] else [].
Definition f_C (s : stm) : text := let y := get_year s in minus y ++ fmt0 2 (Z.abs (Qfloor (fdiv rnd (inject_Z y) 100))).
(** _timedateutils.py:372-378 %d and, with [e], %e *)
Definition f_d (s : stm) (e : bool) (md : Z) : text :=
  if md =? 45 then plain (st_mday s) else if e then space2 (st_mday s) else fmt0 2 (st_mday s).
(** _timedateutils.py:428-429 %f, 443-445 and 780-782 %G and %Y, 459-464 %H and %k *)
Definition f_f (s : stm) : text := fmt0 6 (snd (sec_microsec_from_seconds rnd (inject_Z (st_sec s)))).
Definition f_G (s : stm) : text := minus (get_year s) ++ fmt0 4 (Z.abs (get_year s)).
Definition f_H (s : stm) (md : Z) : text := if md =? 45 then plain (st_hour s) else fmt0 2 (st_hour s).
(** _timedateutils.py:488-505 %I and, with [l], %l *)
Definition f_I (s : stm) (l : bool) (md : Z) : res text :=
  let* pm := after_noon s in
  let hour := if pm then st_hour s - 12 else st_hour s in
  Ok (if l && (md =? 45) then plain hour else if l then space2 hour else fmt0 2 hour).
(** _timedateutils.py:519 %j *)
Definition f_j (s : stm) (md : Z) : text := if md =? 45 then plain (st_yday s) else fmt0 3 (st_yday s).
(** _timedateutils.py:536-548 %K *)
Definition f_K (s : stm) (md : Z) : text :=
  if md =? 58 then
    let k := match st_kv s with
             | None => if st_year s =? 0 then 0 else Qceiling (fdiv rnd (inject_Z (st_year s)) 361)
             | Some (k, _) => k
             end in
    minus k ++ plain k
  else [].
(** _timedateutils.py:562 %m, 576 %M *)
Definition f_m (s : stm) (md : Z) : text := if md =? 45 then plain (st_mon s) else fmt0 2 (st_mon s).
Definition f_M (s : stm) (md : Z) : text := if md =? 45 then plain (st_min s) else fmt0 2 (st_min s).
(** _timedateutils.py:601-611 %p *)
Definition f_p (lo : locale) (s : stm) : res text := let* pm := after_noon s in Ok (if pm then lo_pm lo else lo_am lo).
(** _timedateutils.py:625-633 %r and, with [t], %T *)
Definition f_r (lo : locale) (s : stm) (t : bool) : res text :=
  if t then Ok (fmt0 2 (st_hour s) ++ [58] ++ fmt0 2 (st_min s) ++ [58] ++ fmt0 2 (st_sec s))
  else
  let* hour := f_I s false 0 in
  let* p := f_p lo s in
  Ok (hour ++ [58] ++ fmt0 2 (st_min s) ++ [58] ++ fmt0 2 (st_sec s) ++ [32] ++ p).
(** _timedateutils.py:647 %S, 660-661 %u *)
Definition f_S (s : stm) (md : Z) : text := if md =? 45 then plain (st_sec s) else fmt0 2 (st_sec s).
Definition f_u (s : stm) (w : bool) : text := plain (st_wday s + (if w then 0 else 1)).
(** _timedateutils.py:681-684 %U, %W *)
Definition f_U (s : stm) : res text :=
  let* (_, week, _) := year_week_day rnd m true (get_year s) (st_mon s) (st_mday s) in Ok (fmt0 2 week).
(** _timedateutils.py:700-712 %V *)
Definition f_V (s : stm) (md : Z) : res text :=
  if md =? 58 then
    match st_kv s with
    | None => let* l := long_date_from_short_date rnd T false (sd (st_year s) (st_mon s) (st_mday s)) in Ok (fmt0 2 (l_v l))
    | Some (_, v) => Ok (fmt0 2 v)
    end
  else let* (_, week, _) := year_week_day rnd m false (get_year s) (st_mon s) (st_mday s) in Ok (fmt0 2 week).
(** _timedateutils.py:764-767 %y *)
Definition century (y : Z) : Z := Qtrunc (fdiv rnd (inject_Z y) 100) * 100.
Definition f_y (s : stm) (md : Z) : text :=
  let y := get_year s - century (get_year s) in if md =? 45 then plain y else fmt0 2 y.
(** _timedateutils.py:805-822 %z *)
Definition f_z (s : stm) (md : Z) : text :=
  match st_gmtoff s with
  | None => []
  | Some g =>
    if Qeqb g 0 then [] else
    let n := if Qltb g 0 then [45] else [43] in
    let h := Qabs (fdiv rnd g 3600) in
    let hh := Qtrunc h in
    let mfr := fsub rnd h (inject_Z hh) in
    let m0 := fmul rnd mfr 100 in
    let mm := Qfloor m0 in
    let sfr := fsub rnd m0 (inject_Z mm) in
    let ss := Qtrunc (fmul rnd sfr 100) in
    let ms := Qtrunc (fmul rnd (fsub rnd (fmul rnd sfr 100) (inject_Z ss)) 1000000) in
    let delim := if md =? 58 then [58] else [] in
    n ++ fmt0 2 hh ++ delim ++ fmt0 2 mm ++ (if 0 <? ss then delim ++ fmt0 2 ss else []) ++ (if 0 <? ms then [46] ++ fmt0 6 ms else [])
  end.
(** _timedateutils.py:835 %Z *)
Definition f_Z (s : stm) : text := match st_zone s with Some z => z | None => [] end.

(** _timedateutils.py:850-857  the lookup of a directive, without those defined by the locale *)
Definition directive0 (lo : locale) (s : stm) (c md : Z) : res text :=
  if c =? 97 then f_a s else if c =? 65 then f_A s else if (c =? 98) || (c =? 104) then f_b s else if c =? 66 then f_B s
  else if c =? 99 then f_c s else if c =? 67 then Ok (f_C s)
  else if (c =? 100) || (c =? 101) then Ok (f_d s (c =? 101) md)
  else if c =? 102 then Ok (f_f s) else if (c =? 71) || (c =? 89) then Ok (f_G s)
  else if (c =? 72) || (c =? 107) then Ok (f_H s md)
  else if (c =? 73) || (c =? 108) then f_I s (c =? 108) md
  else if c =? 106 then Ok (f_j s md) else if c =? 75 then Ok (f_K s md)
  else if c =? 109 then Ok (f_m s md) else if c =? 77 then Ok (f_M s md)
  else if c =? 110 then Ok [10] else if c =? 112 then f_p lo s
  else if (c =? 114) || (c =? 84) then f_r lo s (c =? 84)
  else if c =? 83 then Ok (f_S s md) else if (c =? 117) || (c =? 119) then Ok (f_u s (c =? 119))
  else if (c =? 85) || (c =? 87) then f_U s else if c =? 86 then f_V s md
  else if c =? 121 then Ok (f_y s md) else if c =? 122 then Ok (f_z s md) else if c =? 90 then Ok (f_Z s)
  else if c =? 37 then Ok [37]
  else Err KeyError.
Fixpoint join (sep : text) (l : list text) : text :=
  match l with [] => [] | [x] => x | x :: r => x ++ sep ++ join sep r end.
Fixpoint map_res {A B} (f : A -> res B) (l : list A) : res (list B) :=
  match l with [] => Ok [] | x :: r => let* y := f x in let* ys := map_res f r in Ok (y :: ys) end.
(** getattr(self, code)(ttup, code, ''): the methods bear the names of the directives, but e, h, k, l, T, w, W and % are only
    keys of the lookup table.  A format code of the locale is one character; it is taken not to be D, x or X *)
Definition method0 (lo : locale) (s : stm) (c : Z) : res text :=
  if existsb (Z.eqb c) (lit "aAbBcCdfGHIjKmMnprSuUVyYzZ") then directive0 lo s c 0 else Err AttributeError.
(** f"{t:02}" of a text: filled with zeros on the right *)
Definition pad02 (t : text) : text := t ++ repeat 48 (2 - List.length t).
(** _timedateutils.py:399-415  %D, 725-731 %x, 744-750 %X *)
Definition f_D (lo : locale) (s : stm) : res text :=
  let y := get_year s in
  let y := y - (if y <? century y then 0 else century y) in
  let* parts := map_res (fun c => if (c =? 121) || (c =? 89) then Ok (fmt0 2 y) else let* t := method0 lo s c in Ok (pad02 t)) (lo_d lo) in
  Ok (join (lo_dsep lo) parts).
Definition f_x (lo : locale) (s : stm) : res text := let* parts := map_res (method0 lo s) (lo_d lo) in Ok (join (lo_dsep lo) parts).
Definition f_X (lo : locale) (s : stm) : res text := let* parts := map_res (method0 lo s) (lo_t lo) in Ok (join (lo_tsep lo) parts).
Definition directive (lo : locale) (s : stm) (c md : Z) : res text :=
  if c =? 68 then f_D lo s else if c =? 120 then f_x lo s else if c =? 88 then f_X lo s else directive0 lo s c md.

(** _timedateutils.py:898-924  _check_format; [prev] is format[idx-1] *)
Definition VALID_CHARS : text := lit "aAbBcCdDefGhHIjkKlmMnprSTuUVWxXyYzZ%".
Definition mem (c : Z) (s : text) : bool := existsb (Z.eqb c) s.
Fixpoint check_format_loop (prev : Z) (s : text) : res unit :=
  match s with
  | [] => Ok tt
  | ch :: r =>
    let* _ :=
      (if (ch =? 37) && negb (prev =? 37) then
         match r with
         | [] => Err IndexError
         | ch0 :: r0 =>
           let* ch1 := (if mem ch0 [45; 58] then match r0 with c :: _ => Ok c | [] => Err IndexError end else Ok ch0) in
           if negb (mem ch1 VALID_CHARS) || ((ch0 =? 45) && negb (mem ch1 (lit "dHjlmMSy"))) || ((ch0 =? 58) && negb (mem ch1 (lit "KVz")))
           then Err ValueError else Ok tt
         end
       else Ok tt) in
    check_format_loop ch r
  end.
Definition check_format (s : text) : res unit :=
  match s with [] => Err ValueError | _ => check_format_loop (last s 0) s end.

(** _timedateutils.py:880-896  the loop of strftime *)
Fixpoint strftime_loop (lo : locale) (st : stm) (prev : Z) (s : text) : res text :=
  match s with
  | [] => Ok []
  | ch :: r =>
    let* out :=
      (match r with
       | ch0 :: r0 =>
         if ch =? 37 then
           if mem ch0 [45; 58] then match r0 with c :: _ => directive lo st c ch0 | [] => Err IndexError end
           else directive lo st ch0 0
         else Ok (if mem prev [37; 45; 58] then [] else [ch])
       | [] => Ok (if mem prev [37; 45; 58] then [] else [ch])
       end) in
    let* rest := strftime_loop lo st ch r in
    Ok (out ++ rest)
  end.
(** _timedateutils.py:861-896  strftime, of a struct and of a plain tuple *)
Inductive ttup := Named (s : stm) | Plain (l : list Z).
Definition strftime (lo : locale) (format : text) (t : ttup) (zi : option zinfo) : res text :=
  let* _ := check_format format in
  let* _ := checktm (match t with Named s => st_items s | Plain l => l end) in
  let* s := (match t with Named s => Ok s | Plain l => struct_time l zi end) in
  strftime_loop lo s (last format 0) format.

(** _timedateutils.py:1463-1507  _wrap_strftime: %f is replaced by the microseconds *)
Fixpoint replace_f (us : Z) (s : text) : text :=
  match s with
  | [] => []
  | ch :: r =>
    if ch =? 37 then
      match r with
      | [] => [37]
      | c :: r => (if c =? 102 then fmt0 6 us else [37; c]) ++ replace_f us r
      end
    else ch :: replace_f us r
  end.
(** datetime.py:459-471  date.strftime, 1380-1391  time.strftime; datetime inherits the first with its own timetuple *)
Definition date_strftime (lo : locale) (a : pdate) (fmt : text) : res text :=
  let* t := date_timetuple a in strftime lo (replace_f 0 fmt) (Named t) None.
Definition dt_strftime (lo : locale) (a : pdt) (zi : option zinfo) (fmt : text) : res text :=
  let* t := dt_timetuple a zi in strftime lo (replace_f (dt_us a) fmt) (Named t) zi.
Definition time_strftime (lo : locale) (a : ptime) (zi : option zinfo) (fmt : text) : res text :=
  strftime lo (replace_f (t_us a) fmt) (Plain [1; 1; 1; t_h a; t_mi a; t_s a; 0; 1; -1]) zi.

(** datetime.py:444-457  date.ctime, 2147-2167  datetime.ctime *)
Definition ctime_text (y mo d h mi s : Z) : res text :=
  let* wd := day_of_week rnd m y mo d in
  let* wn := name_of IndexError DAYNAMES wd in
  let* mn := name_of KeyError MONTHNAMES mo in
  let day := dec d in
  Ok (wn ++ [32] ++ mn ++ [32] ++ repeat 32 (2 - List.length day) ++ day ++ [32] ++ fmt0 2 h ++ [58] ++ fmt0 2 mi ++ [58] ++ fmt0 2 s ++ [32] ++ fmt0 (if -1 <? y then 4 else 5) y).
Definition date_ctime (a : pdate) : res text := let* (y, mo, d) := short_form rnd m a in ctime_text y mo d 0 0 0.
Definition dt_ctime (a : pdt) : res text :=
  match dt_d a with
  | DShort y mo d => ctime_text y mo d (dt_h a) (dt_mi a) (dt_s a)
  | DLong k v y mo d =>
    let* x := short_date_from_long_date rnd T false
                {| l_k := k; l_v := v; l_y := y; l_m := mo; l_d := inject_Z d; l_t := [inject_Z (dt_h a); inject_Z (dt_mi a); inject_Z (dt_s a); inject_Z (dt_us a)] |} in
    match s_t x with
    | [h; mi; s; _] => ctime_text (s_y x) (s_m x) (Qfloor (s_d x)) (Qfloor h) (Qfloor mi) (Qfloor s)
    | _ => Err ValueError
    end
  end.
End Strf.
