(** ReprModel.v -- model of repr() and str() of the classes of /repo/badidatetime/datetime.py. *)
From Coq Require Import ZArith QArith List Bool String.
From Verif Require Import Base BaseModel BadiModel TduModel DateModel TimeModel TextModel StateModel.
Import ListNotations.
Local Open Scope Z_scope.

(** ** Python's own repr and str (language features, no /repo lines) *)
(** str(int) *)
Definition int_text (z : Z) : text := if z <? 0 then 45 :: dec (- z) else dec z.
(** repr(str) of characters below 256 *)
Definition hex_digit (z : Z) : Z := if z <? 10 then 48 + z else 87 + z.
Definition repr_char (q c : Z) : text :=
  if (c =? q) || (c =? 92) then [92; c]
  else if c =? 9 then [92; 116] else if c =? 10 then [92; 110] else if c =? 13 then [92; 114]
  else if (c <? 32) || ((127 <=? c) && (c <=? 160)) || (c =? 173) then [92; 120; hex_digit (c / 16); hex_digit (c mod 16)]
  else [c].
Definition str_repr (s : text) : text :=
  let q := if existsb (Z.eqb 39) s && negb (existsb (Z.eqb 34) s) then 34 else 39 in
  [q] ++ flat_map (repr_char q) s ++ [q].
(** ', '.join(l) *)
Fixpoint commas (l : list text) : text := match l with [] => [] | [x] => x | x :: r => x ++ lit ", " ++ commas r end.
(** repr(timedelta), the duration in microseconds *)
Definition td_repr (us : Z) : text :=
  let days := us / DAY in
  let seconds := us mod DAY / 1000000 in
  let micro := us mod 1000000 in
  let args := (if days =? 0 then [] else [lit "days=" ++ int_text days]) ++ (if seconds =? 0 then [] else [lit "seconds=" ++ int_text seconds])
              ++ (if micro =? 0 then [] else [lit "microseconds=" ++ int_text micro]) in
  lit "datetime.timedelta(" ++ commas (match args with [] => [lit "0"] | _ => args end) ++ lit ")".
(** s.find(c): what is before it and what starts with it *)
Fixpoint cut (c : Z) (s : text) : option (text * text) :=
  match s with
  | [] => None
  | x :: r => if x =? c then Some ([], s) else match cut c r with Some (a, b) => Some (x :: a, b) | None => None end
  end.
Definition text_eqb (a b : text) : bool := if list_eq_dec Z.eq_dec a b then true else false.

(** ** Classes; [md] and [qn] are __module__ and __qualname__ of the class *)
(** datetime.py:205-217  _get_class_module *)
Definition class_module (md : text) : text := if text_eqb md (lit "badidatetime.datetime") then lit "badidatetime" else md.
(** datetime.py:220-229  _module_name *)
Definition module_name (s : text) : text :=
  match cut 46 s with
  | Some (a, b) => if text_eqb a (lit "datetime") then lit "badidatetime" ++ b else s
  | None => s
  end.
(** datetime.py:401-423  date.__repr__ *)
Definition date_repr (md qn : text) (a : pdate) : text :=
  class_module md ++ lit "." ++ qn ++
  match a with
  | DLong k v y mo d => lit "(" ++ int_text k ++ lit ", " ++ int_text v ++ lit ", " ++ int_text y ++ lit ", " ++ int_text mo ++ lit ", " ++ int_text d ++ lit ")"
  | DShort y mo d => lit "(" ++ int_text y ++ lit ", " ++ int_text mo ++ lit ", " ++ int_text d ++ lit ")"
  end.
(** datetime.py:1308-1334  time.__repr__; [tzs] is str() of the tzinfo.  Both assertions hold by construction. *)
Definition time_repr (md qn : text) (t : ptime) (tzs : text) : text :=
  let s := if negb (t_us t =? 0) then lit ", " ++ int_text (t_s t) ++ lit ", " ++ int_text (t_us t)
           else if negb (t_s t =? 0) then lit ", " ++ int_text (t_s t) else [] in
  let body := class_module md ++ lit "." ++ qn ++ lit "(" ++ int_text (t_h t) ++ lit ", " ++ int_text (t_mi t) ++ s in
  let body := match t_tz t with Some _ => body ++ lit ", tzinfo=" ++ tzs | None => body end in
  let body := if t_fold t =? 0 then body else body ++ lit ", fold=1" in
  body ++ lit ")".
(** datetime.py:2205-2238  datetime.__repr__; [tzr] is repr() of the tzinfo.  Both assertions hold by construction. *)
Definition drop_zero (l : list Z) : list Z := match rev l with x :: r => if x =? 0 then rev r else l | [] => l end.
Definition dt_repr (md qn : text) (a : pdt) (tzr : text) : text :=
  let l := drop_zero (drop_zero [dt_h a; dt_mi a; dt_s a; dt_us a]) in
  let s := class_module md ++ lit "." ++ qn ++
    match dt_d a with
    | DLong k v y mo d => lit "(" ++ int_text k ++ lit ", " ++ int_text v ++ lit ", " ++ int_text y ++ lit ", " ++ int_text mo ++ lit ", " ++ int_text d
    | DShort y mo d => lit "(" ++ int_text y ++ lit ", " ++ int_text mo ++ lit ", " ++ int_text d
    end in
  let s := s ++ (if is_short (dt_d a) then lit ", None, None" else []) in
  let s := s ++ lit ", " ++ commas (map int_text l) in
  let s := match dt_tz a with Some _ => s ++ lit ", tzinfo=" ++ tzr | None => s end in
  let s := if dt_fold a =? 0 then s else s ++ lit ", fold=1" in
  s ++ lit ")".
(** datetime.py:2705-2734  timezone.__repr__; [who]: is the object timezone.utc or timezone.badi? *)
Inductive who := IsUtc | IsBadi | IsOther.
Definition zone_repr_args (off : Z) (name : option text) : text :=
  module_name (td_repr off) ++ match name with None => [] | Some n => lit ", " ++ str_repr n end.
Definition zone_repr (md qn : text) (w : who) (off : Z) (name : option text) : text :=
  match w with
  | IsUtc => lit "badidatetime.timezone.utc"
  | IsBadi => lit "badidatetime.BADI"
  | IsOther => class_module md ++ lit "." ++ qn ++ lit "(" ++ zone_repr_args off name ++ lit ")"
  end.
(** datetime.py:2736-2743  timezone.__str__, with 2764-2772  tzname(None) *)
Definition zone_str (off : Z) (name : option text) : text := match name with None => name_from_offset off | Some n => n end.

Section Str.
Variable rnd : Q -> Q.
Variable m : Q -> Q -> Q -> Q.
(** datetime.py:2240-2263  datetime.__str__, _dt_str_conversion *)
Definition dt_str (a : pdt) (sep : text) : res text :=
  match dt_d a with
  | DShort _ _ _ => dt_isoformat a sep Auto
  | DLong _ _ _ _ _ =>
    let* s := date_str rnd m (dt_d a) in
    let* off := utcoffset (dt_tz a) in
    Ok (s ++ sep ++ fmt0 2 (dt_h a) ++ lit ":" ++ fmt0 2 (dt_mi a) ++ lit ":" ++ fmt0 2 (dt_s a)
        ++ (if dt_us a =? 0 then [] else lit "." ++ int_text (dt_us a)) ++ format_offset off)
  end.
End Str.
