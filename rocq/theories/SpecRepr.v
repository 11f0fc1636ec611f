(** SpecRepr.v -- a reader of the Python expressions that repr() is meant to produce (ints, None, names, string literals and calls
    with positional and keyword arguments), and what they evaluate to where the package is imported as badidatetime. *)
From Coq Require Import ZArith QArith List Bool String.
From Verif Require Import Base DateModel TimeModel SpecText.
Import ListNotations.
Local Open Scope Z_scope.
Notation text := (list Z).

Inductive expr :=
| Num (z : Z)
| Str (s : text)
| Var (name : text)                                   (* a dotted name; None among them *)
| Call (f : text) (args : list (option text * expr)). (* positional or keyword *)

(** ** Reading *)
Definition digit (c : Z) : bool := (48 <=? c) && (c <=? 57).
Definition name_char (c : Z) : bool := ((65 <=? c) && (c <=? 90)) || ((97 <=? c) && (c <=? 122)) || digit c || (c =? 95) || (c =? 46).
Fixpoint span (p : Z -> bool) (s : text) : text * text :=
  match s with
  | c :: r => if p c then let '(a, b) := span p r in (c :: a, b) else ([], s)
  | [] => ([], [])
  end.
Definition number (ds : text) : Z := fold_left (fun n c => 10 * n + (c - 48)) ds 0.
Definition hex (c : Z) : Z := if c <=? 57 then c - 48 else c - 87.
(** the rest of a string literal after its opening quote [q] *)
Fixpoint read_str (q : Z) (s : text) : option (text * text) :=
  let add c r := match read_str q r with Some (t, r') => Some (c :: t, r') | None => None end in
  match s with
  | [] => None
  | c :: r =>
    if c =? q then Some ([], r)
    else if c =? 92 then
      match r with
      | e :: r1 =>
        if e =? 120 then match r1 with a :: b :: r2 => add (16 * hex a + hex b) r2 | _ => None end
        else if e =? 110 then add 10 r1 else if e =? 114 then add 13 r1 else if e =? 116 then add 9 r1
        else if (e =? 92) || (e =? 39) || (e =? 34) then add e r1 else None
      | [] => None
      end
    else if c <? 32 then None
    else add c r
  end.
(** [n] bounds the depth *)
Fixpoint read (n : nat) (s : text) : option (expr * text) :=
  match n with
  | O => None
  | S n =>
    match s with
    | [] => None
    | c :: r =>
      if (c =? 39) || (c =? 34) then match read_str c r with Some (t, r') => Some (Str t, r') | None => None end
      else if digit c then let '(ds, r') := span digit s in Some (Num (number ds), r')
      else if c =? 45 then match span digit r with ([], _) => None | (ds, r') => Some (Num (- number ds), r') end
      else
        match span name_char s with
        | ([], _) => None
        | (f, 40 :: r') => match read_args n r' with Some (l, r'') => Some (Call f l, r'') | None => None end
        | (f, r') => Some (Var f, r')
        end
    end
  end
with read_args (n : nat) (s : text) : option (list (option text * expr) * text) :=
  match n with
  | O => None
  | S n =>
    match s with
    | 41 :: r => Some ([], r)
    | _ =>
      let '(k, s') := match span name_char s with (k, 61 :: r) => (Some k, r) | _ => (None, s) end in
      match read n s' with
      | Some (e, 41 :: r) => Some ([(k, e)], r)
      | Some (e, 44 :: 32 :: r) => match read_args n r with Some (l, r') => Some ((k, e) :: l, r') | None => None end
      | _ => None
      end
    end
  end.
(** a whole text *)
Definition read_all (s : text) : option expr := match read (S (List.length s)) s with Some (e, []) => Some e | _ => None end.

(** ** Values *)
Inductive obj := OInt (z : Z) | ONone | OStr (s : text) | ODelta (us : Z) | OZone (z : zone) | OTz (t : tz) | ODate (a : pdate) | OTime (t : ptime) | ODt (a : pdt).
Definition same (a : text) (b : string) : bool := if list_eq_dec Z.eq_dec a (str b) then true else false.
Fixpoint to_string (s : text) : string :=
  match s with [] => EmptyString | c :: r => String (Ascii.ascii_of_nat (Z.to_nat c)) (to_string r) end.
Fixpoint positional (l : list (option text * obj)) : list obj := match l with (None, o) :: r => o :: positional r | _ => [] end.
Fixpoint keyword (k : string) (l : list (option text * obj)) : option obj :=
  match l with [] => None | (Some x, o) :: r => if same x k then Some o else keyword k r | (None, _) :: r => keyword k r end.
Definition int_at (l : list obj) (i : nat) : Z := match nth i l (OInt 0) with OInt z => z | _ => 0 end.
Definition int_kw (k : string) (l : list (option text * obj)) : Z := match keyword k l with Some (OInt z) => z | _ => 0 end.
Definition ok {A} (f : A -> obj) (r : res A) : option obj := match r with Ok a => Some (f a) | Err _ => None end.

Section Eval.
Variable rnd : Q -> Q.
Variable m : Q -> Q -> Q -> Q.
Variable utc : zone.                    (* timezone.utc as a timezone *)
Variable global : text -> option obj.   (* the names badidatetime.timezone.utc and badidatetime.BADI *)
Variable fresh : Z.                     (* the identity of a tzinfo object made on the way *)
Definition tz_arg (o : option obj) : option tz :=
  match o with Some (OTz t) => Some t | Some (OZone z) => Some {| tz_id := fresh; tz_off := Some (z_off z) |} | _ => None end.
Definition ints (l : list obj) : list Z := map (fun o => match o with OInt z => z | _ => 0 end) l.
Definition call (f : text) (l : list (option text * obj)) : option obj :=
  let p := positional l in
  if same f "badidatetime.date" then ok ODate (date_new rnd m (ints p))
  else if same f "badidatetime.datetime" then
    let date := match p with a :: b :: c :: ONone :: ONone :: _ => ints [a; b; c] | _ => ints (firstn 5 p) end in
    ok ODt (dt_new rnd m date (int_at p 5) (int_at p 6) (int_at p 7) (int_at p 8) (tz_arg (keyword "tzinfo" l)) (int_kw "fold" l))
  else if same f "badidatetime.time" then
    ok OTime (time_new (int_at p 0) (int_at p 1) (int_at p 2) (int_at p 3) (tz_arg (keyword "tzinfo" l)) (int_kw "fold" l))
  else if same f "badidatetime.timezone" then
    match p with
    | [ODelta d] => ok OZone (timezone_new utc d None)
    | [ODelta d; OStr n] => ok OZone (timezone_new utc d (Some (to_string n)))
    | _ => None
    end
  else if same f "badidatetime.timedelta" then
    Some (ODelta (86400000000 * (int_at p 0 + int_kw "days" l) + 1000000 * int_kw "seconds" l + int_kw "microseconds" l))
  else None.
Fixpoint eval (e : expr) : option obj :=
  match e with
  | Num z => Some (OInt z)
  | Str s => Some (OStr s)
  | Var n => if same n "None" then Some ONone else global n
  | Call f args =>
    match (fix go (l : list (option text * expr)) : option (list (option text * obj)) :=
             match l with
             | [] => Some []
             | (k, e) :: r => match eval e, go r with Some o, Some l => Some ((k, o) :: l) | _, _ => None end
             end) args with
    | Some l => call f l
    | None => None
    end
  end.
Definition eval_text (s : text) : option obj := match read_all s with Some e => eval e | None => None end.
End Eval.
