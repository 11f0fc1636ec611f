(** SpecStrf.v -- vocabulary for the statements about time tuples and format strings. *)
From Coq Require Import ZArith QArith List Bool String.
From Verif Require Import Base BadiModel SpecBadi SpecText.
Import ListNotations.
Local Open Scope Z_scope.

(** ** Time tuples: the documented ranges.  [leap] tells the leap years, [yr] is the year on the short scale. *)
Definition fields_ok (leap : Z -> bool) (yr mo d h mi s wd yd dst : Z) : Prop :=
  0 <= mo <= 19 /\ 1 <= d <= bmonth_len (leap yr) mo /\ 0 <= h <= 24 /\ 0 <= mi <= 59 /\ 0 <= s <= 61 /\ 0 <= wd <= 6 /\ 1 <= yd <= 366 /\ -1 <= dst <= 1.
Definition valid_tuple (leap : Z -> bool) (l : list Z) : Prop :=
  (exists y mo d h mi s wd yd dst, l = [y; mo; d; h; mi; s; wd; yd; dst] /\ -1842 <= y <= 1161 /\ fields_ok leap y mo d h mi s wd yd dst) \/
  (exists k v y mo d h mi s wd yd dst, l = [k; v; y; mo; d; h; mi; s; wd; yd; dst] /\ -5 <= k <= 4 /\ 1 <= v <= 19 /\ 1 <= y <= 19 /\
     (let yr := 361 * (k - 1) + 19 * (v - 1) + y in (mo = 0 -> -1843 <= yr <= 1161) /\ fields_ok leap yr mo d h mi s wd yd dst)).

(** What struct_time itself insists on: no check of weekday and day of year, second at most 60, years one wider on
    both sides. *)
Definition struct_fields_ok (leap : Z -> bool) (yr mo d h mi s dst : Z) : Prop :=
  0 <= mo <= 19 /\ 1 <= d <= bmonth_len (leap yr) mo /\ (mo = 0 -> -1843 <= yr <= 1161) /\ 0 <= h <= 24 /\ 0 <= mi <= 59 /\ 0 <= s <= 60 /\ -1 <= dst <= 1.
Definition struct_tuple (leap : Z -> bool) (l : list Z) : Prop :=
  (exists y mo d h mi s wd yd dst, l = [y; mo; d; h; mi; s; wd; yd; dst] /\ -1843 <= y <= 1162 /\ struct_fields_ok leap y mo d h mi s dst) \/
  (exists k v y mo d h mi s wd yd dst, l = [k; v; y; mo; d; h; mi; s; wd; yd; dst] /\ -6 <= k <= 5 /\ 1 <= v <= 19 /\ 1 <= y <= 19 /\
     struct_fields_ok leap (361 * (k - 1) + 19 * (v - 1) + y) mo d h mi s dst).

(** ** Formats as lists of pieces: a literal character, a directive %c, a directive with a modifier %-c or %:c *)
Inductive piece := L (c : Z) | D (c : Z) | DM (md c : Z).
Definition piece_text (p : piece) : list Z := match p with L c => [c] | D c => str "%" ++ [c] | DM md c => str "%" ++ [md; c] end.
Definition format_text (l : list piece) : list Z := flat_map piece_text l.
Definition well_formed (p : piece) : Prop :=
  match p with
  | L c => c <> 37
  | D c => In c (str "aAbBcCdDefGhHIjkKlmMnprSTuUVWxXyYzZ")
  | DM md c => md = 45 /\ In c (str "dHjlmMSy") \/ md = 58 /\ In c (str "KVz")
  end.
(** The characters after which strftime drops a literal character: % - : *)
Definition is_mark (c : Z) : bool := (c =? 37) || (c =? 45) || (c =? 58).
(** The last character of a piece. *)
Definition end_of (p : piece) : Z := match p with L c => c | D c => c | DM _ c => c end.
(** The pieces that are left when every literal after a mark is dropped; [prev] is the character before them. *)
Fixpoint surviving (prev : Z) (l : list piece) : list piece :=
  match l with
  | [] => []
  | p :: r => (match p with L _ => if is_mark prev then [] else [p] | _ => [p] end) ++ surviving (end_of p) r
  end.
(** No literal follows a mark; a literal at the start must not stand in a format that ends with a mark. *)
Fixpoint unmarked (prev : Z) (l : list piece) : Prop :=
  match l with
  | [] => True
  | p :: r => (match p with L _ => is_mark prev = false | _ => True end) /\ unmarked (end_of p) r
  end.
Definition faithful_format (l : list piece) : Prop := unmarked (last (map end_of l) 0) l.
(** Concatenation of results; the first error wins. *)
Fixpoint cat (l : list (res (list Z))) : res (list Z) :=
  match l with
  | [] => Ok []
  | Err e :: _ => Err e
  | Ok t :: r => match cat r with Ok u => Ok (t ++ u) | Err e => Err e end
  end.

(** A number from 0 to 999 without leading zeros. *)
Definition short_decimal (z : Z) : list Z := columns (if z <? 10 then 1 else if z <? 100 then 2 else 3) z.
