(** SpecDst.v -- vocabulary for the statements about zones whose offset varies. *)
From Coq Require Import ZArith QArith List Bool.
From Verif Require Import Base BaseModel BadiModel DateModel TimeModel TextModel SpecBadi SpecDate SpecTime DstModel.
Local Open Scope Z_scope.

(** At the wall clock [w] the zone (None: no zone) answers properly, with the offset [o] (None: no offset). *)
Definition says (z : option xzone) (w : pdt) (o : option Z) : Prop :=
  match z, o with
  | None, _ => o = None
  | Some z, None => x_utcoffset z (Some w) = ANone
  | Some z, Some x => x_utcoffset z (Some w) = ADelta x /\ -86400000000 < x < 86400000000
  end.
(** The same wall clock, in its other or a given fold. *)
Definition in_fold (f : Z) (w : pdt) : pdt :=
  {| dt_d := dt_d w; dt_h := dt_h w; dt_mi := dt_mi w; dt_s := dt_s w; dt_us := dt_us w; dt_tz := dt_tz w; dt_fold := f |}.
Definition other_fold (w : pdt) : pdt := in_fold (1 - dt_fold w) w.
(** The offset is [o] in both folds: the wall clock is neither in a repeated nor in a skipped hour of the zone. *)
Definition settled (a : xdt) (o : option Z) : Prop := says (x_tz a) (x_wall a) o /\ says (x_tz a) (other_fold (x_wall a)) o.
(** The offset is [o], but [o'] in the other fold. *)
Definition unsettled (a : xdt) (o o' : option Z) : Prop := says (x_tz a) (x_wall a) o /\ says (x_tz a) (other_fold (x_wall a)) o' /\ o <> o'.
(** A datetime of the supported years, in short form, whose wall clock is [l] microseconds on the line of SpecTime. *)
Definition stands_at (rnd : Q -> Q) (m : Q -> Q -> Q -> Q) (a : xdt) (l : Z) : Prop :=
  on_line rnd m (x_wall a) l /\ is_short (dt_d (x_wall a)) = true /\ valid_dt_clock (x_wall a) /\ dt_tz (x_wall a) = None.
(** The operators for the order answer as the comparison of two integers. *)
Definition ordered_as (rnd : Q -> Q) (m : Q -> Q -> Q -> Q) (a b : xdt) (x y : Z) : Prop :=
  xdt_lt rnd m a b = Ok (x <? y) /\ xdt_le rnd m a b = Ok (x <=? y) /\ xdt_gt rnd m a b = Ok (y <? x) /\ xdt_ge rnd m a b = Ok (y <=? x).
(** The same fields, up to the microsecond. *)
Definition same_wall (a b : pdt) : Prop :=
  dt_d a = dt_d b /\ dt_h a = dt_h b /\ dt_mi a = dt_mi b /\ dt_s a = dt_s b /\ dt_us a = dt_us b.
