(** Decimal numbers as text, and what reading one means in doubles. *)
From Coq Require Import Ascii String ZArith List Reals.
From Flocq Require Import Core.Core IEEE754.BinarySingleNaN.
From Verif Require Import Base Text Xr Dbl M_Properties.
Import ListNotations.
Open Scope list_scope.
Open Scope R_scope.

(** The digits "0" to "9". *)
Definition figure (d : Z) (c : ascii) : Prop :=
  (0 <= d)%Z /\ nth_error (tx "0123456789") (Z.to_nat d) = Some c.
(** [s] is the whole number [n] in decimal, leading zeros allowed. *)
Inductive spells : text -> Z -> Prop :=
| sp_one : forall d c, figure d c -> spells [c] d
| sp_more : forall s n d c, spells s n -> figure d c -> spells (s ++ [c]) (10 * n + d).
(** The number written [-]whole.part *)
Definition decimal_text (neg : bool) (whole part : text) : text := (if neg then tx "-" else []) ++ whole ++ tx "." ++ part.
Definition decimal_value (neg : bool) (w : Z) (part : text) (f : Z) : R :=
  (if neg then -1 else 1) * (IZR w + IZR f / 10 ^ length part).

(** The nearest double, ties to even. *)
Definition nearest (r : R) : R := round radix2 (FLT_exp (-1074) 53) ZnearestE r.
(** A reader that gives the nearest double for decimal numbers that are zero or of normal size. *)
Definition reads_decimals (rd : reader double) : Prop :=
  forall neg whole part w f, spells whole w -> spells part f ->
  let r := decimal_value neg w part f in
  r = 0 \/ bpow radix2 (-1022) <= Rabs r -> Rabs (nearest r) < bpow radix2 1024 ->
  exists y, rd_stod rd (decimal_text neg whole part) = Value y /\ is_finite y = true /\ B2R y = nearest r.
