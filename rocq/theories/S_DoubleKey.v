(** Cache keys in double precision. *)
From Coq Require Import Reals.
From Flocq Require Import Core.Core IEEE754.BinarySingleNaN.
From Verif Require Import Num Xr Dbl S_Weather.

(** What a double stands for; both zeros stand for 0. *)
Definition denotes (x : double) : xr :=
  match x with
  | B754_zero _ => Fin 0
  | B754_infinity s => if s then NInf else PInf
  | B754_nan => NaN
  | B754_finite _ _ _ _ => Fin (B2R x)
  end.
(** Neither coordinate is NaN. *)
Definition double_key (k : double * double) : Prop := is_nan (fst k) = false /\ is_nan (snd k) = false.
(** Both coordinates are the same numbers. *)
Definition same_place (a b : double * double) : Prop := denotes (fst a) = denotes (fst b) /\ denotes (snd a) = denotes (snd b).
