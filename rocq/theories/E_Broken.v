(** Example data for C122: a year at 0 degrees whose first reading is missing. *)
From Coq Require Import ZArith List.
From Flocq Require Import IEEE754.BinarySingleNaN.
From Verif Require Import Base Num Dbl M_Hourly.
Import ListNotations.

(** A library for the example: only the power is called by the hourly engine, and it may return anything. *)
Definition any_libm : libm := {| lm_pow := fun x _ => x; lm_exp := fun x => x; lm_sin := fun x => x; lm_cos := fun x => x;
  lm_asin := fun x => x; lm_acos := fun x => x; lm_atan2 := fun x _ => x |}.
Definition frost : weather double := mkWeather (z2d 2) (z2d 0) (repeat (z2d 0) 9).
(** The same hour with a temperature that is not a number. *)
Definition unread : weather double := mkWeather (z2d 2) B754_nan (repeat (z2d 0) 9).
Definition frost_year : list (weather double) := repeat frost (Z.to_nat 8760).
Definition unread_year : list (weather double) := unread :: repeat frost (Z.to_nat 8759).
