(** Specification for C122: hours whose weather is not a number, and entries without energy. *)
From Coq Require Import Reals ZArith List.
From Flocq Require Import Core.Core IEEE754.BinarySingleNaN.
From Verif Require Import Dbl M_Hourly S_Results.

(** The temperature of the hour, or the radiation on one of the eight surfaces or the horizontal, is not a number. *)
Definition broken (w : weather double) : Prop :=
  we_temp w = B754_nan \/ exists d, (d < 9)%nat /\ nth_error (we_sol w) d = Some B754_nan.
(** No energy: zero or not a number. *)
Definition no_energy (x : double) : Prop := is_nan x = true \/ is_finite x = true /\ B2R x = 0%R.
(** The end uses of the plant. *)
Definition plant_uses : list nat := (elec_heating :: elec_cooling :: elec_pumps :: gas_heating :: nil)%list.
