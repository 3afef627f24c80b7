(** The house of [E_House] with another heating set-point outside working hours and other working days. *)
From Coq Require Import ZArith Reals.
From Verif Require Import Base Num Xr M_Params M_Monthly S_MonthlyTemp E_SmallOffice E_Monthly E_House.
Open Scope num_scope.

(** Working days [a] to [b], nine hours; [u] outside working hours, 24 in them; no gains. *)
Definition nightHouse (u a b : R) : params_t R :=
  set_heat_setback (with_population (house (zn 0) (zn 0) (zn 0) (zn 0)) (mkPopulation (zn 17) (zn 8) b a (zn 25) (zn 150) (zn 0))) u.
