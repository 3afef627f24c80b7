(** Exterior lights of the monthly engine in double arithmetic. *)
From Coq Require Import Reals ZArith List.
From Flocq Require Import Core.Core IEEE754.BinarySingleNaN.
From Verif Require Import Base Num Dbl M_Params S_Calendar S_Monthly S_DoubleWater S_DoubleLights.
Import ListNotations.
Open Scope R_scope.

(** A double that is zero (of either sign). *)
Definition is_zero (x : double) : Prop := is_finite x = true /\ B2R x = 0.
(** [i] is the first hour of the average day with radiation and [j] the last. *)
Definition day_span (row : list double) (i j : nat) : Prop :=
  (exists x, nth_error row i = Some x /\ ~ is_zero x) /\ (exists x, nth_error row j = Some x /\ ~ is_zero x) /\
  forall h x, nth_error row h = Some x -> (h < i \/ j < h)%nat -> is_zero x.
(** The exact energy of month [m] with its sun up from hour [i] to hour [j], kWh per m2. *)
Definition outside_exact (p : params_t double) (m i j : nat) : R :=
  B2R (li_exteriorEnergy (pa_lighting p)) / 1000 * (month_hours m * (1 - INR (j - i + 1) / 24)) / B2R (st_floorArea (pa_structure p)).
