(** Specification for C123: a month of weather that is not a number, for the monthly engine. *)
From Coq Require Import ZArith Bool List.
From Flocq Require Import IEEE754.BinarySingleNaN.
From Verif Require Import Num Dbl M_Params M_Monthly S_Results.

(** The mean temperature, the mean irradiance of a side or of the roof is not a number in some month. *)
Definition broken_month (w : mweather double) : Prop :=
  In B754_nan (mw_mdbt w) \/ In B754_nan (mw_mEgh w) \/ exists row, In row (mw_msolar w) /\ In B754_nan row.
Definition positive (x : double) : Prop := Bltb (z2d 0) x = true.
(** Heat, or cold, is bought from a district network. *)
Definition district_heat (p : params_t double) : bool := Beqb (ht_DH_YesNo (pa_heating p)) (z2d 1).
Definition district_cold (p : params_t double) : bool := Beqb (cl_DC_YesNo (pa_cooling p)) (z2d 1).
(** Floor area and the efficiencies of the systems in use are positive. *)
Definition working (p : params_t double) : Prop :=
  positive (st_floorArea (pa_structure p)) /\
  positive (if district_heat p then Bmult mode_NE (ht_eta_DH_sys (pa_heating p)) (ht_eta_DH_network (pa_heating p)) else ht_efficiency (pa_heating p)) /\
  positive (if district_cold p then Bmult mode_NE (cl_eta_DC_COP (pa_cooling p)) (cl_eta_DC_network (pa_cooling p))
            else Bmult mode_NE (cl_cop (pa_cooling p)) (cl_partialLoadValue (pa_cooling p))).
(** The column that carries the heating: electricity for an own plant of energy type 1, gas otherwise. *)
Definition heating_column (p : params_t double) : nat :=
  if (Beqb (ht_energyType (pa_heating p)) (z2d 1) && negb (district_heat p))%bool then elec_heating else gas_heating.
