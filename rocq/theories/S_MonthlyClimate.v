(** Set-points and outdoor temperatures of the monthly engine. *)
From Coq Require Import Reals List ZArith.
From Verif Require Import Num Xr M_Params M_Monthly S_Physical S_Schedule S_MonthlySound S_MonthlyHeat.
Import ListNotations.
Open Scope R_scope.

(** The same building with other set-points: heating in and outside the working hours, cooling in and outside. *)
Definition set_points (p : params_t R) (ho hu co cu : R) : params_t R :=
  let h := pa_heating p in let c := pa_cooling p in
  mkParams (pa_structure p)
    (mkHeating ho hu (ht_hvacLossFactor h) (ht_efficiency h) (ht_energyType h) (ht_pumpControlReduction h) (ht_hotWaterDemand h) (ht_hotWaterDistributionEfficiency h)
       (ht_hotWaterSystemEfficiency h) (ht_hotWaterEnergyType h) (ht_hotcoldWasteFactor h) (ht_forcedAir h) (ht_dT_supp h) (ht_E_pumps h) (ht_T_ctrl_flag h) (ht_a_H0 h) (ht_tau_H0 h)
       (ht_DH_YesNo h) (ht_eta_DH_network h) (ht_eta_DH_sys h) (ht_frac_DH_free h) (ht_dhw_tset h) (ht_dhw_tsupply h))
    (mkCooling co cu (cl_cop c) (cl_partialLoadValue c) (cl_hvacLossFactor c) (cl_pumpControlReduction c) (cl_forcedAir c) (cl_T_ctrl_flag c) (cl_dT_supp c) (cl_DC_YesNo c)
       (cl_eta_DC_network c) (cl_eta_DC_COP c) (cl_eta_DC_frac_abs c) (cl_eta_DC_COP_abs c) (cl_frac_DC_free c) (cl_E_pumps c))
    (pa_ventilation p) (pa_lighting p) (pa_building p) (pa_population p) (pa_settings p) (pa_phys p) (pa_terrain p).

(** The same sun and wind. *)
Record same_sun_wind (w w' : mweather R) : Prop := {
  sw_solar : mw_msolar w' = mw_msolar w;
  sw_hEgh : mw_mhEgh w' = mw_mhEgh w;
  sw_Egh : mw_mEgh w' = mw_mEgh w;
  sw_wind : mw_mwind w' = mw_mwind w }.
(** Month [i] of [w'] has a mean temperature no higher than that of [w]. *)
Definition no_warmer (w w' : mweather R) (i : nat) : Prop :=
  forall te te', nth_error (mw_mdbt w) i = Some te -> nth_error (mw_mdbt w') i = Some te' -> te' <= te.
