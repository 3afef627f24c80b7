(** The same building with other air leakage and heat recovery, for the monthly engine. *)
From Coq Require Import Reals List.
From Verif Require Import Num Xr M_Params M_Monthly.
Open Scope R_scope.

(** Infiltration rate [n], heat recovery efficiency [e], otherwise unchanged. *)
Definition with_air (p : params_t R) (n e : R) : params_t R :=
  let s := pa_structure p in let v := pa_ventilation p in
  mkParams (mkStructure (st_floorArea s) (st_wallArea s) (st_windowArea s) (st_wallU s) (st_windowU s) (st_wallEmissivity s) (st_wallAbsorption s) (st_windowSDF s)
      (st_windowSHGC s) (st_windowSCF s) (st_interiorHeatCapacity s) (st_wallHeatCapacity s) (st_buildingHeight s) n (st_R_se s)
      (st_irradianceForMaxShadingUse s) (st_shadingFactorAtMaxUse s) (st_totalAreaPerFloorArea s) (st_win_ff s) (st_win_F_W s) (st_R_sc_ext s))
    (pa_heating p) (pa_cooling p)
    (mkVentilation (ve_supplyRate v) (ve_supplyDifference v) e (ve_exhaustAirRecirculated v) (ve_type v) (ve_fanPower v) (ve_fanControlFactor v) (ve_preheat v) (ve_n50 v)
       (ve_hzone v) (ve_p_exp v) (ve_zone_frac v) (ve_stack_exp v) (ve_stack_coeff v) (ve_wind_exp v) (ve_wind_coeff v) (ve_dCp v) (ve_vent_rate_flag v) (ve_H_ve v))
    (pa_lighting p) (pa_building p) (pa_population p) (pa_settings p) (pa_phys p) (pa_terrain p).
(** At least as leaky as [p], and recovering no more heat from the exhaust air. *)
Definition draughtier (p : params_t R) (n e : R) : Prop :=
  st_infiltrationRate (pa_structure p) <= n /\ e <= ve_heatRecoveryEfficiency (pa_ventilation p).
