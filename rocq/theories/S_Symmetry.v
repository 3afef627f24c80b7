(** Two ways to describe another building with the same results per floor area: the walls listed
    in another order (the building turned), and everything larger by one factor. *)
From Coq Require Import List ZArith Permutation Reals.
From Verif Require Import Base Num M_Params M_Hourly M_Monthly.
Import ListNotations.

Section Turn.
Context {T : Type} {N : Num T}.

(** The entries of [v] at the places [order], in that order. *)
Definition rearranged (order : list nat) (v : list T) : list T := map (fun k => nth k v (zn 0)) order.
(** A new order of the eight walls. *)
Definition eight_walls (order : list nat) : Prop := Permutation order (seq 0 8).
(** The eight walls in the new order, the roof (ninth) in its place. *)
Definition turned_vector (order : list nat) (v : list T) : list T := rearranged (order ++ [8%nat]) v.
Definition turned_structure (order : list nat) (s : structure_t T) : structure_t T :=
  let t := turned_vector order in
  mkStructure (st_floorArea s) (t (st_wallArea s)) (t (st_windowArea s)) (t (st_wallU s)) (t (st_windowU s))
    (t (st_wallEmissivity s)) (t (st_wallAbsorption s)) (t (st_windowSDF s)) (t (st_windowSHGC s)) (t (st_windowSCF s))
    (st_interiorHeatCapacity s) (st_wallHeatCapacity s) (st_buildingHeight s) (st_infiltrationRate s) (st_R_se s)
    (st_irradianceForMaxShadingUse s) (st_shadingFactorAtMaxUse s) (st_totalAreaPerFloorArea s) (st_win_ff s) (st_win_F_W s) (st_R_sc_ext s).
Definition turned (order : list nat) (p : params_t T) : params_t T :=
  mkParams (turned_structure order (pa_structure p)) (pa_heating p) (pa_cooling p) (pa_ventilation p) (pa_lighting p)
    (pa_building p) (pa_population p) (pa_settings p) (pa_phys p) (pa_terrain p).
(** The radiation on the walls in the same new order, for one hour and for the months. *)
Definition turned_hour (order : list nat) (w : weather T) : weather T :=
  mkWeather (we_wind w) (we_temp w) (turned_vector order (we_sol w)).
Definition turned_months (order : list nat) (w : mweather T) : mweather T :=
  mkMw (map (rearranged order) (mw_msolar w)) (mw_mhdbt w) (mw_mhEgh w) (mw_mEgh w) (mw_mdbt w) (mw_mwind w).
End Turn.

(** Everything that grows with the building multiplied by [c]: floor, wall and window areas, the
    naturally lighted area, the supplied air and its surplus over the extracted air, the ventilation conductance, the power of exterior lights and of
    external equipment, the hot water demand. *)
Open Scope R_scope.
Definition sized (c : R) (p : params_t R) : params_t R :=
  let s := pa_structure p in let he := pa_heating p in let ve := pa_ventilation p in let li := pa_lighting p in let bu := pa_building p in
  let k x := c * x in
  mkParams
    (mkStructure (k (st_floorArea s)) (map k (st_wallArea s)) (map k (st_windowArea s)) (st_wallU s) (st_windowU s)
       (st_wallEmissivity s) (st_wallAbsorption s) (st_windowSDF s) (st_windowSHGC s) (st_windowSCF s)
       (st_interiorHeatCapacity s) (st_wallHeatCapacity s) (st_buildingHeight s) (st_infiltrationRate s) (st_R_se s)
       (st_irradianceForMaxShadingUse s) (st_shadingFactorAtMaxUse s) (st_totalAreaPerFloorArea s) (st_win_ff s) (st_win_F_W s) (st_R_sc_ext s))
    (mkHeating (ht_tempOcc he) (ht_tempUnocc he) (ht_hvacLossFactor he) (ht_efficiency he) (ht_energyType he) (ht_pumpControlReduction he) (k (ht_hotWaterDemand he)) (ht_hotWaterDistributionEfficiency he) (ht_hotWaterSystemEfficiency he) (ht_hotWaterEnergyType he) (ht_hotcoldWasteFactor he) (ht_forcedAir he) (ht_dT_supp he) (ht_E_pumps he) (ht_T_ctrl_flag he) (ht_a_H0 he) (ht_tau_H0 he) (ht_DH_YesNo he) (ht_eta_DH_network he) (ht_eta_DH_sys he) (ht_frac_DH_free he) (ht_dhw_tset he) (ht_dhw_tsupply he))
    (pa_cooling p)
    (mkVentilation (k (ve_supplyRate ve)) (k (ve_supplyDifference ve)) (ve_heatRecoveryEfficiency ve) (ve_exhaustAirRecirculated ve) (ve_type ve) (ve_fanPower ve) (ve_fanControlFactor ve) (ve_preheat ve) (ve_n50 ve) (ve_hzone ve) (ve_p_exp ve) (ve_zone_frac ve) (ve_stack_exp ve) (ve_stack_coeff ve) (ve_wind_exp ve) (ve_wind_coeff ve) (ve_dCp ve) (ve_vent_rate_flag ve) (k (ve_H_ve ve)))
    (mkLighting (li_densityOcc li) (li_densityUnocc li) (li_dimmingFraction li) (k (li_exteriorEnergy li)) (li_n_day_start li) (li_n_day_end li) (li_n_weeks li) (li_elecInternalGains li) (li_permLightPowerDensity li) (li_presenceSensorAd li) (li_automaticAd li) (li_presenceAutoAd li) (li_manualSwitchAd li) (li_presenceSensorLux li) (li_automaticLux li) (li_presenceAutoLux li) (li_manualSwitchLux li) (k (li_naturallyLightedArea li)))
    (mkBuilding (bu_lightingOccupancySensor bu) (bu_constantIllumination bu) (bu_elecApplianceOcc bu) (bu_elecApplianceUnocc bu) (bu_gasApplianceOcc bu) (bu_gasApplianceUnocc bu) (bu_bem bu) (k (bu_externalEquipment bu)))
    (pa_population p) (pa_settings p) (pa_phys p) (pa_terrain p).
