(** Change of number type on parameter records: [map_params f] applies [f] to
    every number.  Used to state facts about the extended-real run on finite data. *)
From Verif Require Import Base Num M_Params M_Hourly.

Section Map.
Context {A B : Type} (f : A -> B).
Definition map_structure (x : structure_t A) : structure_t B :=
  {| st_floorArea := f (st_floorArea x);
     st_wallArea := map f (st_wallArea x);
     st_windowArea := map f (st_windowArea x);
     st_wallU := map f (st_wallU x);
     st_windowU := map f (st_windowU x);
     st_wallEmissivity := map f (st_wallEmissivity x);
     st_wallAbsorption := map f (st_wallAbsorption x);
     st_windowSDF := map f (st_windowSDF x);
     st_windowSHGC := map f (st_windowSHGC x);
     st_windowSCF := map f (st_windowSCF x);
     st_interiorHeatCapacity := f (st_interiorHeatCapacity x);
     st_wallHeatCapacity := f (st_wallHeatCapacity x);
     st_buildingHeight := f (st_buildingHeight x);
     st_infiltrationRate := f (st_infiltrationRate x);
     st_R_se := f (st_R_se x);
     st_irradianceForMaxShadingUse := f (st_irradianceForMaxShadingUse x);
     st_shadingFactorAtMaxUse := f (st_shadingFactorAtMaxUse x);
     st_totalAreaPerFloorArea := f (st_totalAreaPerFloorArea x);
     st_win_ff := f (st_win_ff x);
     st_win_F_W := f (st_win_F_W x);
     st_R_sc_ext := f (st_R_sc_ext x) |}.
Definition map_heating (x : heating_t A) : heating_t B :=
  {| ht_tempOcc := f (ht_tempOcc x);
     ht_tempUnocc := f (ht_tempUnocc x);
     ht_hvacLossFactor := f (ht_hvacLossFactor x);
     ht_efficiency := f (ht_efficiency x);
     ht_energyType := f (ht_energyType x);
     ht_pumpControlReduction := f (ht_pumpControlReduction x);
     ht_hotWaterDemand := f (ht_hotWaterDemand x);
     ht_hotWaterDistributionEfficiency := f (ht_hotWaterDistributionEfficiency x);
     ht_hotWaterSystemEfficiency := f (ht_hotWaterSystemEfficiency x);
     ht_hotWaterEnergyType := f (ht_hotWaterEnergyType x);
     ht_hotcoldWasteFactor := f (ht_hotcoldWasteFactor x);
     ht_forcedAir := ht_forcedAir x;
     ht_dT_supp := f (ht_dT_supp x);
     ht_E_pumps := f (ht_E_pumps x);
     ht_T_ctrl_flag := f (ht_T_ctrl_flag x);
     ht_a_H0 := f (ht_a_H0 x);
     ht_tau_H0 := f (ht_tau_H0 x);
     ht_DH_YesNo := f (ht_DH_YesNo x);
     ht_eta_DH_network := f (ht_eta_DH_network x);
     ht_eta_DH_sys := f (ht_eta_DH_sys x);
     ht_frac_DH_free := f (ht_frac_DH_free x);
     ht_dhw_tset := f (ht_dhw_tset x);
     ht_dhw_tsupply := f (ht_dhw_tsupply x) |}.
Definition map_cooling (x : cooling_t A) : cooling_t B :=
  {| cl_tempOcc := f (cl_tempOcc x);
     cl_tempUnocc := f (cl_tempUnocc x);
     cl_cop := f (cl_cop x);
     cl_partialLoadValue := f (cl_partialLoadValue x);
     cl_hvacLossFactor := f (cl_hvacLossFactor x);
     cl_pumpControlReduction := f (cl_pumpControlReduction x);
     cl_forcedAir := cl_forcedAir x;
     cl_T_ctrl_flag := f (cl_T_ctrl_flag x);
     cl_dT_supp := f (cl_dT_supp x);
     cl_DC_YesNo := f (cl_DC_YesNo x);
     cl_eta_DC_network := f (cl_eta_DC_network x);
     cl_eta_DC_COP := f (cl_eta_DC_COP x);
     cl_eta_DC_frac_abs := f (cl_eta_DC_frac_abs x);
     cl_eta_DC_COP_abs := f (cl_eta_DC_COP_abs x);
     cl_frac_DC_free := f (cl_frac_DC_free x);
     cl_E_pumps := f (cl_E_pumps x) |}.
Definition map_ventilation (x : ventilation_t A) : ventilation_t B :=
  {| ve_supplyRate := f (ve_supplyRate x);
     ve_supplyDifference := f (ve_supplyDifference x);
     ve_heatRecoveryEfficiency := f (ve_heatRecoveryEfficiency x);
     ve_exhaustAirRecirculated := f (ve_exhaustAirRecirculated x);
     ve_type := f (ve_type x);
     ve_fanPower := f (ve_fanPower x);
     ve_fanControlFactor := f (ve_fanControlFactor x);
     ve_preheat := f (ve_preheat x);
     ve_n50 := f (ve_n50 x);
     ve_hzone := f (ve_hzone x);
     ve_p_exp := f (ve_p_exp x);
     ve_zone_frac := f (ve_zone_frac x);
     ve_stack_exp := f (ve_stack_exp x);
     ve_stack_coeff := f (ve_stack_coeff x);
     ve_wind_exp := f (ve_wind_exp x);
     ve_wind_coeff := f (ve_wind_coeff x);
     ve_dCp := f (ve_dCp x);
     ve_vent_rate_flag := ve_vent_rate_flag x;
     ve_H_ve := f (ve_H_ve x) |}.
Definition map_lighting (x : lighting_t A) : lighting_t B :=
  {| li_densityOcc := f (li_densityOcc x);
     li_densityUnocc := f (li_densityUnocc x);
     li_dimmingFraction := f (li_dimmingFraction x);
     li_exteriorEnergy := f (li_exteriorEnergy x);
     li_n_day_start := f (li_n_day_start x);
     li_n_day_end := f (li_n_day_end x);
     li_n_weeks := f (li_n_weeks x);
     li_elecInternalGains := f (li_elecInternalGains x);
     li_permLightPowerDensity := f (li_permLightPowerDensity x);
     li_presenceSensorAd := f (li_presenceSensorAd x);
     li_automaticAd := f (li_automaticAd x);
     li_presenceAutoAd := f (li_presenceAutoAd x);
     li_manualSwitchAd := f (li_manualSwitchAd x);
     li_presenceSensorLux := f (li_presenceSensorLux x);
     li_automaticLux := f (li_automaticLux x);
     li_presenceAutoLux := f (li_presenceAutoLux x);
     li_manualSwitchLux := f (li_manualSwitchLux x);
     li_naturallyLightedArea := f (li_naturallyLightedArea x) |}.
Definition map_building (x : building_t A) : building_t B :=
  {| bu_lightingOccupancySensor := f (bu_lightingOccupancySensor x);
     bu_constantIllumination := f (bu_constantIllumination x);
     bu_elecApplianceOcc := f (bu_elecApplianceOcc x);
     bu_elecApplianceUnocc := f (bu_elecApplianceUnocc x);
     bu_gasApplianceOcc := f (bu_gasApplianceOcc x);
     bu_gasApplianceUnocc := f (bu_gasApplianceUnocc x);
     bu_bem := f (bu_bem x);
     bu_externalEquipment := f (bu_externalEquipment x) |}.
Definition map_population (x : population_t A) : population_t B :=
  {| po_hoursEnd := f (po_hoursEnd x);
     po_hoursStart := f (po_hoursStart x);
     po_daysEnd := f (po_daysEnd x);
     po_daysStart := f (po_daysStart x);
     po_densityOcc := f (po_densityOcc x);
     po_densityUnocc := f (po_densityUnocc x);
     po_heatGainPerPerson := f (po_heatGainPerPerson x) |}.
Definition map_settings (x : settings_t A) : settings_t B :=
  {| ss_phiIntFraction := f (ss_phiIntFraction x);
     ss_phiSolFraction := f (ss_phiSolFraction x);
     ss_hci := f (ss_hci x);
     ss_hri := f (ss_hri x) |}.
Definition map_phys (x : phys_t A) : phys_t B :=
  {| ph_rhoCpAir := f (ph_rhoCpAir x);
     ph_rhoCpWater := f (ph_rhoCpWater x) |}.
Definition map_params (x : params_t A) : params_t B :=
  {| pa_structure := map_structure (pa_structure x);
     pa_heating := map_heating (pa_heating x);
     pa_cooling := map_cooling (pa_cooling x);
     pa_ventilation := map_ventilation (pa_ventilation x);
     pa_lighting := map_lighting (pa_lighting x);
     pa_building := map_building (pa_building x);
     pa_population := map_population (pa_population x);
     pa_settings := map_settings (pa_settings x);
     pa_phys := map_phys (pa_phys x);
     pa_terrain := f (pa_terrain x) |}.
Definition map_sched (x : sched A) : sched B :=
  {| sc_vent := f (sc_vent x);
     sc_extEquip := f (sc_extEquip x);
     sc_intEquip := f (sc_intEquip x);
     sc_extLight := f (sc_extLight x);
     sc_intLight := f (sc_intLight x);
     sc_heatSP := f (sc_heatSP x);
     sc_coolSP := f (sc_coolSP x) |}.
Definition map_ratios (x : ratios A) : ratios B :=
  {| ra_nlaWMovableShading := map f (ra_nlaWMovableShading x);
     ra_naturalLightRatio := map f (ra_naturalLightRatio x);
     ra_naturalLightShadeRatioReduction := map f (ra_naturalLightShadeRatioReduction x);
     ra_saWMovableShading := map f (ra_saWMovableShading x);
     ra_solarRatio := map f (ra_solarRatio x);
     ra_solarShadeRatioReduction := map f (ra_solarShadeRatioReduction x) |}.
Definition map_hinit (x : hinit A) : hinit B :=
  {| hi_maxRatio := f (hi_maxRatio x);
     hi_elightNatural := f (hi_elightNatural x);
     hi_areaNatRatio := f (hi_areaNatRatio x);
     hi_shadingUse := f (hi_shadingUse x);
     hi_q4Pa := f (hi_q4Pa x);
     hi_H_tris := f (hi_H_tris x);
     hi_Cm := f (hi_Cm x);
     hi_Am := f (hi_Am x);
     hi_hwin := f (hi_hwin x);
     hi_prsInterior := f (hi_prsInterior x);
     hi_prsSolar := f (hi_prsSolar x);
     hi_prmInterior := f (hi_prmInterior x);
     hi_prmSolar := f (hi_prmSolar x);
     hi_H_ms := f (hi_H_ms x);
     hi_hem := f (hi_hem x);
     hi_windImpactHz := f (hi_windImpactHz x);
     hi_windImpactSupplyRatio := f (hi_windImpactSupplyRatio x);
     hi_ratios := map_ratios (hi_ratios x) |}.
Definition map_flows (x : flows A) : flows B :=
  {| fl_qSupply := f (fl_qSupply x);
     fl_qEnvelope := f (fl_qEnvelope x);
     fl_qTotal := f (fl_qTotal x);
     fl_tEntering := f (fl_tEntering x) |}.
Definition map_net (x : net A) : net B :=
  {| ne_T := f (ne_T x);
     ne_tEnt := f (ne_tEnt x);
     ne_hei := f (ne_hei x);
     ne_h1 := f (ne_h1 x);
     ne_h2 := f (ne_h2 x);
     ne_h3 := f (ne_h3 x);
     ne_hwin := f (ne_hwin x);
     ne_H_tris := f (ne_H_tris x);
     ne_H_ms := f (ne_H_ms x);
     ne_hem := f (ne_hem x);
     ne_Cm := f (ne_Cm x);
     ne_phis0 := f (ne_phis0 x);
     ne_phim0 := f (ne_phim0 x) |}.
Definition map_hourres (x : hourres A) : hourres B :=
  {| hr_Qneed_ht := f (hr_Qneed_ht x);
     hr_Qneed_cl := f (hr_Qneed_cl x);
     hr_illum := f (hr_illum x);
     hr_illum_ext := f (hr_illum_ext x);
     hr_fan := f (hr_fan x);
     hr_pump := f (hr_pump x);
     hr_plug := f (hr_plug x);
     hr_extEquip := f (hr_extEquip x);
     hr_dhw := f (hr_dhw x) |}.
Definition map_thermal (x : thermal A) : thermal B :=
  {| th_TMT1 := f (th_TMT1 x);
     th_ti := f (th_ti x) |}.
Definition map_weather (x : weather A) : weather B :=
  {| we_wind := f (we_wind x);
     we_temp := f (we_temp x);
     we_sol := map f (we_sol x) |}.
End Map.
